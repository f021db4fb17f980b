(** The document made by Terminal.export_svg (terminal.py:42-60, 420-472).
    Simplification: the numbers (font size, total width and height, coordinates) are given already
    formatted; the margins are the constants 16 of lines 446-447. *)
From Coq Require Import ZArith List Bool String.
From Verif Require Import PyBase F64 ColorModel SpanModel ScreenModel TermModel.
Import ListNotations.
Open Scope Z_scope.
Open Scope list_scope.

(** a line of the template and its line break *)
Definition ln (s : str) : str := s ++ [NL].

(** screen.py:411-413 *)
Definition svg_screen (nums : Z * Z * Z * span -> svg_numbers) (dfg dbg : color) (l : list (Z * Z * Z * span)) : str :=
  List.concat (map (fun p => as_svg (snd p) (nums p) dfg dbg false (Some (svg_class (snd (fst p))))) l).
Definition svg_stylesheet (l : list (Z * Z * Z * span)) : str :=
  List.concat (map (fun p => svg_rule (snd (fst p)) (snd p)) l).

(** terminal.py:42-60 SVG_TEMPLATE.format(...) *)
Definition svg_template (font_size total_width total_height stylesheet background screen : str) : str :=
  ln []
  ++ ln (lit "<svg width=""" ++ total_width ++ lit """ height=""" ++ total_height ++ lit """")
  ++ ln (lit "    viewBox=""0 0 " ++ total_width ++ lit " " ++ total_height
         ++ lit """ xmlns=""http://www.w3.org/2000/svg"">")
  ++ ln (lit "    <style type=""text/css"">")
  ++ ln (lit "        text {")
  ++ ln (lit "            font-size: " ++ font_size ++ lit "px;")
  ++ ln (lit "            font-family: Menlo, 'DejaVu Sans Mono', consolas, 'Courier New', monospace;")
  ++ ln (lit "            font-feature-settings: normal;")
  ++ ln (lit "            /* Inline SVGs are `antialiased` by default, while `src=`-d ones are `auto`.*/")
  ++ ln (lit "            -webkit-font-smoothing: auto;")
  ++ ln (lit "        }")
  ++ ln stylesheet
  ++ ln (lit "    </style>")
  ++ ln background
  ++ ln (lit "<g transform=""translate(16, 16)"">")
  ++ ln screen
  ++ ln (lit "</g>")
  ++ lit "</svg>".

(** terminal.py:436-472 with the colors already chosen *)
Definition export_document (e : env) (s : screen) (font_size total_width total_height : str)
    (nums : Z * Z * Z * span -> svg_numbers) (dfg dbg : color) : res str :=
  let* l := export_svg e s in
  Ok (svg_template font_size total_width total_height (svg_stylesheet l)
        (svg_background total_width total_height dbg) (svg_screen nums dfg dbg l)).
