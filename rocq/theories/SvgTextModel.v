(** The text of an SVG export with the numbers as Python prints them (span.py:498-540,
    screen.py:350-420, terminal.py:420-472).
    Python's integers and floats are kept apart: the origin (0, 0) and the font size are integers,
    and [str] writes 0 for the integer and 0.0 for the float.  Simplification: the default colors
    are already chosen (terminal.py:436-442); the font size is an integer. *)
From Coq Require Import ZArith List Bool String.
From Verif Require Import PyBase F64 ColorModel SpanModel ScreenModel TermModel SvgDocModel SvgGeoModel ReprModel.
Import ListNotations.
Open Scope Z_scope.
Open Scope list_scope.

Inductive num := NInt (z : Z) | NFlt (x : f64).
(** the float an operand becomes beside a float *)
Definition num_f (a : num) : f64 := match a with NInt z => fofZ z | NFlt x => x end.
Definition nadd (a b : num) : num :=
  match a, b with NInt x, NInt y => NInt (x + y) | _, _ => NFlt (fadd (num_f a) (num_f b)) end.
Definition nsub (a b : num) : num :=
  match a, b with NInt x, NInt y => NInt (x - y) | _, _ => NFlt (fsub (num_f a) (num_f b)) end.
(** [round(a, n)], d = 10^n: integers stay as they are *)
Definition nround (a : num) (d : Z) : num := match a with NInt z => NInt z | NFlt x => NFlt (fround x d) end.
(** [f"{a}"] *)
Definition nstr (a : num) : str := match a with NInt z => dec z | NFlt x => float_repr x end.

(** span.py:498-540: the numbers of the two tags *)
Definition span_numbers (fs : Z) (x y : num) (text : str) : svg_numbers :=
  let char_width := fround (fmul (fofZ fs) SVG_CHAR_WIDTH) 10000 in
  let rect_height := fround (fmul (fofZ fs) SVG_RECT_HEIGHT) 10000 in
  let baseline_offset := if is_block text then NInt 0 else NFlt (fmul SVG_RECT_BASELINE_OFFSET (fofZ fs)) in
  let x := nround x 100 in
  let y := nround y 100 in
  {| sv_x := nstr x;
     sv_yrect := nstr (nsub y baseline_offset);
     sv_width := fixed4 (fround (fadd (fmul char_width (fofZ (zlen text))) (flit 1 2)) 100);
     sv_height := float_repr rect_height;
     sv_ytext := nstr (nadd y (NInt fs)) |}.

(** screen.py:405-416: the spans of a row; the tags, the style rules, the class and span reached *)
Fixpoint text_row (fs : Z) (dfg dbg : color) (spans : list span) (x y : num) (i : Z) (prev : option span)
  : str * str * Z * option span :=
  match spans with
  | [] => ([], [], i, prev)
  | s :: rest =>
      let i := match prev with
               | Some p => if attrs_eqb p s then i else i + 1
               | None => i + 1 end in
      let new_svg := as_svg s (span_numbers fs x y (s_text s)) dfg dbg false (Some (svg_class i)) in
      let new_style := svg_rule i s in
      let x := nadd x (NFlt (fmul (fofZ (span_len s)) (fmul (fofZ fs) SVG_CHAR_WIDTH))) in
      let '(svg, css, i', p') := text_row fs dfg dbg rest x y i (Some s) in
      (new_svg ++ svg, new_style ++ css, i', p')
  end.
(** screen.py:404-420 *)
Fixpoint text_rows (e : env) (fs : Z) (dfg dbg : color) (rows : list (list cell)) (y : num) (i : Z) (prev : option span)
  : res (str * str) :=
  match rows with
  | [] => Ok ([], [])
  | row :: rest =>
      let* spans := group e row in
      let '(svg, css, i, prev) := text_row fs dfg dbg spans (NInt 0) y i prev in
      let* r := text_rows e fs dfg dbg rest (nadd y (NFlt (fmul (fofZ fs) SVG_CHAR_HEIGHT))) i prev in
      Ok (svg ++ fst r, css ++ snd r)
  end.
(** screen.py:350-420 with the origin (0, 0) *)
Definition export_svg_with_styles (e : env) (s : screen) (fs : Z) (dfg dbg : color) : res (str * str) :=
  text_rows e fs dfg dbg (sc_cells s) (NInt 0) 0 None.
(** terminal.py:420-472; w and h are the size of the terminal *)
Definition export_text (e : env) (s : screen) (w h fs : Z) (dfg dbg : color) : res str :=
  let* r := export_svg_with_styles e s fs dfg dbg in
  let width := float_repr (total_width w fs) in
  let height := float_repr (total_height h fs) in
  Ok (svg_template (dec fs) width height (snd r) (svg_background width height dbg) (fst r)).
