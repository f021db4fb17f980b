(** Specification: a part of XML 1.0 as a relation between element trees and the texts that
    write them, and the tree a terminal export should be. *)
From Coq Require Import ZArith List Bool String.
From Verif Require Import PyBase F64 ColorModel ColorSpec SpanModel ScreenModel SvgSpec.
Import ListNotations.
Open Scope Z_scope.
Open Scope list_scope.

(** * XML *)
(** the characters XML allows, without the carriage return (which readers replace) *)
Definition xml_char (c : Z) : bool :=
  (c =? 9) || (c =? 10) || ((32 <=? c) && (c <=? 55295)) || ((57344 <=? c) && (c <=? 65533)) || ((65536 <=? c) && (c <=? 1114111)).
Definition white (c : Z) : Prop := c = 32 \/ c = 10.
Definition name_char (c : Z) : bool := ((65 <=? c) && (c <=? 90)) || ((97 <=? c) && (c <=? 122)).
Definition xml_name (n : str) : Prop := n <> [] /\ forallb name_char n = true.

(** references, with the characters they stand for *)
Definition references : list (str * Z) :=
  [(lit "&amp;", 38); (lit "&lt;", 60); (lit "&gt;", 62); (lit "&quot;", 34); (lit "&#x27;", 39); (lit "&#160;", 160)].

(** [chardata t r]: r writes the text t between tags *)
Inductive chardata : str -> str -> Prop :=
| cd_nil : chardata [] []
| cd_plain : forall c t r, xml_char c = true -> ~ In c [60; 62; 38] -> chardata t r -> chardata (c :: t) (c :: r)
| cd_ref : forall n c t r, In (n, c) references -> chardata t r -> chardata (c :: t) (n ++ r).
(** [value q v r]: r writes the value v between quotes q *)
Inductive value (q : Z) : str -> str -> Prop :=
| va_nil : value q [] []
| va_plain : forall c v r, xml_char c = true -> ~ In c [9; 10; 60; 38; q] -> value q v r -> value q (c :: v) (c :: r)
| va_ref : forall n c v r, In (n, c) references -> value q v r -> value q (c :: v) (n ++ r).
Inductive attributes : list attr -> str -> Prop :=
| at_nil : attributes [] []
| at_cons : forall gap n v q r l rs, gap <> [] -> Forall white gap -> xml_name n -> q = 34 \/ q = 39 -> value q v r ->
    attributes l rs -> attributes ((n, v) :: l) (gap ++ n ++ [61; q] ++ r ++ [q] ++ rs).

Inductive node :=
| Text : str -> node
| Element : str -> list attr -> list node -> node.
Definition no_text_first (l : list node) : Prop := match l with Text _ :: _ => False | _ => True end.
(** [writes l s]: s writes the sequence of nodes l; no element has two attributes of one name *)
Inductive writes : list node -> str -> Prop :=
| wr_nil : writes [] []
| wr_text : forall t r l s, t <> [] -> no_text_first l -> chardata t r -> writes l s -> writes (Text t :: l) (r ++ s)
| wr_element : forall n al a ch c l s, xml_name n -> NoDup (map fst al) -> attributes al a -> writes ch c -> writes l s ->
    writes (Element n al ch :: l) ([60] ++ n ++ a ++ [62] ++ c ++ [60; 47] ++ n ++ [62] ++ s).
(** a document: one element, white space around it *)
Definition document (root : node) (s : str) : Prop :=
  exists before after el, Forall white before /\ Forall white after /\ s = before ++ el ++ after /\
    writes [root] el /\ match root with Text _ => False | _ => True end.

(** * The tree of a terminal export *)
Definition numeral (v : str) : Prop :=
  Forall (fun c => 48 <= c <= 57 \/ 97 <= c <= 122 \/ In c [43; 45; 46]) v.
Definition text_nodes (t : str) : list node := match t with [] => [] | _ => [Text t] end.
(** spaces are shown as no-break spaces *)
Definition unbroken (t : str) : str := map (fun c => if c =? 32 then 160 else c) t.
Definition class_name (i : Z) : str := lit "screen__span" ++ dec i.
Definition piece_nodes (nums : piece -> svg_numbers) (dfg dbg : color) (p : piece) : list node :=
  let s := p_span p in
  let shown := match s_fg s with Some c => c | None => dfg end in
  let behind := match s_bg s with Some c => c | None => dbg end in
  let fg := if fl_invert (s_flags s) then behind else shown in
  let bg := if fl_invert (s_flags s) then shown else behind in
  [ Element (lit "rect") [(lit "x", sv_x (nums p)); (lit "y", sv_yrect (nums p)); (lit "fill", color_hex bg);
                          (lit "width", sv_width (nums p)); (lit "height", sv_height (nums p))] [];
    Element (lit "text") [(lit "dy", lit "-0.25em"); (lit "x", sv_x (nums p)); (lit "y", sv_ytext (nums p));
                          (lit "fill", color_hex fg); (lit "class", class_name (p_class p))]
      (text_nodes (unbroken (s_text s))) ].

(** declarations of a rule, separated by semicolons on lines of their own *)
Fixpoint declarations (d : list (str * str)) : str :=
  match d with
  | [] => []
  | (k, v) :: r => k ++ [58] ++ v ++ match r with [] => [] | _ => [59; 10] ++ declarations r end
  end.
Definition piece_css (s : span) : list (str * str) :=
  wanted_css (s_flags s) ++
  match (if fl_invert (s_flags s) then s_bg s else s_fg s) with Some c => [(lit "fill", color_hex c)] | None => [] end.
Definition piece_rule (p : piece) : str :=
  [46] ++ class_name (p_class p) ++ lit " {" ++ declarations (piece_css (p_span p)) ++ lit "}" ++ [10].
(** what the style element says before the rules of the pieces: a font of fixed width, of the size asked for *)
Definition font_rule (font_size : str) : str :=
  [10] ++ lit "        text {" ++ [10]
  ++ lit "            font-size: " ++ font_size ++ lit "px;" ++ [10]
  ++ lit "            font-family: Menlo, 'DejaVu Sans Mono', consolas, 'Courier New', monospace;" ++ [10]
  ++ lit "            font-feature-settings: normal;" ++ [10]
  ++ lit "            /* Inline SVGs are `antialiased` by default, while `src=`-d ones are `auto`.*/" ++ [10]
  ++ lit "            -webkit-font-smoothing: auto;" ++ [10]
  ++ lit "        }" ++ [10].

(** the rectangles and texts, line breaks around them *)
Definition screen_nodes (nums : piece -> svg_numbers) (dfg dbg : color) (l : list piece) : list node :=
  match l with
  | [] => [Text [10; 10]]
  | _ => Text [10] :: flat_map (piece_nodes nums dfg dbg) l ++ [Text [10]]
  end.
(** the whole picture around the nodes of the screen *)
Definition terminal_frame (font_size width height : str) (dbg : color) (l : list piece) (inner : list node) : node :=
  Element (lit "svg") [(lit "width", width); (lit "height", height); (lit "viewBox", lit "0 0 " ++ width ++ [32] ++ height);
                       (lit "xmlns", lit "http://www.w3.org/2000/svg")]
    [ Text ([10] ++ lit "    ");
      Element (lit "style") [(lit "type", lit "text/css")]
        [Text (font_rule font_size ++ List.concat (map piece_rule l) ++ [10] ++ lit "    ")];
      Text [10];
      Element (lit "rect") [(lit "width", width); (lit "height", height); (lit "fill", lit "#" ++ color_hex dbg); (lit "rx", lit "9px")] [];
      Text [10];
      Element (lit "g") [(lit "transform", lit "translate(16, 16)")] inner;
      Text [10] ].
Definition terminal_tree (font_size width height : str) (nums : piece -> svg_numbers) (dfg dbg : color) (l : list piece) : node :=
  terminal_frame font_size width height dbg l (screen_nodes nums dfg dbg l).

Definition good_numbers (n : svg_numbers) : Prop :=
  numeral (sv_x n) /\ numeral (sv_yrect n) /\ numeral (sv_width n) /\ numeral (sv_height n) /\ numeral (sv_ytext n).
Definition legible (p : piece) : Prop := forallb xml_char (s_text (p_span p)) = true.
(** cells whose colors are colors *)
Definition valid_cell (c : cell) : Prop :=
  (forall x, snd (fst c) = Some x -> color_ok x) /\ (forall x, snd c = Some x -> color_ok x).
