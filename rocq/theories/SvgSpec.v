(** Specification vocabulary for SVG exports. *)
From Coq Require Import ZArith List Bool String.
From Verif Require Import PyBase F64 ColorModel SpanModel SpanSpec ScreenModel.
Open Scope Z_scope.
Open Scope list_scope.

(** One exported piece of text *)
Definition piece := (Z * Z * Z * span)%type.
Definition p_column (p : piece) : Z := fst (fst (fst p)).
Definition p_row (p : piece) : Z := snd (fst (fst p)).
Definition p_class (p : piece) : Z := snd (fst p).
Definition p_span (p : piece) : span := snd p.

(** the pieces of a row, in order *)
Definition of_row (y : Z) (l : list piece) : list piece := filter (fun p => p_row p =? y) l.
Definition characters_in (l : list piece) : Z := fold_right (fun p n => zlen (s_text (p_span p)) + n) 0 l.
Definition same_style (a b : span) : Prop :=
  s_flags a = s_flags b /\ eq_color (s_fg a) (s_fg b) /\ eq_color (s_bg a) (s_bg b) /\ s_link a = s_link b.

(** * XML, as far as needed *)
(** an attribute: white space, name, value between apostrophes *)
Definition attr := (str * str)%type.
Definition attr_text (gap : str) (a : attr) : str := gap ++ fst a ++ lit "='" ++ snd a ++ lit "'".
(** an element holding text, its attributes separated by white space *)
Inductive element (name : str) : list attr -> str -> str -> Prop :=
| element_intro : forall attrs gaps content, List.length gaps = List.length attrs ->
    Forall (fun g => g <> [] /\ Forall (eq 32) g) gaps ->
    element name attrs content
      (lit "<" ++ name ++ List.concat (map (fun ga => attr_text (fst ga) (snd ga)) (combine gaps attrs)) ++ lit ">"
       ++ content ++ lit "</" ++ name ++ lit ">").
(** a value that cannot end its attribute or start markup *)
Definition inert (v : str) : Prop := ~ In 39 v /\ ~ In 60 v /\ ~ In 38 v.
(** text content that cannot start a tag *)
Definition inert_text (v : str) : Prop := ~ In 60 v /\ ~ In 62 v.

(** a color as SVG writes it: # and six hexadecimal digits *)
Definition hex_digit_char (c : Z) : bool := ((48 <=? c) && (c <=? 57)) || ((65 <=? c) && (c <=? 70)) || ((97 <=? c) && (c <=? 102)).
Definition svg_color (v : str) : Prop :=
  match v with c :: d => c = 35 /\ zlen d = 6 /\ forallb hex_digit_char d = true | [] => False end.

(** the CSS a style calls for *)
Definition wanted_css (f : flags) : list (str * str) :=
  (if fl_bold f then [(lit "font-weight", lit "bold")] else []) ++
  (if fl_dim f then [(lit "opacity", lit "0.7")] else []) ++
  (if fl_italic f then [(lit "font-style", lit "italic")] else []) ++
  (if fl_underline f then [(lit "text-decoration", lit "underline")] else []).

Definition svg_attrs (s : span) (n : svg_numbers) (fg : color) (inline : bool) (cls : option str) : list attr :=
  [(lit "dy", lit "-0.25em"); (lit "x", sv_x n); (lit "y", sv_ytext n); (lit "fill", color_hex fg)] ++
  (if inline then [(lit "styles", css_inline (get_svg_styles s))] else []) ++
  (match cls with Some c => [(lit "class", c)] | None => [] end).
