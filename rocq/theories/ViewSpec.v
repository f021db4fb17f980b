(** Specification: what somebody sees who looks at an SVG export, and how that compares with a
    terminal.  A viewer fills the rectangle of a piece as its [fill] says, and its text as the rule
    of its class says or else as its [fill] says. *)
From Coq Require Import ZArith Reals List Bool String.
From Verif Require Import PyBase F64 SpaceModel ColorSpec ColorModel AnsiRe SpanModel Vt SpanSpec ScreenModel ScreenSpec
  SvgSpec SvgDocSpec DrawSpec.
Import ListNotations.
Open Scope Z_scope.
Open Scope list_scope.

Fixpoint lookup (k : str) (l : list (str * str)) : option str :=
  match l with
  | [] => None
  | (n, v) :: r => if str_eqb n k then Some v else lookup k r
  end.
Definition filled (n : node) : option str := match n with Element _ al _ => lookup (lit "fill") al | Text _ => None end.
(** the color behind a piece, and that of its text *)
Definition paper (nums : piece -> svg_numbers) (dfg dbg : color) (p : piece) : option str :=
  match piece_nodes nums dfg dbg p with rect :: _ => filled rect | _ => None end.
Definition ink (nums : piece -> svg_numbers) (dfg dbg : color) (p : piece) : option str :=
  match lookup (lit "fill") (piece_css (p_span p)) with
  | Some v => Some v
  | None => match piece_nodes nums dfg dbg p with _ :: text :: _ => filled text | _ => None end
  end.
Definition declared (k v : string) (p : piece) : Prop := In (lit k, lit v) (piece_css (p_span p)).

(** * Compared with a terminal *)
(** the color of the terminal as SVG writes it; [d] is its default *)
Definition hex_of (d : color) (x : ecolor) : option str :=
  match x with
  | EDefault => Some (color_hex d)
  | ERgb r g b => Some (color_hex (mkColor (r, g, b) false fone TRUE_COLOR None))
  | EIdx _ => None
  end.
(** in the colors asked for *)
Definition as_asked (t : triple) : ecolor := let '(r, g, b) := t in ERgb r g b.

(** the piece extends over the position *)
Definition extends (p : piece) (q : pos) : Prop :=
  p_row p = snd q /\ p_column p <= fst q < p_column p + zlen (s_text (p_span p)).
Definition glyph_at (p : piece) (q : pos) : option Z := nth_error (unbroken (s_text (p_span p))) (Z.to_nat (fst q - p_column p)).
(** the character and attributes of the cell [v]; a space is written as a no-break space *)
Definition spelled (p : piece) (q : pos) (v : Z * rend) : Prop :=
  let '(g, r) := v in
  glyph_at p q = Some (if g =? 32 then 160 else g) /\
  (declared "font-weight" "bold" p <-> r_bold r = true) /\
  (declared "opacity" "0.7" p <-> r_dim r = true) /\
  (declared "font-style" "italic" p <-> r_italic r = true) /\
  (declared "text-decoration" "underline" p <-> r_underline r = true).
(** and its colors *)
Definition inked (nums : piece -> svg_numbers) (dfg dbg : color) (p : piece) (v : Z * rend) : Prop :=
  let r := snd v in
  ink nums dfg dbg p = (if r_inverse r then hex_of dbg (r_bg r) else hex_of dfg (r_fg r)) /\
  paper nums dfg dbg p = (if r_inverse r then hex_of dfg (r_fg r) else hex_of dbg (r_bg r)).
(** the pieces show the [w] by [h] picture *)
Definition pictured (R : piece -> pos -> Z * rend -> Prop) (w h : Z) (l : list piece) (P : picture) : Prop :=
  forall q, on_screen w h q -> (exists p, In p l /\ extends p q) /\ forall p, In p l -> extends p q -> R p q (P q).

(** * Histories *)
(** Pictures in which nothing colored, to the right of a gap that has something colored to its left,
    repeats the first character of the gap without attributes *)
Definition gaps_end (w h : Z) (P : picture) : Prop := forall y x1 x2, 0 <= y < h -> 0 < x1 < x2 -> x2 < w ->
  snd (P (x1 - 1, y)) <> rend0 -> (forall x, x1 <= x < x2 -> snd (P (x, y)) = rend0) ->
  fst (P (x2, y)) = fst (P (x1, y)) -> DrawSpec.attributes (snd (P (x2, y))) = DrawSpec.attributes rend0 ->
  snd (P (x2, y)) = rend0.
Definition in_xml (w h : Z) (P : picture) : Prop := forall q, on_screen w h q -> xml_char (fst (P q)) = true.
