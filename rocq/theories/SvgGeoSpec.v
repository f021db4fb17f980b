(** Specification notions for the coordinates of an SVG export, in real numbers. *)
From Coq Require Import ZArith List Bool Reals.
From Flocq Require Import IEEE754.BinarySingleNaN.
From Verif Require Import PyBase F64 ColorModel SpanModel ScreenModel SvgGeoModel.
Import ListNotations.
Open Scope R_scope.

(** width and height of a character, in units of the font size *)
Definition em_width : R := 60167 / 100000.
Definition em_height : R := 1265 / 1000.

Definition finite_shape (p : shape) : Prop :=
  is_finite (sh_x p) = true /\ is_finite (sh_y p) = true /\ is_finite (sh_width p) = true /\
  is_finite (sh_height p) = true /\ is_finite (sh_text_y p) = true.
(** the edges of the rectangle *)
Definition left_edge (p : shape) : R := B2R (sh_x p).
Definition right_edge (p : shape) : R := B2R (sh_x p) + B2R (sh_width p).
Definition top_edge (p : shape) : R := B2R (sh_y p).
Definition bottom_edge (p : shape) : R := B2R (sh_y p) + B2R (sh_height p).

(** characters in a sequence of spans *)
Definition letters_in (l : list span) : Z := fold_right (fun s n => zlen (s_text s) + n)%Z 0%Z l.
(** text drawn with block characters only *)
Definition blocks (t : str) : Prop := Forall (fun c => 9600 <= c <= 9631)%Z t.

(** font sizes and screens the statements are about *)
Definition font (fs : Z) : Prop := (1 <= fs <= 1024)%Z.
Definition extent (n : Z) : Prop := (0 <= n <= 8192)%Z.

(** the shape of the i-th piece of row y *)
Definition shape_at (ps : list (list shape)) (y : Z) (i : nat) : option shape :=
  match nth_error ps (Z.to_nat y) with Some r => nth_error r i | None => None end.
(** the groups of the cells of row y *)
Definition row_groups (e : env) (s : screen) (y : Z) (l : list span) : Prop :=
  (0 <= y)%Z /\ exists row, nth_error (sc_cells s) (Z.to_nat y) = Some row /\ group e row = Ok l.
(** how far above its line the rectangle starts: text has a baseline, blocks fill their cell *)
Definition all_blocks (t : str) : bool := forallb (fun c => (9600 <=? c)%Z && (c <=? 9631)%Z) t.
Definition raise (fs : Z) (t : str) : R := if all_blocks t then 0 else 17 / 100 * IZR fs.
