(** Specification notions for the README's animation. *)
From Coq Require Import ZArith List Bool String.
From Verif Require Import PyBase F64 SpaceModel ColorModel AnsiRe SpanModel ScreenModel ScreenSpec Vt DrawSpec.
Import ListNotations.
Open Scope Z_scope.
Open Scope list_scope.

(** the place chosen by a pair of random numbers *)
Definition chosen (w h : Z) (k : Z * Z) : pos := (fst k mod w, snd k mod h).
(** has one of them been chosen *)
Definition marked (w h : Z) (ks : list (Z * Z)) (q : pos) : Prop := In q (map (chosen w h) ks).
(** bold, dark gray on darker gray *)
Definition gray_bold (sh : triple -> ecolor) : rend := mkRend (sh (51, 51, 51)) (sh (25, 25, 25)) true false false false false false false false false.
(** what one turn sends if the place was not chosen before: the cursor movement, a white character, a reset *)
Definition turn_text (e : env) (q : pos) : str :=
  ([27; 91] ++ dec (snd q + 1) ++ lit ";" ++ dec (fst q + 1) ++ lit "H") ++ match color_ansi e WHITE with [] => [] | a => [27; 91] ++ a ++ [109] end ++ lit "0" ++ [27; 91; 48; 109].
