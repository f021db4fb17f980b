(** Specification: distance between colors, nearest palette entry. *)
From Coq Require Import ZArith Reals.
From Verif Require Import PyBase ColorSpec Vt.
Open Scope R_scope.

(** The "redmean" distance of the documentation cited at color.py:24-30 (compuphase.com):
    sqrt((2 + rm/256) dR^2 + 4 dG^2 + (2 + (255-rm)/256) dB^2), rm the (integer) mean red. *)
Definition redmean_distance (a b : Z * Z * Z) : R :=
  let '(r1, g1, b1) := a in
  let '(r2, g2, b2) := b in
  let rm := IZR ((r1 + r2) / 2) in
  sqrt ((2 + rm / 256) * (IZR r1 - IZR r2) ^ 2 + 4 * (IZR g1 - IZR g2) ^ 2
        + (2 + (255 - rm) / 256) * (IZR b1 - IZR b2) ^ 2).

(** [i] is the first of the 16 standard colors nearest to [t] *)
Definition first_nearest (t : Z * Z * Z) (i : Z) : Prop :=
  (0 <= i < 16)%Z /\
  (forall j, (0 <= j < 16)%Z ->
     redmean_distance t (palette_entry i) <= redmean_distance t (palette_entry j)) /\
  (forall j, (0 <= j < i)%Z ->
     redmean_distance t (palette_entry i) < redmean_distance t (palette_entry j)).

(** The SGR code selecting standard color [i] on a layer *)
Definition standard_code (bg : bool) (i : Z) : Z :=
  (if i <? 8 then i + 30 else i - 8 + 90) + (if bg then 10 else 0).

(** the palette index of cube coordinates *)
Definition cube_index (a b c : Z) : Z := (16 + 36 * a + 6 * b + c)%Z.

Definition nearest_sixth (v k : Z) : Prop := (0 <= k <= 5 /\ 2 * Z.abs (51 * k - v) < 51)%Z.

(** exact palette colors whose channels are 0, 175, 215 or 255 come out as themselves *)
Definition kept_level (v : Z) : Prop := (v = 0 \/ v = 175 \/ v = 215 \/ v = 255)%Z.

Definition set_layer (bg : bool) (x : ecolor) (pen : rend) : rend := (if bg then with_bg else with_fg) x pen.
