(** Specification: the textbook HLS hue rotation over the reals. *)
From Coq Require Import ZArith Reals.
From Verif Require Import PyBase ColorModel ColorSpec.
Open Scope R_scope.

Definition frac (x : R) : R := x - IZR (up x - 1).        (* x - floor x *)

(** Weight of the brightest channel at hue u: rises over [0,1/6], 1 on [1/6,1/2], falls over
    [1/2,2/3], 0 on [2/3,1]. *)
Definition weight (u : R) : R := Rmax 0 (Rmin 1 (Rmin (6 * u) (4 - 6 * u))).

(** Channel at hue x (a turn is 1) of a color whose channels span lo..hi *)
Definition at_hue (lo hi x : R) : R := lo + (hi - lo) * weight (frac x).

(** Hue of (r, g, b), not all equal: which channel is the (first) brightest decides *)
Definition true_hue (r g b : Z) : R :=
  let M := Z.max (Z.max r g) b in
  let range := IZR (M - Z.min (Z.min r g) b) in
  if (r =? M)%Z then (IZR g - IZR b) / range / 6
  else if (g =? M)%Z then (2 + (IZR b - IZR r) / range) / 6
  else (4 + (IZR r - IZR g) / range) / 6.

(** The colors hue_shift works with: 255/256 of the channel, truncated *)
Definition dimmed (v : Z) : Z := Z.max 0 (v - 1).

Definition top (r g b : Z) : Z := Z.max (Z.max r g) b.
Definition bot (r g b : Z) : Z := Z.min (Z.min r g) b.

Definition tiny : R := / 1073741824.                 (* 2^-30 *)
(** [v] is [y] truncated, up to a rounding error of 2^-30 *)
Definition truncated_to (v : Z) (y : R) : Prop := IZR v - tiny <= y < IZR v + 1 + tiny.

(** Darkest and brightest channel on the 256 scale hue_shift uses *)
Definition lo_of (r g b : Z) : R := IZR (bot r g b) / 256.
Definition hi_of (r g b : Z) : R := IZR (top r g b) / 256.

(** All channels of [k] lie within the span of [c]'s channels *)
Definition within (c k : color) : Prop :=
  let lo := dimmed (bot (red c) (green c) (blue c)) in
  let hi := dimmed (top (red c) (green c) (blue c)) in
  (lo <= red k <= hi)%Z /\ (lo <= green k <= hi)%Z /\ (lo <= blue k <= hi)%Z.

