(** Specification: luminance, lightness and contrast of colors, as real numbers; what is assumed
    of the C library's [pow]. *)
From Coq Require Import ZArith Reals.
From Flocq Require Import IEEE754.BinarySingleNaN.
From Verif Require Import PyBase F64 SpaceModel ColorModel ColorSpec.
Open Scope R_scope.

(** IEC 61966-2-1 (sRGB): an 8 bit channel as a linear amount of light *)
Definition srgb_linear (v : Z) : R :=
  if Rle_dec (IZR v / 255) (4045 / 100000) then IZR v / 255 / (1292 / 100)
  else Rpower ((IZR v / 255 + 55 / 1000) / (1055 / 1000)) (24 / 10).

(** W3C relative luminance and contrast ratio *)
Definition relative_luminance (t : Z * Z * Z) : R :=
  let '(r, g, b) := t in
  2126 / 10000 * srgb_linear r + 7152 / 10000 * srgb_linear g + 722 / 10000 * srgb_linear b.
Definition contrast_ratio (a b : Z * Z * Z) : R :=
  (Rmax (relative_luminance a) (relative_luminance b) + 5 / 100) /
  (Rmin (relative_luminance a) (relative_luminance b) + 5 / 100).

(** CIE lightness L*, 0 (black) to 100 (white) *)
Definition cie_lightness (t : Z * Z * Z) : R :=
  let y := relative_luminance t in
  if Rle_dec y (216 / 24389) then y * (24389 / 27) else 116 * Rpower y (1 / 3) - 16.

(** [n] is the grey of the palette's ramp 232..255 for lightness [l]: the nearest, up to the
    accuracy of the arithmetic *)
Definition grey_for (l : R) (n : Z) : Prop :=
  (232 <= n <= 255)%Z /\ Rabs (IZR n - (232 + 23 * (l / 100))) <= 1 / 2 + / 1000000.

(** The C library's [pow] on arguments of moderate size: accurate to 2^-40, and monotone in the
    base.  (glibc documents errors below one unit in the last place.) *)
Definition pow_accurate (p : f64 -> f64 -> f64) : Prop :=
  forall x y : f64, is_finite x = true -> is_finite y = true ->
  0 < B2R x <= 2 -> 0 < B2R y <= 3 ->
  is_finite (p x y) = true /\ Rabs (B2R (p x y) - Rpower (B2R x) (B2R y)) <= / 1099511627776.
Definition pow_monotone (p : f64 -> f64 -> f64) : Prop :=
  forall x x' y : f64, is_finite x = true -> is_finite x' = true -> is_finite y = true ->
  0 < B2R x -> B2R x <= B2R x' -> B2R x' <= 2 -> 0 < B2R y <= 3 ->
  B2R (p x y) <= B2R (p x' y).

Definition off_white_or_black (c k : color) : Prop :=
  (c_rgb k = (245, 245, 245)%Z \/ c_rgb k = (35, 35, 35)%Z) /\ c_bg k = c_bg c /\ c_alpha k = fone.

(** not built from a description that is a 16-color code *)
Definition not_a_code (c : color) : Prop := no_ansi_ctor c \/ c_origin c = EIGHT_BIT \/ c_origin c = TRUE_COLOR.
