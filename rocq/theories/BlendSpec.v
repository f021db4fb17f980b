(** Specification notions for blending: values of floats, interpolation. *)
From Coq Require Import ZArith Reals.
From Flocq Require Import Core IEEE754.BinarySingleNaN.
From Verif Require Import PyBase F64 ColorModel ColorSpec.
Open Scope R_scope.

(** [fin x v]: x is finite with value v *)
Definition fin (x : f64) (v : R) : Prop := is_finite x = true /\ B2R x = v.

(** 2^1000: far beyond any sensible alpha *)
Definition p1000 : R := bpow radix2 1000.

(** [v] lies between [a] and [b] *)
Definition between (a b v : Z) : Prop := (Z.min a b <= v <= Z.max a b)%Z.

(** [v] is the interpolation of [a] and [b] at [x], truncated (and the rounding of binary64) *)
Definition near (a b v : Z) (x : R) : Prop :=
  Rabs (IZR v - (IZR a + (IZR b - IZR a) * x)) < 1 + bpow radix2 (-45).

(** moving towards the other color with alpha *)
Definition toward (a b v w : Z) : Prop := ((a <= b -> v <= w) /\ (b <= a -> w <= v))%Z.

(** no channel of [k] is darker *)
Definition brighter (c k : color) : Prop :=
  (red c <= red k /\ green c <= green k /\ blue c <= blue k)%Z.
