(** Specification notions for the numbers Python reads: the grammars of [int] and [float] in its
    language reference, on the digits of every script. *)
From Coq Require Import ZArith List Reals.
From Flocq Require Import Core IEEE754.BinarySingleNaN.
From Verif Require Import PyBase F64 ColorSpec BlendSpec DecSpec.
Import ListNotations.
Open Scope Z_scope.

(** the white space allowed around a number *)
Definition blank (c : Z) : Prop :=
  In c [9; 10; 11; 12; 13; 32; 133; 160; 5760; 8192; 8193; 8194; 8195; 8196; 8197; 8198; 8199; 8200;
        8201; 8202; 8232; 8233; 8239; 8287; 12288].

(** [c] is the digit [d] of some script *)
Definition digit_of (c d : Z) : Prop := 0 <= d <= 9 /\ exists z, In z DECIMAL_ZEROS /\ c = z + d.
Definition digit (base c d : Z) : Prop :=
  digit_of c d \/ (base = 16 /\ ((97 <= c <= 102 /\ d = c - 87) \/ (65 <= c <= 70 /\ d = c - 55))).

(** digits, with single underscores between some of them *)
Inductive numeral (base : Z) : str -> list Z -> Prop :=
| num_one : forall c d, digit base c d -> numeral base [c] [d]
| num_more : forall c d u s ds, digit base c d -> (u = [] \/ u = [95]) -> numeral base s ds ->
    numeral base (c :: u ++ s) (d :: ds).
Definition value (base : Z) (ds : list Z) : Z := fold_left (fun n d => base * n + d) ds 0.

Definition sign (s : str) (k : Z) : Prop := ((s = [] \/ s = [43]) /\ k = 1) \/ (s = [45] /\ k = -1).
(** the prefix 0x *)
Definition prefix (base : Z) (s : str) : Prop :=
  s = [] \/ (base = 16 /\ exists z x, digit_of z 0 /\ (x = 120 \/ x = 88) /\ (s = [z; x] \/ s = [z; x; 95])).

(** [s] is a text of the integer [n] *)
Definition int_text (base : Z) (s : str) (n : Z) : Prop :=
  exists l sg k pre body ds r, Forall blank l /\ sign sg k /\ prefix base pre /\ numeral base body ds /\ Forall blank r /\
    s = l ++ sg ++ pre ++ body ++ r /\ n = k * value base ds.

(** digits or nothing *)
Definition opt_numeral (s : str) (ds : list Z) : Prop := (s = [] /\ ds = []) \/ numeral 10 s ds.
(** the exponent part *)
Definition exponent (s : str) (e : Z) : Prop :=
  (s = [] /\ e = 0) \/
  exists x sg k body ds, (x = 101 \/ x = 69) /\ sign sg k /\ numeral 10 body ds /\ s = x :: sg ++ body /\ e = k * value 10 ds.

(** [s] is a text, with a point, of the real number [v] *)
Definition float_text (s : str) (v : R) : Prop :=
  exists l sg k i ds f fs x e r, Forall blank l /\ sign sg k /\ opt_numeral i ds /\ opt_numeral f fs /\ (i <> [] \/ f <> []) /\
    exponent x e /\ Forall blank r /\ s = l ++ sg ++ i ++ 46 :: f ++ x ++ r /\
    v = (IZR k * IZR (value 10 (ds ++ fs)) * powerRZ 10 (e - zlen fs))%R.

(** [a] is the binary64 number for [v]: the nearest one, or an infinity if that is too large *)
Definition holds (a : f64) (v : R) : Prop :=
  ((Rabs (nearest v) < bpow radix2 1024)%R /\ fin a (nearest v)) \/
  ((bpow radix2 1024 <= Rabs (nearest v))%R /\ ((0 < v)%R -> a = B754_infinity false) /\ ((v < 0)%R -> a = B754_infinity true)).
