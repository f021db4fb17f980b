(** Python [float] as IEEE-754 binary64, via Flocq.  Definitions only. *)
From Coq Require Import ZArith Bool List.
From Flocq Require Import IEEE754.BinarySingleNaN.
From Verif Require Import PyBase.
Open Scope Z_scope.

Definition fprec : Z := 53.
Definition femax : Z := 1024.
Definition fprec_gt_0 : FLX.Prec_gt_0 fprec := eq_refl.
Definition fprec_lt_emax : Prec_lt_emax fprec femax := eq_refl.

(** All NaNs are identified (payloads are not observable in Slate). *)
Definition f64 := binary_float fprec femax.

Definition fadd : f64 -> f64 -> f64 := @Bplus fprec femax fprec_gt_0 fprec_lt_emax mode_NE.
Definition fsub : f64 -> f64 -> f64 := @Bminus fprec femax fprec_gt_0 fprec_lt_emax mode_NE.
Definition fmul : f64 -> f64 -> f64 := @Bmult fprec femax fprec_gt_0 fprec_lt_emax mode_NE.
Definition fdiv : f64 -> f64 -> f64 := @Bdiv fprec femax fprec_gt_0 fprec_lt_emax mode_NE.

(** [float(n)] for an int: nearest, ties to even; [None] is OverflowError. *)
Definition fofZ (z : Z) : f64 :=
  binary_normalize fprec femax fprec_gt_0 fprec_lt_emax mode_NE z 0 false.

Definition feqb (a b : f64) : bool := Beqb a b.
Definition fltb (a b : f64) : bool := Bltb a b.
Definition fleb (a b : f64) : bool := Bleb a b.
Definition f_finite (a : f64) : bool := is_finite a.
Definition f_nan (a : f64) : bool := is_nan a.

Definition fzero : f64 := B754_zero false.
Definition fone : f64 := fofZ 1.

(** A decimal literal n/d of the source, correctly rounded (n, d exactly representable). *)
Definition flit (n d : Z) : f64 := fdiv (fofZ n) (fofZ d).

(** [int(x)]: truncation; inf gives OverflowError, nan ValueError. *)
Definition py_int_of_float (x : f64) : res Z :=
  if f_nan x then Err ValueError
  else if f_finite x then Ok (Btrunc x)
  else Err OverflowError.

(** [min(a, b)] and [max(a, b)] of CPython on two values: the first is kept unless the
    second is strictly smaller / greater. *)
Definition fmin (a b : f64) : f64 := if fltb b a then b else a.
Definition fmax (a b : f64) : f64 := if fltb a b then b else a.

(** Round half to even of the exact value to an integer: [round(x)] and the integer
    printed by [f"{x:.0f}"], for finite x. *)
Definition frint (x : f64) : Z :=
  Btrunc (@Bnearbyint fprec femax fprec_lt_emax mode_NE x).

(** The value of a finite float as a pair: x = m * 2^e. *)
Definition fexact (x : f64) : Z * Z :=
  match x with
  | B754_finite s m e _ => (if s then Zneg m else Zpos m, e)
  | _ => (0, 0)
  end.

Definition fsign (x : f64) : bool := Bsign x.

(** C [fmod(x, 1.0)]: exact. *)
Definition fmod1 (x : f64) : f64 :=
  match x with
  | B754_finite s m e _ =>
      if 0 <=? e then B754_zero s                      (* an integer *)
      else
        let r := Zpos m mod 2 ^ (- e) in
        binary_normalize fprec femax fprec_gt_0 fprec_lt_emax mode_NE
          (if s then - r else r) e s
  | B754_zero s => B754_zero s
  | _ => B754_nan
  end.

(** CPython float_rem with divisor 1.0: [x % 1]. *)
Definition fmodpy1 (x : f64) : f64 :=
  let m := fmod1 x in
  if feqb m fzero then B754_zero false
  else if fltb m fzero then fadd m fone
  else m.

(** m / d rounded to nearest-even, through a quotient with a sticky bit. *)
Definition fratio (m d : Z) : f64 :=                     (* m >= 0, d > 0 *)
  let s := 1200 + Z.log2_up d in
  let q := (m * 2 ^ s) / d in
  let sticky := if (m * 2 ^ s) mod d =? 0 then 0 else 1 in
  binary_normalize fprec femax fprec_gt_0 fprec_lt_emax mode_NE (2 * q + sticky) (- (s + 1)) false.

(** [float(s)], Python's grammar: optional sign, digits with single
    underscores between them, a point, an optional exponent.  (inf and nan never reach it:
    Slate only converts strings containing a point.)  [None]: ValueError. *)
Definition all_digits (s : str) : bool := forallb is_digit s.
Definition digits_value (s : str) : Z := fold_left (fun a c => a * 10 + (c - 48)) s 0.
(** underscores removed, if each stands between two digits *)
Fixpoint drop_underscores (prev : bool) (s : str) : option str :=
  match s with
  | [] => Some []
  | c :: t =>
      if c =? 95 then
        match t with
        | d :: _ => if prev && is_digit d then drop_underscores false t else None
        | [] => None
        end
      else option_map (cons c) (drop_underscores (is_digit c) t)
  end.
(** mantissa and exponent texts *)
Fixpoint split_exponent (s : str) : str * option str :=
  match s with
  | [] => ([], None)
  | c :: t =>
      if (c =? 101) || (c =? 69) then ([], Some t)
      else let '(m, e) := split_exponent t in (c :: m, e)
  end.
Definition exponent_value (e : option str) : option Z :=
  match e with
  | None => Some 0
  | Some e =>
      let '(neg, d) := split_sign e in
      match d with
      | [] => None
      | _ => if all_digits d then Some (if neg then - digits_value d else digits_value d)
             else None
      end
  end.
Definition py_float (s : str) : res f64 :=
  match drop_underscores false (strip_by num_space (ascii_digits s)) with
  | None => Err ValueError
  | Some s =>
      let '(neg, s) := split_sign s in
      let '(m, e) := split_exponent s in
      match split_on 46 m, exponent_value e with
      | [a; b], Some ex =>
          if all_digits a && all_digits b && negb (Nat.eqb (List.length a + List.length b) 0)
          then
            let n := digits_value (a ++ b) in
            let k := ex - zlen b in
            let v := if 0 <=? k then fratio (n * 10 ^ k) 1 else fratio n (10 ^ (- k)) in
            Ok (if neg then Bopp v else v)
          else Err ValueError
      | _, _ => Err ValueError
      end
  end.
