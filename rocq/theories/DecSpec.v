(** Specification notions for decimal texts such as "0.25". *)
From Coq Require Import ZArith List Reals.
From Flocq Require Import Core.
From Verif Require Import PyBase F64 ColorModel.
Import ListNotations.
Open Scope R_scope.

(** the digits 0..9 *)
Definition digit_text (s : str) : Prop := Forall (fun c => 48 <= c <= 57)%Z s.

(** the digits left and right of the point *)
Fixpoint whole_value (acc : R) (s : str) : R :=
  match s with [] => acc | c :: t => whole_value (10 * acc + IZR (c - 48)) t end.
Fixpoint fraction_value (s : str) : R :=
  match s with [] => 0 | c :: t => (IZR (c - 48) + fraction_value t) / 10 end.
Definition decimal_value (i f : str) : R := whole_value 0 i + fraction_value f.

(** the binary64 number nearest to a real number, ties to even *)
Definition nearest (x : R) : R := round radix2 (FLT_exp (-1074) 53) ZnearestE x.

(** the same result, with another alpha *)
Definition with_alpha (a : f64) (r : res color) : res color :=
  match r with
  | Ok c => Ok (mkColor (c_rgb c) (c_bg c) a (c_origin c) (c_ctor c))
  | Err x => Err x
  end.
