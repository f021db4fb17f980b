(** Specification: reading decimal numerals such as -12.5 and 1.5e-07, as exact numbers. *)
From Coq Require Import ZArith List Bool Reals String.
From Verif Require Import PyBase.
Import ListNotations.
Open Scope Z_scope.

Definition digit10 (c : Z) : option Z := if (48 <=? c) && (c <=? 57) then Some (c - 48) else None.
Fixpoint whole (acc : Z) (t : str) : option Z :=
  match t with
  | [] => Some acc
  | c :: r => match digit10 c with Some d => whole (10 * acc + d) r | None => None end
  end.
(** the exponent: a sign and digits *)
Definition exponent (t : str) : option Z :=
  match t with
  | c :: d :: r => if c =? 45 then option_map Z.opp (whole 0 (d :: r)) else if c =? 43 then whole 0 (d :: r) else None
  | _ => None
  end.
(** digits, perhaps a point and digits, perhaps e and an exponent: mantissa and power of ten *)
Fixpoint mantissa (point : bool) (m e : Z) (t : str) : option (Z * Z) :=
  match t with
  | [] => Some (m, e)
  | c :: r =>
      match digit10 c with
      | Some d => mantissa point (10 * m + d) (if point then e - 1 else e) r
      | None =>
          if (c =? 46) && negb point then mantissa true m e r
          else if c =? 101 then option_map (fun x => (m, e + x)) (exponent r)
          else None
      end
  end.
Definition numeral_of (t : str) : option (Z * Z) :=
  match t with
  | c :: r => if c =? 45 then option_map (fun me => (- fst me, snd me)) (mantissa false 0 0 r) else mantissa false 0 0 t
  | [] => None
  end.
(** [reads t v]: the text t is a numeral, its exact value is v *)
Definition reads (t : str) (v : R) : Prop :=
  exists m e, numeral_of t = Some (m, e) /\ v = (IZR m * powerRZ 10 e)%R.
