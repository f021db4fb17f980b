(** Printing of Python floats: [str(x)] (shortest digits that read back as x, CPython's
    float_repr_style 'short') and [f"{x:.4f}"].  Definitions only (no proofs). *)
From Coq Require Import ZArith List Bool String.
From Flocq Require Import IEEE754.BinarySingleNaN.
From Verif Require Import PyBase F64 SvgGeoModel.
Import ListNotations.
Open Scope Z_scope.
Open Scope list_scope.

(** |x| = num / den *)
Definition fraction_of (x : f64) : Z * Z :=
  let '(m, e) := fexact x in if 0 <=? e then (Z.abs m * 2 ^ e, 1) else (Z.abs m, 2 ^ (- e)).
(** the float read from q / 10^p *)
Definition float_of_decimal (q p : Z) : f64 := if 0 <=? p then fratio q (10 ^ p) else fratio (q * 10 ^ (- p)) 1.
(** k with 10^(k-1) <= num / den < 10^k; no double has more than 324 zeros after the point *)
Fixpoint zeros (fuel : nat) (num den : Z) : Z :=
  match fuel with O => 0 | S f => if den <=? num then 0 else 1 + zeros f (num * 10) den end.
Definition magnitude (num den : Z) : Z :=
  if den <=? num then zlen (dec (num / den)) else - zeros (Z.to_nat 330) (num * 10) den.
(** num / den * 10^p as a fraction *)
Definition scaled (num den p : Z) : Z * Z := if 0 <=? p then (num * 10 ^ p, den) else (num, den * 10 ^ (- p)).
(** the n-digit decimals around x, the nearest one first *)
Definition around (num den p : Z) : list Z :=
  let '(a, b) := scaled num den p in
  let near := half_even a b in
  let low := a / b in
  [near; if near =? low then low + 1 else low].
(** the first that reads back; with 17 digits one always does (the exact decimal is never needed) *)
Fixpoint shortest (x : f64) (num den k : Z) (ns : list Z) : Z * Z :=
  match ns with
  | [] => let '(m, e) := fexact x in if 0 <=? e then (num, 0) else (Z.abs m * 5 ^ (- e), - e)
  | n :: r =>
      match filter (fun q => feqb (float_of_decimal q (n - k)) (Babs x)) (around num den (n - k)) with
      | q :: _ => (q, n - k)
      | [] => shortest x num den k r
      end
  end.
Definition is_zero_digit (c : Z) : bool := c =? 48.
Definition repeat_char (c n : Z) : str := repeat c (Z.to_nat n).
(** digits d1d2... with the point after [pt] of them; exponents outside -4 < pt <= 16 *)
Definition place_point (ds : str) (pt : Z) : str :=
  if (-4 <? pt) && (pt <=? 16) then
    if pt <=? 0 then lit "0." ++ repeat_char 48 (- pt) ++ ds
    else if pt <? zlen ds then firstn (Z.to_nat pt) ds ++ lit "." ++ skipn (Z.to_nat pt) ds
    else ds ++ repeat_char 48 (pt - zlen ds) ++ lit ".0"
  else
    let ex := pt - 1 in
    firstn 1 ds ++ (if zlen ds =? 1 then [] else lit "." ++ skipn 1 ds)
    ++ lit "e" ++ (if ex <? 0 then lit "-" else lit "+")
    ++ (if Z.abs ex <? 10 then lit "0" else []) ++ dec (Z.abs ex).
Definition float_repr (x : f64) : str :=
  if f_nan x then lit "nan"
  else if negb (f_finite x) then (if fsign x then lit "-inf" else lit "inf")
  else
    (if fsign x then lit "-" else []) ++
    (if feqb x fzero then lit "0.0"
     else
       let '(num, den) := fraction_of x in
       let '(q, p) := shortest x num den (magnitude num den) (map (Z.add 1) (range 17)) in
       let ds := dec q in
       place_point (rstrip_by is_zero_digit ds) (zlen ds - p)).
(** [f"{x:.4f}"], finite x >= 0 *)
Definition fixed4 (x : f64) : str :=
  let '(num, den) := fraction_of x in
  let q := half_even (num * 10000) den in
  let r := dec (q mod 10000) in
  dec (q / 10000) ++ lit "." ++ repeat_char 48 (4 - zlen r) ++ r.
