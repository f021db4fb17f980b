(** span.py: slices with a step.  Definitions only (no proofs). *)
From Coq Require Import ZArith List Bool.
From Verif Require Import PyBase F64 ColorModel AnsiRe SpanModel.
Import ListNotations.
Open Scope Z_scope.

(** CPython's PySlice_AdjustIndices: one end of a slice.  [lower], [upper]: the bounds of its
    direction. *)
Definition adjust (n lower upper i : Z) : Z :=
  if i <? 0 then Z.max (i + n) lower else Z.min i upper.
Definition slice_start (n : Z) (a : option Z) (k : Z) : Z :=
  let lower := if k <? 0 then -1 else 0 in let upper := if k <? 0 then n - 1 else n in
  match a with None => if k <? 0 then upper else lower | Some i => adjust n lower upper i end.
Definition slice_stop (n : Z) (b : option Z) (k : Z) : Z :=
  let lower := if k <? 0 then -1 else 0 in let upper := if k <? 0 then n - 1 else n in
  match b with None => if k <? 0 then lower else upper | Some i => adjust n lower upper i end.
Definition slice_count (start stop k : Z) : Z :=
  if k <? 0 then if stop <? start then (start - stop - 1) / - k + 1 else 0
  else if start <? stop then (stop - start - 1) / k + 1 else 0.
(** [s[a:b:k]] *)
Definition slice_step (a b : option Z) (k : Z) (s : str) : res str :=
  if k =? 0 then Err ValueError
  else
    let n := zlen s in
    let start := slice_start n a k in
    Ok (flat_map (fun j => opt_list (nth_error s (Z.to_nat (start + j * k)))) (range (slice_count start (slice_stop n b k) k))).

(** span.py:268-269 __getitem__ *)
Definition span_slice_step (s : span) (a b : option Z) (k : Z) : res span :=
  let* t := slice_step a b k (s_text s) in Ok (mutate s [MText t]).
