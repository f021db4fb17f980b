(** Specification of slices with a step: which characters are taken, and in which order. *)
From Coq Require Import ZArith List Bool.
From Verif Require Import PyBase.
Import ListNotations.
Open Scope Z_scope.

(** an end counted from the end of the text if negative *)
Definition from_end (n i : Z) : Z := if i <? 0 then i + n else i.
(** forwards: the positions from [a] on and before [b], every [k]-th of them *)
Definition taken_forwards (n : Z) (a b : option Z) (k i : Z) : bool :=
  let lo := match a with Some a => Z.max 0 (from_end n a) | None => 0 end in
  let hi := match b with Some b => from_end n b | None => n end in
  (lo <=? i) && (i <? hi) && ((i - lo) mod k =? 0).
(** backwards: from [a], or the last one if there is no [a] or it is beyond the end, down to the one
    after [b] *)
Definition taken_backwards (n : Z) (a b : option Z) (k i : Z) : bool :=
  let hi := match a with Some a => Z.min (n - 1) (from_end n a) | None => n - 1 end in
  let lo := match b with Some b => from_end n b | None => -1 end in
  (lo <? i) && (i <=? hi) && ((hi - i) mod - k =? 0).
Definition positions_taken (n : Z) (a b : option Z) (k : Z) : list Z :=
  if 0 <? k then filter (taken_forwards n a b k) (range n) else rev (filter (taken_backwards n a b k) (range n)).
Definition characters_at (t : str) (l : list Z) : str := flat_map (fun i => firstn 1 (skipn (Z.to_nat i) t)) l.
