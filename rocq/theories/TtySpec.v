(** Specification notions for input that arrives at any time. *)
From Coq Require Import ZArith List Bool String.
From Verif Require Import PyBase CoreModel KeySpec TtyModel.
Import ListNotations.
Open Scope Z_scope.
Open Scope list_scope.

(** The bytes that arrive during each finished call of getch.  [call]: those of the call going on *)
Fixpoint during (call : option (list Z)) (tr : list event) : list (list Z) :=
  match tr with
  | [] => []
  | Arrive b :: r => during (match call with Some w => Some (w ++ b) | None => None end) r
  | Does Enter :: r => during (Some []) r
  | Does Finish :: r => match call with Some w => w :: during None r | None => during None r end
  | Does _ :: r => during call r
  end.

(** The same course of events, had nothing been typed outside the calls *)
Fixpoint without_idle_typing (inside : bool) (tr : list event) : list event :=
  match tr with
  | [] => []
  | Arrive b :: r => if inside then Arrive b :: without_idle_typing inside r else without_idle_typing inside r
  | Does Enter :: r => Does Enter :: without_idle_typing true r
  | Does Finish :: r => Does Finish :: without_idle_typing false r
  | Does a :: r => Does a :: without_idle_typing inside r
  end.

(** Everything typed *)
Definition typed_bytes (tr : list event) : list Z :=
  flat_map (fun e => match e with Arrive b => b | Does _ => [] end) tr.

(** ** Starting up *)
(** nobody types, and answers arrive as a whole *)
Definition calm (tr : list move) : Prop :=
  Forall (fun m => match m with Type_ _ => False | Piece _ => False | _ => True end) tr.
Definition untyped (tr : list move) : Prop :=
  Forall (fun m => match m with Type_ _ => False | _ => True end) tr.
(** each thread is ready to read before its query is written *)
Fixpoint in_order (ready : bool) (tr : list move) : Prop :=
  match tr with
  | [] => True
  | StartThread :: r => in_order false r
  | Reader Enter :: r => in_order true r
  | Ask :: r => ready = true /\ in_order ready r
  | _ :: r => in_order ready r
  end.

(** what a terminal with these colors answers *)
Definition answers (back fore : str * str * str) (fg : bool) : option (list Z) :=
  let '(r, g, b) := if fg then fore else back in
  Some (color_reply (lit (if fg then "10" else "11")) r g b).

(** what Terminal() itself does, without the reading threads and the terminal *)
Definition by_main (m : move) : bool := match m with StartThread | Ask | Join => true | _ => false end.
Definition asked_in (tr : list move) : nat := List.length (filter (fun m => match m with Ask => true | _ => false end) tr).
Definition answered_in (tr : list move) : nat := List.length (filter (fun m => match m with Answer => true | _ => false end) tr).
Definition whole_answers (tr : list move) : Prop := Forall (fun m => match m with Piece _ => False | _ => True end) tr.
