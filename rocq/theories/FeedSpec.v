(** Specification notions for feeding. *)
From Coq Require Import ZArith List Bool.
From Verif Require Import PyBase FeedModel.
Import ListNotations.
Open Scope Z_scope.
Open Scope list_scope.

(** the texts fed, and those returned as fed, in order *)
Definition texts_fed (tr : list feed_event) : list str :=
  flat_map (fun e => match e with FeedWrite t => [t] | _ => [] end) tr.
Definition texts_returned (keys : list (bool * str)) : list str := map snd (filter fst keys).
Definition nothing_comes (tr : list feed_event) : Prop :=
  Forall (fun e => match e with Comes _ => False | _ => True end) tr.

(** Feeding in turn: each feed runs as a whole, not while fed text is being taken, and only when the
    text fed before has been returned.  [unread]: some fed text has not been returned; [taking]: a
    call has seen it. *)
Fixpoint in_turn (unread taking : bool) (tr : list feed_event) : Prop :=
  match tr with
  | [] => True
  | FeedWrite t :: FeedSeek :: r => t <> [] /\ unread = false /\ taking = false /\ in_turn true false r
  | FeedWrite _ :: _ => False
  | FeedSeek :: _ => False
  | Looks :: r => in_turn unread unread r
  | Rewinds :: r => in_turn false false r
  | _ :: r => in_turn unread taking r
  end.
