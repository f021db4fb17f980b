(** Specification of event emission as a queue, independent of indices and fuel. *)
From Coq Require Import ZArith List Bool.
From Verif Require Import PyBase EventModel.

(** What one callback does, seen from outside: new state of the rest of the program, callbacks
    it adds to the event, value returned or exception raised. *)
Definition behaviour (L W D : Type) := L -> D -> W -> W * list L * res pyval.

(** That behaviour as an operation on the event's state: it appends. *)
Definition appending {L W D} (b : behaviour L W D) (l : L) (d : D) (s : estate L W)
  : estate L W * res pyval :=
  let '(w, added, r) := b l d (ev_world s) in (mkE (ev_listeners s ++ added) w, r).

(** Serve the queue of callbacks still to run: [served q w done w' out] means that starting
    with queue [q] and state [w], exactly the callbacks [done] run, in that order, each with
    the data; the state ends as [w'].  [out]: the values returned, or those before the
    exception and the exception. *)
Inductive served {L W D} (b : behaviour L W D) (d : D)
  : list L -> W -> list L -> W -> list pyval * option exn -> Prop :=
| served_nil : forall w, served b d [] w [] w ([], None)
| served_exn : forall l q w w' added x,
    b l d w = (w', added, Err x) -> served b d (l :: q) w [l] w' ([], Some x)
| served_next : forall l q w w' added v done w'' vs x,
    b l d w = (w', added, Ok v) -> served b d (q ++ added) w' done w'' (vs, x) ->
    served b d (l :: q) w (l :: done) w'' (v :: vs, x).

(** Values a callback may return for the documented result to make sense: what its annotation
    says (bool), or an int or None, or anything falsy. *)
Definition sane (v : pyval) : Prop := match v with VOther true => False | _ => True end.
