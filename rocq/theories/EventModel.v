(** event.py.  Definitions only (no proofs). *)
From Coq Require Import ZArith List Bool.
From Verif Require Import PyBase.
Open Scope Z_scope.

(** What a callback returns.  [VOther t]: any other object with truth value [t]. *)
Inductive pyval := VNone | VBool (b : bool) | VInt (n : Z) | VOther (truthy : bool).

(** [v or False] *)
Definition or_false (v : pyval) : pyval :=
  match v with
  | VNone | VBool false | VInt 0 | VOther false => VBool false
  | _ => v
  end.

(** [output |= v] where output is a bool or an int *)
Definition as_num (v : pyval) : option Z :=
  match v with VBool b => Some (if b then 1 else 0) | VInt n => Some n | _ => None end.
Definition ior (output v : pyval) : res pyval :=
  match output, v with
  | VBool a, VBool b => Ok (VBool (a || b))
  | _, _ => match as_num output, as_num v with
            | Some a, Some b => Ok (VInt (Z.lor a b))
            | _, _ => Err TypeError
            end
  end.

Definition truthy (v : pyval) : bool :=
  match v with VNone => false | VBool b => b | VInt n => negb (n =? 0) | VOther t => t end.

(** [W]: the rest of the program's state; [L]: callbacks.  A callback is called through
    [beh], which may change the state and the event's own listener list. *)
Record estate (L W : Type) := mkE { ev_listeners : list L; ev_world : W }.
Arguments mkE {L W} _ _.
Arguments ev_listeners {L W} _.
Arguments ev_world {L W} _.

(** event.py:29-32 __bool__ *)
Definition event_bool {L W} (s : estate L W) : bool := 0 <? zlen (ev_listeners s).

(** event.py:59-63 append, 34-40 __iadd__ ([None]: not callable), 65-68 clear *)
Definition event_append {L W} (l : L) (s : estate L W) : estate L W :=
  mkE (ev_listeners s ++ [l]) (ev_world s).
Definition event_iadd {L W} (l : option L) (s : estate L W) : estate L W * res unit :=
  match l with
  | None => (s, Err ValueError)
  | Some l => (event_append l s, Ok tt)
  end.
Definition event_clear {L W} (s : estate L W) : estate L W := mkE [] (ev_world s).

(** event.py:42-57 __call__: Python iterates the live list by index.  [None]: still running
    after [fuel] callbacks. *)
Fixpoint emit_from {L W D} (beh : L -> D -> estate L W -> estate L W * res pyval)
    (fuel i : nat) (data : D) (output : pyval) (s : estate L W)
  : option (estate L W * res pyval) :=
  match nth_error (ev_listeners s) i with
  | None => Some (s, Ok output)
  | Some cb =>
      match fuel with
      | O => None
      | S f =>
          match beh cb data s with
          | (s', Err x) => Some (s', Err x)
          | (s', Ok v) =>
              match ior output (or_false v) with
              | Err x => Some (s', Err x)
              | Ok o => emit_from beh f (S i) data o s'
              end
          end
      end
  end.
Definition emit {L W D} (beh : L -> D -> estate L W -> estate L W * res pyval)
    (fuel : nat) (data : D) (s : estate L W) : option (estate L W * res pyval) :=
  emit_from beh fuel 0 data (VBool false) s.
