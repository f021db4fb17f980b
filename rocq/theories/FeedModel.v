(** core.py: feed against getch, step by step, the feeding done by another thread.  Definitions only
    (no proofs). *)
From Coq Require Import ZArith List Bool String.
From Verif Require Import PyBase CoreModel TtyModel.
Import ListNotations.
Open Scope Z_scope.
Open Scope list_scope.

(** Where the thread that calls getch is in core.py:425-447 *)
Inductive feed_place :=
| Idle                    (* not in getch *)
| Got (t : str)           (* 425 found the text t *)
| Emptied (t : str)       (* after 426 *)
| Unfed                   (* 425 found nothing; before 433 *)
| Reads (p : place_in).   (* after 433, see TtyModel.v *)

(** [d_keys]: what the calls have returned; [true]: fed text (line 429).  [d_feeding]: another thread
    is between lines 384 and 385. *)
Record feeding := mkFeeding {
  d_sio : stringio;
  d_feeding : bool;
  d_queue : list Z;
  d_place : feed_place;
  d_keys : list (bool * str)
}.
Definition unfed_start : feeding := mkFeeding sio_empty false [] Idle [].

Inductive feed_event :=
| FeedWrite (t : str)     (* core.py:384 *)
| FeedSeek                (* 385 *)
| Comes (bytes : list Z)  (* bytes arrive *)
| Looks                   (* 425: getvalue *)
| Empties                 (* 426: truncate(0) *)
| Rewinds                 (* 427-429: seek(0), return *)
| Reading_ (a : action).  (* 432-447 *)

Definition feed_step (e : feed_event) (s : feeding) : option feeding :=
  let '(mkFeeding io w q p ks) := s in
  match e with
  | FeedWrite t => if w then None else Some (mkFeeding (sio_write t io) true q p ks)
  | FeedSeek => if w then Some (mkFeeding (sio_seek 0 io) false q p ks) else None
  | Comes bytes => Some (mkFeeding io w (q ++ bytes) p ks)
  | Looks =>
      match p, sio_text io with
      | Idle, [] => Some (mkFeeding io w q Unfed ks)
      | Idle, t => Some (mkFeeding io w q (Got t) ks)
      | _, _ => None
      end
  | Empties =>
      match p with Got t => Some (mkFeeding (sio_truncate 0 io) w q (Emptied t) ks) | _ => None end
  | Rewinds =>
      match p with
      | Emptied t => Some (mkFeeding (sio_seek 0 io) w q Idle (ks ++ [(true, t)]))
      | _ => None
      end
  | Reading_ a =>
      let from := match p with Unfed => Some Outside | Reads Outside => None | Reads p' => Some p' | _ => None end in
      match from with
      | None => None
      | Some p' =>
          match act a p' q with
          | Some (p'', q', None) => Some (mkFeeding io w q' (Reads p'') ks)
          | Some (_, q', Some t) => Some (mkFeeding io w q' Idle (ks ++ [(false, t)]))
          | None => None
          end
      end
  end.
Fixpoint feed_run (tr : list feed_event) (s : feeding) : option feeding :=
  match tr with
  | [] => Some s
  | e :: r => match feed_step e s with Some s' => feed_run r s' | None => None end
  end.
