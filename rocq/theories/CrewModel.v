(** screen.py: any number of threads write spans to one screen, which is drawn in between.  Definitions only (no
    proofs).  The steps of each thread are those of the writing thread of ResizeRaceModel.v, with its
    simplifications; all threads use the same cells (288) and the same change buffer (300), and each its own
    write_matrix and alpha_matrix (177-191). *)
From Coq Require Import ZArith List Bool.
From Verif Require Import PyBase F64 ColorModel AnsiRe SpanModel ScreenModel RaceModel ResizeRaceModel.
Import ListNotations.
Open Scope Z_scope.

Record crew := mkCrew { r_screen : screen; r_writers : list writer; r_sent : list buffer }.
Inductive crew_event :=
| By (i : nat) (ev : step2)      (* the next step of the thread [i] *)
| Show.                          (* a draw: 314-346, terminal.py 303-326 *)

(** [None]: the step is not the next one of its thread *)
Definition crew_step (e : env) (ev : crew_event) (k : crew) : option crew :=
  let '(mkCrew s ws sent) := k in
  match ev with
  | By i st =>
      match nth_error ws i with
      | Some wr =>
          match write_step e st s wr with
          | Some (s', wr') => Some (mkCrew s' (set_nth i wr' ws) sent)
          | None => None
          end
      | None => None
      end
  | Show => Some (mkCrew (with_buf s []) ws (sent ++ [gather (sc_buf s)]))
  end.
Fixpoint crew_run (e : env) (tr : list crew_event) (k : crew) : option crew :=
  match tr with
  | [] => Some k
  | ev :: r => match crew_step e ev k with Some k' => crew_run e r k' | None => None end
  end.
(** no thread is writing *)
Definition rested (s : screen) (n : nat) (sent : list buffer) : crew := mkCrew s (repeat Idle n) sent.
