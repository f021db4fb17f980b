(** examples/mouse_playground.py, inside its context managers.  Definitions only (no proofs). *)
From Coq Require Import ZArith List Bool String.
From Verif Require Import PyBase F64 SpaceModel ColorModel SpanModel CoreModel ScreenModel TermModel KeyUseModel.
Import ListNotations.
Open Scope Z_scope.
Open Scope list_scope.

Definition raiseM {A} (x : exn) : M A := fun _ s => (s, Err x).
(** mouse_playground.py:20-21: the numbers after the last "@", each less one *)
Fixpoint less_one (parts : list str) : res (list Z) :=
  match parts with
  | [] => Ok []
  | t :: r => let* n := py_int t in let* ns := less_one r in Ok (n - 1 :: ns)
  end.
Definition coords (key : str) : res (list Z) := less_one (split_on 59 (last_of (split_on 64 key))).
(** mouse_playground.py:23; Screen.write_bulk unpacks the cursor into two *)
Definition mark (key : str) : M Z :=
  match coords key with
  | Ok [x; y] => twrite (PStr (lit "X")) (Some (x, y)) false
  | Ok _ => raiseM ValueError
  | Err x => raiseM x
  end.
(** mouse_playground.py:7-25: one turn of the loop, [false]: the program ends.  [pr]: see [repr_str] *)
Definition play_turn (pr : Z -> bool) (key : str) : M bool :=
  if str_eqb key [] then retM false
  else if str_eqb key (lit "ctrl-c") then retM false
  else
    (if str_eqb key (lit "c") then tclear (lit " ") ;; draw true else retM tt) ;;
    (if negb (startswith (lit "mouse:") key)
     then twrite (PStr (lit " Keyboard: " ++ repr_str pr key ++ lit " ")) (Some (0, 0)) false
     else twrite (PStr (lit " Mouse: " ++ repr_str pr key ++ lit " ")) (Some (0, 1)) false ;; mark key) ;;
    draw false ;; retM true.
(** the loop, given what getch reads each time; it waits when there is no more *)
Fixpoint play (pr : Z -> bool) (typed : list str) : M unit :=
  match typed with
  | [] => retM tt
  | t :: r =>
      match (let* k := decode_key false t in key_str k) with
      | Err x => raiseM x
      | Ok key => bindM (play_turn pr key) (fun go => if go then play pr r else retM tt)
      end
  end.
