(** Specification of writing while another thread draws: what each cell last got, and what was drawn. *)
From Coq Require Import ZArith List Bool.
From Verif Require Import PyBase F64 ColorModel AnsiRe SpanModel ScreenModel ScreenSpec RaceModel.
Import ListNotations.
Open Scope Z_scope.

(** the last change noted for a cell *)
Fixpoint last_note (q : pos) (tr : list race_event) : option str :=
  match tr with
  | [] => None
  | ev :: r =>
      match last_note q r with
      | Some t => Some t
      | None => match ev with Note q' t => if pos_eqb q' q then Some t else None | _ => None end
      end
  end.
(** what the draws wrote last for a cell *)
Fixpoint last_sent (q : pos) (batches : list buffer) : option str :=
  match batches with
  | [] => None
  | b :: r => match last_sent q r with Some t => Some t | None => buf_get q b end
  end.
(** no change is noted between the moment a draw gathers the changes and the moment it clears them *)
Fixpoint undisturbed (drawing : bool) (tr : list race_event) : bool :=
  match tr with
  | [] => true
  | Note _ _ :: r => negb drawing && undisturbed drawing r
  | Gather :: r => undisturbed true r
  | Wipe :: r => undisturbed false r
  | _ :: r => undisturbed drawing r
  end.
(** the steps of the writing thread *)
Definition of_writer (ev : race_event) : Prop := match ev with Store _ _ _ | Note _ _ => True | _ => False end.
(** in this step the cell [q] gets nothing but what it holds, the content [c] *)
Definition same_again (q : pos) (c : cell) (ev : race_event) : Prop :=
  match ev with Store q' new _ => q' = q -> cell_eqb new c = true | _ => True end.
(** cells are numbered from 0 *)
Definition at_cell (ev : race_event) : Prop := match ev with Store q _ _ => 0 <= fst q /\ 0 <= snd q | _ => True end.
