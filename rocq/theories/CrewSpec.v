(** Specification of several threads writing to one screen. *)
From Coq Require Import ZArith List Bool.
From Verif Require Import PyBase F64 ColorModel AnsiRe SpanModel ScreenModel ScreenSpec RaceModel RaceSpec ResizeRaceModel CrewModel.
Import ListNotations.
Open Scope Z_scope.

(** what the terminal was last sent for the cell, or is to be sent next *)
Definition newest_of (q : pos) (s : screen) (sent : list buffer) : option str :=
  match pending s q with Some t => Some t | None => last_sent q sent end.
(** if something was or is to be drawn at [q], it is what the screen holds there *)
Definition truthful (e : env) (q : pos) (s : screen) (sent : list buffer) : Prop :=
  forall c t, cell_at s q = Some c -> newest_of q s sent = Some t -> t = drawn e c \/ t = drawn e c ++ [NL].

(** no thread stores the cell [q] between the moment another one stores it and that one's next step *)
Fixpoint untangled (q : pos) (busy : option nat) (tr : list crew_event) : bool :=
  match tr with
  | [] => true
  | Show :: r => untangled q busy r
  | By i ev :: r =>
      let others := match busy with Some j => if Nat.eqb i j then None else Some j | None => None end in
      match ev with
      | Save q' => if pos_eqb q' q then match others with None => untangled q (Some i) r | Some _ => false end else untangled q others r
      | _ => untangled q others r
      end
  end.

(** what the thread [i] does *)
Definition part (i : nat) (tr : list crew_event) : list step2 :=
  flat_map (fun ev => match ev with By j st => if Nat.eqb i j then [st] else [] | Show => [] end) tr.
(** one call of write_bulk, of one span *)
Definition order := (pos * span * color)%type.
Definition is_call (ev : step2) : Prop := match ev with Call _ _ _ => True | _ => False end.
Definition one_write (d : order) (l : list step2) : Prop :=
  let '(p, sp, tb) := d in exists r, l = Call p sp tb :: r /\ Forall (fun ev => ~ is_call ev) r.
(** each cell is stored by at most one thread *)
Definition apart (own : pos -> nat) (tr : list crew_event) : Prop := forall i q, In (By i (Save q)) tr -> own q = i.
(** the writes one after the other *)
Fixpoint in_turn (e : env) (ds : list order) (s : screen) : option screen :=
  match ds with
  | [] => Some s
  | (p, sp, tb) :: r => match write_bulk e [] s [(p, [sp])] tb false with (s', _, Ok _) => in_turn e r s' | _ => None end
  end.
(** the step does not store the cell [q] *)
Definition leaves (q : pos) (ev : crew_event) : Prop := match ev with By _ (Save q') => q' <> q | _ => True end.
