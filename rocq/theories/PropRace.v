(** C107: writing while another thread draws (screen.py, terminal.py). *)
From Coq Require Import ZArith List Bool String Lia.
From Verif Require Import PyBase F64 SpaceModel ColorModel ColorSpec AnsiRe SpanModel SpanSpec ScreenModel ScreenSpec RaceModel RaceSpec RaceProofs PropScreen PropDraw.
Import ListNotations.
Open Scope Z_scope.
Open Scope list_scope.

(** ** C107 *)
(** The steps, one thread at a time, are a draw ... *)
Theorem C107_draw : forall e origin s,
  exists items, race_run e [Gather; Wipe; Send] (alone s) = Some (mkShared (snd (render s origin false)) None Resting [items]) /\
    draw_text origin items = fst (render s origin false).
Proof. exact draw_alone. Qed.
Print Assumptions C107_draw.
(** ... and a write. *)
Theorem C107_write : forall e c s data tb force, cache_ok e c -> calm_write s data ->
  let '(s', _, _) := write_bulk e c s data tb force in
  exists tr, Forall of_writer tr /\ race_run e tr (alone s) = Some (alone s').
Proof. exact write_alone. Qed.
Print Assumptions C107_write.

(** However the steps of the two threads follow each other: if no change is noted between the gathering and
    the clearing of a draw, every cell's last change is pending, being drawn or the last thing drawn for
    that cell, and one more draw makes it the last thing drawn. *)
Theorem C107_kept_partial : forall e tr s k, keyed s -> race_run e tr (alone s) = Some k -> undisturbed false tr = true ->
  forall q t, last_note q tr = Some t ->
  pending (h_screen k) q = Some t \/
  (exists items, (h_drawer k = Formatting items \/ h_drawer k = Sending items) /\ buf_get q items = Some t) \/
  last_sent q (h_sent k) = Some t.
Proof. exact accounted. Qed.
Print Assumptions C107_kept_partial.
Theorem C107_drawn_partial : forall e tr s k, keyed s -> race_run e (tr ++ [Gather; Wipe; Send]) (alone s) = Some k ->
  undisturbed false tr = true -> forall q t, last_note q tr = Some t -> last_sent q (h_sent k) = Some t.
Proof. exact kept. Qed.
Print Assumptions C107_drawn_partial.

(** But a change noted in between is never drawn, whatever happens next, however often the screen is drawn
    and however often the same content is written again: the screen holds the cell and takes it for
    drawn. *)
Theorem C107_lost_refuted : forall e q t c items tr k k',
  h_drawer k = Formatting items -> h_writer k = Some (q, t) -> 0 <= fst q -> 0 <= snd q ->
  mget (sc_cells (h_screen k)) (fst q) (snd q) = Some c ->
  race_run e (Note q t :: Wipe :: tr) k = Some k' -> Forall (same_again q c) tr -> Forall at_cell tr ->
  mget (sc_cells (h_screen k')) (fst q) (snd q) = Some c /\ pending (h_screen k') q = None /\
  exists extra, h_sent k' = h_sent k ++ extra /\ forall b, In b extra -> b = items \/ buf_get q b = None.
Proof. exact lost. Qed.
Print Assumptions C107_lost_refuted.

Definition plain_cell (t : str) : cell := (t, None, None).
Definition race0 : shared := alone (fst (fst (write_bulk e0 [] (snd (render (new_screen 2 1 (0, 0) [32]) (1, 1) false)) [] BLACK false))).
(** the cell (1, 0) is stored while the change of (0, 0) is being drawn: it is on the screen but never drawn,
    though it is written again and the screen is drawn again *)
Example C107_ex :
  let tr := [Store (0, 0) (plain_cell [97]) false; Note (0, 0) [97]; Gather; Store (1, 0) (plain_cell [98]) false; Note (1, 0) [98]; Wipe; Send] in
  let again := [Store (1, 0) (plain_cell [98]) false; Gather; Wipe; Send] in
  undisturbed false tr = false /\
  match race_run e0 (tr ++ again) race0 with
  | Some k => h_sent k = [[((0, 0), [97])]; []] /\ sc_cells (h_screen k) = [[plain_cell [97]; plain_cell [98]]]
  | None => False
  end.
Proof. repeat split. Qed.
(** two draws that are not disturbed, with writes before, during and after them *)
Example C107_ex2 :
  let tr := [Store (0, 0) (plain_cell [97]) false; Gather; Wipe; Note (0, 0) [97]; Store (1, 0) (plain_cell [98]) false; Send; Gather; Wipe;
             Note (1, 0) [98]; Send; Store (0, 0) (plain_cell [99]) false; Note (0, 0) [99]] in
  undisturbed false tr = true /\ keyed (h_screen race0) /\ last_note (0, 0) tr = Some [99] /\ last_note (1, 0) tr = Some [98] /\
  match race_run e0 (tr ++ [Gather; Wipe; Send]) race0 with
  | Some k => h_sent k = [[]; [((0, 0), [97])]; [((0, 0), [99]); ((1, 0), [98])]]
  | None => False
  end.
Proof. repeat split. unfold keyed. cbn. constructor. Qed.
