(** Lemmas: answers to queries read with getch_timeout. *)
From Coq Require Import ZArith List Bool String Lia.
From Verif Require Import PyBase F64 CoreModel KeySpec KeyProofs KeyProofs2 TermModel TimeoutModel TimeoutSpec TimeoutProofs.
Import ListNotations.
Open Scope Z_scope.
Open Scope list_scope.

Lemma early_answer : forall M (cb : M -> M) d (w : world M), positive d -> w_feeder w = sio_empty ->
  getch_timeout cb true false d (Some (Reading 0)) false [] w =
    (mkWorld sio_empty (w_mode w) [] RaiseTimeout None, Returned (Ok Default)) /\
  supports_synchronized_update true None = Ok false /\ forall fb, resolution true true fb None = Ok fb.
Proof.
  intros M cb d w P E. split; [rewrite timeout_silent by assumption; now rewrite E|]. split; [reflexivity|].
  intro fb. apply resolution_silent.
Qed.
Lemma late_answer : forall M (cb : M -> M) d (w : world M) n, positive d -> w_feeder w = sio_empty -> (n = 49 \/ n = 50) ->
  let answer := [27; 91] ++ lit "?2026;" ++ [n] ++ lit "$y" in
  snd (getch_timeout cb true false d None false answer w) = Returned (Ok (Typed [answer])) /\
  supports_synchronized_update true (Some answer) = Ok true.
Proof.
  intros M cb d w n P E N. cbv zeta. rewrite timeout_in_time by assumption. rewrite E.
  destruct N as [-> | ->]; (split; [|vm_compute; reflexivity]); unfold getch, getch_posix; cbn [negb sio_empty sio_text];
    match goal with |- context [read_burst ?e ?i] => let r := eval vm_compute in (read_burst e i) in change (read_burst e i) with r end;
    vm_compute; reflexivity.
Qed.
