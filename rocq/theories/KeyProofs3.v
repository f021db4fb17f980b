(** Sessions of the feeder, whole reads, terminal mode. *)
From Coq Require Import ZArith List Bool String Lia.
From Verif Require Import PyBase PyLemmas KeyTab CoreModel KeySpec KeyProofs.
Open Scope Z_scope.

Lemma feed_session_spec : forall M (cb : M -> M) mode eof input ts, Forall (fun t => t <> []) ts ->
  feed_session cb mode sio_empty eof input ts = (sio_empty, map (fun t => Returned (Ok t)) ts).
Proof.
  intros M cb mode eof input ts H. induction H as [|t ts N _ IH]; [reflexivity|].
  cbn [feed_session]. rewrite feed_then_getch by assumption. rewrite IH. reflexivity.
Qed.

Lemma getch_reads : forall M (cb : M -> M) mode raw cs, cs <> [] -> Forall scalar cs ->
  getch cb mode true raw None sio_empty false (flat_map utf8 cs) = (sio_empty, mode, Returned (decode_key raw cs)).
Proof. intros. unfold getch, getch_posix. cbn [negb sio_text sio_empty]. now rewrite read_burst_utf8. Qed.
Lemma getch_waits : forall M (cb : M -> M) mode raw cs c p r, Forall scalar cs -> scalar c -> utf8 c = p ++ r ->
  p <> [] -> r <> [] ->
  snd (getch cb mode true raw None sio_empty false (flat_map utf8 cs ++ p)) = Waits.
Proof. intros. unfold getch, getch_posix. cbn [negb sio_text sio_empty]. now rewrite (read_burst_partial cs c p r). Qed.
Lemma getch_eof : forall M (cb : M -> M) mode raw input,
  snd (getch cb mode true raw None sio_empty true input) = Spins.
Proof. intros. unfold getch, getch_posix. cbn [negb sio_text sio_empty]. now rewrite read_burst_eof. Qed.

Lemma getch_mode : forall M (cb : M -> M) mode tty raw intr s eof input s' mode' k,
  intr <> Some BeforeTry -> getch cb mode tty raw intr s eof input = (s', mode', Returned k) -> mode' = mode.
Proof.
  intros M cb mode tty raw intr s eof input s' mode' k N. unfold getch. destruct (negb tty).
  { intro H. injection H as <- <- <-. reflexivity. }
  unfold getch_posix. destruct (sio_text s) as [|c t].
  - destruct intr as [[| |]|]; try congruence; try (intro H; injection H as <- <- <-; reflexivity).
    destruct (read_burst eof input); intro H; try discriminate. injection H as <- <- <-. reflexivity.
  - intro H. injection H as <- <- <-. reflexivity.
Qed.
Lemma getch_interrupted : forall M (cb : M -> M) mode m s eof input, sio_text s = [] ->
  snd (getch cb mode true false (Some m) s eof input) = Returned (Ok [lit "ctrl-c"]).
Proof.
  intros M cb mode m s eof input E. unfold getch, getch_posix. rewrite E. cbn [negb].
  destruct m; cbv beta iota zeta; cbn [snd]; vm_compute; reflexivity.
Qed.

Lemma ctrl_letters : forall c, 97 <= c <= 122 ->
  exists k, decode_key false [c - 96] = Ok k /\ key_eqb_str k (lit "ctrl-" ++ [c]) = true.
Proof.
  assert (T : forallb (fun i => match decode_key false [97 + i - 96] with
      | Ok k => key_eqb_str k (lit "ctrl-" ++ [97 + i]) | Err _ => false end) (range 26) = true) by (vm_compute; reflexivity).
  intros c H. rewrite forallb_forall in T. specialize (T (c - 97) ltac:(apply in_range; lia)).
  replace (97 + (c - 97)) with c in T by lia. destruct (decode_key false [c - 96]); [eauto|discriminate].
Qed.
