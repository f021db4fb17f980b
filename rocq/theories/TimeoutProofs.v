(** Lemmas: reading with a timeout, reading on Windows. *)
From Coq Require Import ZArith List Bool String Lia.
From Flocq Require Import IEEE754.BinarySingleNaN.
From Verif Require Import PyBase F64 KeyTab CoreModel KeySpec KeyProofs TimeoutModel TimeoutSpec.
Import ListNotations.
Open Scope Z_scope.
Open Scope list_scope.

Lemma positive_runs : forall d, positive d ->
  is_nan d = false /\ is_finite d = true /\ fltb d fzero = false /\ feqb d fzero = false.
Proof.
  intros d [F P]. destruct d as [s|s| |s m e H]; try discriminate. destruct s; [discriminate|]. repeat split; reflexivity.
Qed.

Lemma timeout_in_time : forall M (cb : M -> M) tty raw d eof inp w, positive d ->
  getch_timeout cb tty raw d None eof inp w =
    (let '(s, mode, o) := getch cb (w_mode w) tty raw None (w_feeder w) eof inp in
     (after w s mode (if tty then match sio_text (w_feeder w) with [] => [] | _ => w_input w end else w_input w), typed o)).
Proof.
  intros M cb tty raw d eof inp w P. destruct (positive_runs d P) as [H1 [H2 [H3 H4]]].
  unfold getch_timeout, getch. rewrite H1, H2, H3, H4. cbn [negb]. unfold getch_alarmed, getch_posix, after, typed.
  destruct tty; cbn [negb]; [|reflexivity].
  destruct (sio_text (w_feeder w)) as [|c t] eqn:E.
  - destruct (read_burst eof inp) as [t| |]; [|reflexivity|reflexivity]. destruct (decode_key raw t); reflexivity.
  - destruct (decode_key raw (c :: t)); reflexivity.
Qed.

Lemma timeout_silent : forall M (cb : M -> M) raw d eof w, positive d -> w_feeder w = sio_empty ->
  getch_timeout cb true raw d (Some (Reading 0)) eof [] w =
    (mkWorld (w_feeder w) (w_mode w) [] RaiseTimeout None, Returned (Ok Default)).
Proof.
  intros M cb raw d eof w P E. destruct (positive_runs d P) as [H1 [H2 [H3 H4]]].
  unfold getch_timeout. rewrite H1, H2, H3, H4. cbn [negb]. unfold getch_alarmed. rewrite E. reflexivity.
Qed.

Lemma timeout_results : forall M (cb : M -> M) tty raw d a eof inp w w' r, positive d ->
  getch_timeout cb tty raw d a eof inp w = (w', Returned r) ->
  r = Ok Default \/ (r = Err RuntimeError /\ a = Some Entering) \/ (r = Err TimeoutException /\ a = Some Leaving) \/
  Returned r = typed (snd (getch cb (w_mode w) tty raw None (w_feeder w) eof inp)).
Proof.
  intros M cb tty raw d a eof inp w w' r P. destruct (positive_runs d P) as [H1 [H2 [H3 H4]]].
  unfold getch_timeout, getch. rewrite H1, H2, H3, H4. cbn [negb]. unfold getch_alarmed, getch_posix.
  assert (E : forall q : res key, (let* k := q in Ok (Typed k)) = match q with Ok k => Ok (Typed k) | Err x => Err x end)
    by (intros [k|x]; reflexivity).
  destruct tty; cbn [negb]; destruct (sio_text (w_feeder w)) as [|c t]; destruct a as [[]|];
    try (destruct (read_burst eof inp) as [u| |]);
    intro H; inversion H; subst; cbn [snd typed]; auto; right; right; right; cbn;
    try reflexivity; try (destruct (decode_key raw u); reflexivity); try (destruct (decode_key raw (c :: t)); reflexivity).
Qed.

Lemma timeout_escapes : forall M (cb : M -> M) tty raw d eof inp w r, positive d ->
  snd (getch cb (w_mode w) tty raw None (w_feeder w) eof inp) = Returned r ->
  snd (getch_timeout cb tty raw d (Some Leaving) eof inp w) = Returned (Err TimeoutException).
Proof.
  intros M cb tty raw d eof inp w r P. destruct (positive_runs d P) as [H1 [H2 [H3 H4]]].
  unfold getch_timeout, getch. rewrite H1, H2, H3, H4. cbn [negb]. unfold getch_alarmed, getch_posix.
  destruct tty; cbn [negb]; [|reflexivity]. destruct (sio_text (w_feeder w)) as [|c t]; [|reflexivity].
  destruct (read_burst eof inp) as [u| |]; cbn; [reflexivity|discriminate|discriminate].
Qed.

Lemma timeout_loses : forall M (cb : M -> M) raw d n eof inp w, positive d -> w_feeder w = sio_empty ->
  getch_timeout cb true raw d (Some (Reading n)) eof inp w =
    (mkWorld (w_feeder w) (w_mode w) (skipn n inp) RaiseTimeout None, Returned (Ok Default)).
Proof.
  intros M cb raw d n eof inp w P E. destruct (positive_runs d P) as [H1 [H2 [H3 H4]]].
  unfold getch_timeout. rewrite H1, H2, H3, H4. cbn [negb]. unfold getch_alarmed. rewrite E. reflexivity.
Qed.
Lemma timeout_loses_feed : forall M (cb : M -> M) raw d t eof inp w, positive d -> t <> [] -> w_feeder w = feed t sio_empty ->
  exists w', getch_timeout cb true raw d (Some FedTaken) eof inp w = (w', Returned (Ok Default)) /\ sio_text (w_feeder w') = [].
Proof.
  intros M cb raw d t eof inp w P N E. destruct (positive_runs d P) as [H1 [H2 [H3 H4]]].
  unfold getch_timeout. rewrite H1, H2, H3, H4. cbn [negb]. unfold getch_alarmed. rewrite E.
  assert (F : sio_text (feed t sio_empty) = t).
  { unfold feed, sio_write, sio_seek, sio_empty. cbn. destruct t; [reflexivity|]. cbn. now rewrite app_nil_r. }
  rewrite F. destruct t as [|c t]; [congruence|]. cbn [negb]. eexists. split; [reflexivity|]. reflexivity.
Qed.

Lemma timeout_mode : forall M (cb : M -> M) tty raw d a eof inp w w' r,
  getch_timeout cb tty raw d a eof inp w = (w', Returned r) -> a <> Some Unprotected -> a <> Some Restoring ->
  w_mode w' = w_mode w.
Proof.
  intros M cb tty raw d a eof inp w w' r H A1 A2. revert H. unfold getch_timeout.
  destruct (is_nan d); [intro H; now inversion H|]. destruct (negb (is_finite d)); [intro H; now inversion H|].
  destruct (fltb d fzero); [intro H; now inversion H|].
  set (a' := if feqb d fzero then None else a).
  assert (A1' : a' <> Some Unprotected) by (unfold a'; destruct (feqb d fzero); congruence).
  assert (A2' : a' <> Some Restoring) by (unfold a'; destruct (feqb d fzero); congruence).
  clearbody a'. unfold getch_alarmed.
  destruct tty; cbn [negb]; destruct (sio_text (w_feeder w)) as [|c t]; destruct a' as [[]|];
    try (destruct (read_burst eof inp) as [u| |]);
    intro H; inversion H; subst; cbn; congruence.
Qed.
Lemma timeout_mode_lost : forall M (cb : M -> M) raw d eof inp w, positive d -> w_feeder w = sio_empty ->
  exists w', getch_timeout cb true raw d (Some Unprotected) eof inp w = (w', Returned (Ok Default)) /\ w_mode w' = cb (w_mode w).
Proof.
  intros M cb raw d eof inp w P E. destruct (positive_runs d P) as [H1 [H2 [H3 H4]]].
  unfold getch_timeout. rewrite H1, H2, H3, H4. cbn [negb]. unfold getch_alarmed. rewrite E. cbn.
  eexists. split; reflexivity.
Qed.

Lemma timeout_zero : forall M (cb : M -> M) tty raw d a eof inp w, feqb d fzero = true ->
  snd (getch_timeout cb tty raw d a eof inp w) = typed (snd (getch cb (w_mode w) tty raw None (w_feeder w) eof inp)).
Proof.
  intros M cb tty raw d a eof inp w Z.
  assert (H : is_nan d = false /\ is_finite d = true /\ fltb d fzero = false).
  { destruct d as [s|s| |s m e H]; try discriminate; destruct s; try discriminate; repeat split; reflexivity. }
  destruct H as [H1 [H2 H3]]. unfold getch_timeout, getch. rewrite H1, H2, H3, Z. cbn [negb]. unfold getch_alarmed, getch_posix.
  destruct tty; cbn [negb]; [|reflexivity]. destruct (sio_text (w_feeder w)) as [|c t].
  - destruct (read_burst eof inp) as [u| |]; cbn; [|reflexivity|reflexivity]. destruct (decode_key raw u); reflexivity.
  - cbn. destruct (decode_key raw (c :: t)); reflexivity.
Qed.
Lemma timeout_zero_waits : forall M (cb : M -> M) raw d a w, feqb d fzero = true -> w_feeder w = sio_empty ->
  snd (getch_timeout cb true raw d a false [] w) = Waits.
Proof. intros M cb raw d a w Z E. rewrite timeout_zero by exact Z. rewrite E. reflexivity. Qed.

Lemma timeout_signals : forall M (cb : M -> M) tty raw d a eof inp w,
  let w' := fst (getch_timeout cb tty raw d a eof inp w) in w_handler w' = RaiseTimeout /\ w_timer w' = None.
Proof.
  intros M cb tty raw d a eof inp w. cbv zeta. unfold getch_timeout.
  destruct (is_nan d); [now split|]. destruct (negb (is_finite d)); [now split|]. destruct (fltb d fzero); [now split|].
  destruct (if feqb d fzero then None else a) as [a'|].
  - destruct a'; try (destruct (getch_alarmed cb tty raw _ eof (w_feeder w) (w_mode w) (w_input w) inp) as [[[? ?] ?] ?]); now split.
  - destruct (getch_alarmed cb tty raw None eof (w_feeder w) (w_mode w) (w_input w) inp) as [[[? ?] ?] ?]. now split.
Qed.

(** * Windows *)
Lemma nt_rest_ascii : forall l acc, Forall ascii l -> nt_rest acc l = Ok (acc ++ l).
Proof.
  induction l as [|b l IH]; intros acc H; [now rewrite app_nil_r|]. inversion H as [|? ? Hb Hl]; subst. cbn [nt_rest].
  unfold ensure_str. replace (b <? 128) with true by (symmetry; apply Z.ltb_lt; unfold ascii in Hb; lia). cbn [bindr].
  rewrite IH by exact Hl. now rewrite <- app_assoc.
Qed.
Lemma nt_rest_other : forall l acc, Forall byte l -> ~ Forall ascii l -> nt_rest acc l = Err UnicodeDecodeError.
Proof.
  induction l as [|b l IH]; intros acc B H; [exfalso; apply H; constructor|]. inversion B as [|? ? Bb Bl]; subst. cbn [nt_rest].
  unfold ensure_str. destruct (b <? 128) eqn:E; [|reflexivity]. cbn [bindr]. apply IH; [exact Bl|].
  intro F. apply H. constructor; [|exact F]. unfold ascii, byte in *. lia.
Qed.
Lemma windows_reads : forall raw bytes, Forall byte bytes ->
  (forall t, keyed_text bytes = Some t -> getch_windows true raw bytes = Ok (decode_key_nt raw t)) /\
  (keyed_text bytes = None -> getch_windows true raw bytes = Err UnicodeDecodeError).
Proof.
  intros raw bytes B. unfold getch_windows, getch_nt, keyed_text. cbn [negb].
  destruct bytes as [|b rest]; [split; [intros t E; inversion E; reflexivity|discriminate]|].
  inversion B as [|? ? Bb Br]; subst.
  assert (D : {Forall ascii rest} + {~ Forall ascii rest}).
  { apply Forall_dec. intro x. unfold ascii. destruct (Z_le_dec 0 x); destruct (Z_lt_dec x 128); [left|right|right|right]; lia. }
  destruct (b =? 224) eqn:E.
  - apply Z.eqb_eq in E. subst b. cbn [bindr]. destruct (forallb is_ascii rest) eqn:A.
    + split; [|discriminate]. intros t H. inversion H; subst. rewrite nt_rest_ascii; [reflexivity|].
      apply Forall_forall. intros x I. rewrite forallb_forall in A. specialize (A x I). unfold is_ascii in A. unfold ascii. lia.
    + split; [discriminate|]. intros _. rewrite nt_rest_other; [reflexivity|exact Br|].
      intro F. rewrite <- not_true_iff_false in A. apply A. apply forallb_forall. intros x I.
      rewrite Forall_forall in F. specialize (F x I). unfold ascii in F. unfold is_ascii. lia.
  - cbn [forallb]. unfold ensure_str. destruct (b <? 128) eqn:L.
    + replace (is_ascii b) with true by (symmetry; unfold is_ascii, byte in *; lia). cbn [andb bindr].
      destruct (forallb is_ascii rest) eqn:A.
      * split; [|discriminate]. intros t H. inversion H; subst. rewrite nt_rest_ascii; [reflexivity|].
        apply Forall_forall. intros x I. rewrite forallb_forall in A. specialize (A x I). unfold is_ascii in A. unfold ascii. lia.
      * split; [discriminate|]. intros _. rewrite nt_rest_other; [reflexivity|exact Br|].
        intro F. rewrite <- not_true_iff_false in A. apply A. apply forallb_forall. intros x I.
        rewrite Forall_forall in F. specialize (F x I). unfold ascii in F. unfold is_ascii. lia.
    + replace (is_ascii b) with false by (symmetry; unfold is_ascii, byte in *; lia). cbn [andb bindr]. split; [discriminate|reflexivity].
Qed.
Lemma nt_names_ascii : Forall (fun kv : str * list str => Forall (fun n => forallb is_ascii n = true) (snd kv)) NT_KEY_NAMES.
Proof. repeat constructor. Qed.
Lemma windows_f11 : Forall (fun k => getch_windows true false k = Err UnicodeDecodeError)
    [[224; 133]; [224; 134]; [224; 72; 224; 72]] /\
  forall raw t bytes, Forall byte bytes -> getch_windows true raw bytes = Ok [t] ->
    In t [[224; 133]; [224; 134]] -> False.
Proof.
  split; [repeat constructor|]. intros raw t bytes B H I.
  assert (A : forallb is_ascii t = false) by (destruct I as [<-|[<-|[]]]; reflexivity).
  destruct (windows_reads raw bytes B) as [W1 W2]. destruct (keyed_text bytes) as [u|] eqn:K.
  - rewrite (W1 u eq_refl) in H. injection H as H. unfold decode_key_nt in H.
    assert (U : forallb is_ascii u = true).
    { unfold keyed_text in K. destruct bytes as [|b rest]; [inversion K; reflexivity|]. destruct (b =? 224).
      - destruct (forallb is_ascii rest) eqn:E; [|discriminate]. inversion K; subst. exact E.
      - destruct (forallb is_ascii (b :: rest)) eqn:E; [|discriminate]. inversion K; subst. exact E. }
    destruct raw; [injection H as H; congruence|].
    destruct (dict_get NT_KEY_NAMES u) as [names|] eqn:D; [|injection H as H; congruence].
    subst names. apply dict_get_in in D. pose proof (proj1 (Forall_forall _ _) nt_names_ascii _ D) as F. cbn [snd] in F.
    inversion F; subst. congruence.
  - rewrite (W2 eq_refl) in H. discriminate.
Qed.
