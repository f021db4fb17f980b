(** Lemmas about Terminal: context managers, titles, failed draws, cached color sequences. *)
From Coq Require Import ZArith List Bool Lia String.
From Verif Require Import PyBase PyLemmas F64 SpaceModel ColorModel SpanModel CoreModel ScreenModel ScreenSpec
  Vt SpanProofs TermModel TermSpec TermProofs.
Import ListNotations.
Open Scope Z_scope.
Open Scope list_scope.

(** * Context managers *)
Lemma same_refl : forall s, same_object s s.
Proof. intro s. unfold same_object. intuition. Qed.
Lemma same_trans : forall a b c, same_object a b -> same_object b c -> same_object a c.
Proof. unfold same_object. intros a b c H1 H2. intuition; congruence. Qed.

Definition leave (m : mgr) : M unit :=
  match m with
  | AltBuffer h => write_control END_ALT_BUFFER ;; write_control RESTORE_TITLE ;; whenM h (show_cursor true)
  | NoEcho => set_echo true
  | ReportMouse => set_report_mouse false
  | Batch => write_control END_SYNCHRONIZED_UPDATE
  end.
Lemma within_eq : forall A m (body : M A) v s, within m body v s = try_finally (enter m ;; body) (leave m) v s.
Proof.
  intros A [h| | |] body v s; try reflexivity. unfold within, alt_buffer, try_finally, enter, leave, write_control, show_cursor, whenM, seqM, bindM.
  change START_ALT_BUFFER with (seq_ "?1049h"). change HIDE_CURSOR with (seq_ "?25l").
  destruct (stream_write (seq_ "?1049h") v s) as [s1 [u|x]]; [|reflexivity].
  destruct h; [|reflexivity]. unfold write_control. change HIDE_CURSOR with (seq_ "?25l").
  destruct (stream_write (seq_ "?25l") v s1) as [s2 [u'|x]]; reflexivity.
Qed.

Lemma stream_ok : forall t v s, te_fail v (t_writes s) = false ->
  stream_write t v s = (set_out (t_out s ++ t) (S (t_writes s)) s, Ok tt).
Proof. intros t v s H. unfold stream_write. now rewrite H. Qed.
Lemma stream_err : forall t v s, te_fail v (t_writes s) = true ->
  stream_write t v s = (set_out (t_out s) (S (t_writes s)) s, Err OSError).
Proof. intros t v s H. unfold stream_write. now rewrite H. Qed.

Lemma leave_calm : forall m v s, calm_from v (t_writes s) ->
  exists s', leave m v s = (s', Ok tt) /\ same_object s s' /\ t_out s' = t_out s ++ closing m /\
    t_echo s' = (if te_stdin_tty v && silences m then true else t_echo s).
Proof.
  intros [h| | |] v s C; unfold leave, seqM, bindM, whenM, write_control, set_report_mouse, show_cursor, set_echo, retM.
  - rewrite (stream_ok _ v s) by (apply C; lia).
    rewrite stream_ok by (apply C; cbn; lia).
    destruct h.
    + unfold write_control. rewrite stream_ok by (apply C; cbn; lia). eexists. split; [reflexivity|]. split; [unfold same_object; cbn; intuition|].
      cbn [t_out set_out t_echo]. rewrite andb_false_r. rewrite <- !app_assoc. split; reflexivity.
    + eexists. split; [reflexivity|]. split; [unfold same_object; cbn; intuition|].
      cbn [t_out set_out t_echo]. rewrite andb_false_r. rewrite <- !app_assoc. split; reflexivity.
  - cbn [silences closing]. rewrite app_nil_r, andb_true_r. destruct (te_stdin_tty v); eexists; (split; [reflexivity|]); unfold same_object; cbn; intuition.
  - rewrite stream_ok by (apply C; lia). eexists. split; [reflexivity|]. cbn [silences]. rewrite andb_false_r. unfold same_object; cbn; intuition.
  - rewrite stream_ok by (apply C; lia). eexists. split; [reflexivity|]. cbn [silences]. rewrite andb_false_r. unfold same_object; cbn; intuition.
Qed.
Lemma enter_calm : forall m v s, calm v ->
  exists s', enter m v s = (s', Ok tt) /\ same_object s s' /\ t_out s' = t_out s ++ opening m /\
    t_echo s' = (if te_stdin_tty v && silences m then false else t_echo s).
Proof.
  intros [h| | |] v s C; unfold enter, seqM, bindM, set_echo, retM.
  - rewrite (stream_ok _ v s) by apply C.
    destruct h.
    + rewrite stream_ok by apply C. eexists. split; [reflexivity|]. split; [unfold same_object; cbn; intuition|].
      cbn [t_out set_out t_echo]. rewrite andb_false_r. rewrite <- !app_assoc. split; reflexivity.
    + eexists. split; [reflexivity|]. split; [unfold same_object; cbn; intuition|].
      cbn [t_out set_out t_echo]. rewrite andb_false_r. split; reflexivity.
  - cbn [silences opening]. rewrite app_nil_r, andb_true_r. destruct (te_stdin_tty v); eexists; (split; [reflexivity|]); unfold same_object; cbn; intuition.
  - rewrite stream_ok by apply C. eexists. split; [reflexivity|]. cbn [silences]. rewrite andb_false_r. unfold same_object; cbn; intuition.
  - rewrite stream_ok by apply C. eexists. split; [reflexivity|]. cbn [silences]. rewrite andb_false_r. unfold same_object; cbn; intuition.
Qed.

(** Whatever happens on entering or in the body, the closing sequences follow and the outcome is kept *)
Lemma leaving : forall A m (body : M A) v s s2 r, (enter m ;; body) v s = (s2, r) -> calm_from v (t_writes s2) ->
  exists s3, within m body v s = (s3, r) /\ same_object s2 s3 /\ t_out s3 = t_out s2 ++ closing m /\
    t_echo s3 = (if te_stdin_tty v && silences m then true else t_echo s2).
Proof.
  intros A m body v s s2 r H C. rewrite within_eq. unfold try_finally. rewrite H.
  destruct (leave_calm m v s2 C) as [s3 [-> [H1 [H2 H3]]]]. exists s3. auto.
Qed.

Lemma nesting : forall A v, calm v -> forall ms (body : M A) s,
  exists s1, same_object s s1 /\ t_out s1 = t_out s ++ openings ms /\
    t_echo s1 = (if te_stdin_tty v && existsb silences ms then false else t_echo s) /\
    forall s2 r, body v s1 = (s2, r) ->
    exists s3, nest ms body v s = (s3, r) /\ same_object s2 s3 /\ t_out s3 = t_out s2 ++ closings ms /\
      t_echo s3 = (if te_stdin_tty v && existsb silences ms then true else t_echo s2).
Proof.
  intros A v C ms. induction ms as [|m ms IH]; intros body s.
  - exists s. cbn [openings flat_map existsb]. rewrite app_nil_r, andb_false_r. split; [apply same_refl|]. split; auto. split; auto.
    intros s2 r H. exists s2. cbn [nest fold_right closings rev flat_map]. unfold closings. cbn. rewrite app_nil_r.
    split; auto. split; [apply same_refl|]. auto.
  - destruct (enter_calm m v s C) as [s0 [E0 [S0 [O0 K0]]]].
    destruct (IH body s0) as [s1 [S1 [O1 [K1 R]]]].
    exists s1. split; [eapply same_trans; eauto|]. split.
    { rewrite O1, O0, <- app_assoc. reflexivity. }
    split. { rewrite K1, K0. cbn [existsb]. destruct (te_stdin_tty v), (silences m), (existsb silences ms); reflexivity. }
    intros s2 r H. destruct (R s2 r H) as [s3 [E3 [S3 [O3 K3]]]].
    destruct (leaving A m (nest ms body) v s s3 r) as [s4 [E4 [S4 [O4 K4]]]].
    { unfold seqM, bindM. rewrite E0. exact E3. }
    { intros n _. apply C. }
    exists s4. split; [exact E4|]. split; [eapply same_trans; eauto|]. split.
    + rewrite O4, O3, <- app_assoc. f_equal. unfold closings. cbn [rev]. now rewrite flat_map_app, <- (app_nil_r (closing m)) at 1.
    + rewrite K4, K3. cbn [existsb]. destruct (te_stdin_tty v), (silences m), (existsb silences ms); reflexivity.
Qed.

(** ** What the emulator is left with *)
Lemma vt_closing : forall m t, osc_closed t ->
  osc_closed (vt (closing m) t) /\ exists l, Permutation.Permutation l (left_modes m) /\ e_modes (vt (closing m) t) = l ++ e_modes t.
Proof.
  intros m [w h g x y wr rd lk p md ti ts] H. unfold osc_closed in H. cbn [e_parse] in H.
  destruct m as [[|]| | |].
  - destruct p; try contradiction; (split; [destruct ts; exact I|]); exists [(25, true); (1049, false)];
      (split; [apply Permutation.perm_swap|destruct ts; reflexivity]).
  - destruct p; try contradiction; (split; [destruct ts; exact I|]); exists [(1049, false)]; (split; [reflexivity|destruct ts; reflexivity]).
  - split; [exact H|]. exists []. split; [constructor|reflexivity].
  - destruct p; try contradiction; (split; [exact I|]); exists [(1003, false); (1002, false); (1006, false)];
      (split; [|reflexivity]); cbn [left_modes];
      apply (Permutation.Permutation_rev [(1003, false); (1002, false); (1006, false)]).
  - destruct p; try contradiction; (split; [exact I|]); exists []; (split; [constructor|reflexivity]).
Qed.
Lemma left_modes_value : forall m n b, In (n, b) (left_modes m) -> b = (n =? 25).
Proof. intros [[|]| | |] n b; cbn; intuition; match goal with H : (_, _) = (_, _) |- _ => injection H as <- <-; reflexivity end. Qed.
Lemma mode_of_app : forall n l r, (forall b, In (n, b) l -> b = (n =? 25)) ->
  mode_of n (l ++ r) = if existsb (fun k => fst k =? n) l then Some (n =? 25) else mode_of n r.
Proof.
  intros n l r. induction l as [|[k b] l IH]; intro H; [reflexivity|]. cbn [app mode_of existsb fst].
  destruct (k =? n) eqn:E.
  - apply Z.eqb_eq in E. subst k. cbn [orb]. f_equal. apply H. now left.
  - cbn [orb]. apply IH. intros b' Hb. apply H. now right.
Qed.
Lemma closings_modes : forall ms t, osc_closed t -> osc_closed (vt (flat_map closing ms) t) /\
  forall n, mode_of n (e_modes (vt (flat_map closing ms) t)) =
    if existsb (fun m => existsb (fun k => fst k =? n) (left_modes m)) ms then Some (n =? 25) else mode_of n (e_modes t).
Proof.
  induction ms as [|m ms IH]; intros t H; [cbn; auto|]. cbn [flat_map existsb]. rewrite vt_app.
  destruct (vt_closing m t H) as [H1 [l [Hl H2]]]. destruct (IH _ H1) as [H3 H4]. split; [exact H3|].
  intro n. rewrite H4, H2. rewrite mode_of_app.
  - assert (E : existsb (fun k => fst k =? n) l = existsb (fun k => fst k =? n) (left_modes m)).
    { apply eq_true_iff_eq. rewrite !existsb_exists. split; intros [k [Hk Ek]]; exists k; split; auto.
      - eapply Permutation.Permutation_in; eauto.
      - eapply Permutation.Permutation_in; [symmetry|]; eauto. }
    rewrite E. destruct (existsb _ ms), (existsb _ (left_modes m)); reflexivity.
  - intros b Hb. eapply left_modes_value. eapply Permutation.Permutation_in; eauto.
Qed.
Lemma left_terminal : forall ms t m n b, osc_closed t -> In m ms -> In (n, b) (left_modes m) ->
  mode_of n (e_modes (vt (closings ms) t)) = Some b.
Proof.
  intros ms t m n b H Hm Hn. unfold closings. rewrite (proj2 (closings_modes (rev ms) t H)).
  replace (existsb _ (rev ms)) with true; [f_equal; symmetry; eapply left_modes_value; eauto|].
  symmetry. apply existsb_exists. exists m. split; [now apply -> in_rev|]. apply existsb_exists. exists (n, b). split; auto. apply Z.eqb_refl.
Qed.

Lemma managers_restore : forall A v, calm v -> forall ms (body : M A) s,
  exists s1, same_object s s1 /\ t_out s1 = t_out s ++ openings ms /\
    t_echo s1 = (if te_stdin_tty v && existsb silences ms then false else t_echo s) /\
    forall s2 r, body v s1 = (s2, r) ->
    exists s3, nest ms body v s = (s3, r) /\ same_object s2 s3 /\ t_out s3 = t_out s2 ++ closings ms /\
      t_echo s3 = (if te_stdin_tty v && existsb silences ms then true else t_echo s2) /\
      forall t, osc_closed (vt (t_out s2) t) -> forall m n b, In m ms -> In (n, b) (left_modes m) ->
        mode_of n (e_modes (vt (t_out s3) t)) = Some b.
Proof.
  intros A v C ms body s. destruct (nesting A v C ms body s) as [s1 [H1 [H2 [H3 H4]]]].
  exists s1. repeat match goal with |- _ /\ _ => split end; auto. intros s2 r H. destruct (H4 s2 r H) as [s3 [G1 [G2 [G3 G4]]]].
  exists s3. repeat match goal with |- _ /\ _ => split end; auto. intros t Ht m n b Hm Hn. rewrite G3, vt_app. eapply left_terminal; eauto.
Qed.

(** A stream error while leaving the alternate buffer: nothing more is written *)
Lemma failing_close : forall A h (body : M A) v s s2 r, (enter (AltBuffer h) ;; body) v s = (s2, r) ->
  te_fail v (t_writes s2) = true ->
  exists s3, alt_buffer h body v s = (s3, Err OSError) /\ t_out s3 = t_out s2.
Proof.
  intros A h body v s s2 r H F. change (alt_buffer h body) with (within (AltBuffer h) body). rewrite within_eq. unfold try_finally. rewrite H.
  unfold leave, seqM, bindM, write_control. rewrite stream_err by exact F. eexists. split; reflexivity.
Qed.

(** * Titles *)
Lemma vt_store : forall m, e_parse m = PGround -> vt STORE_TITLE m = set_titles (e_title m) (e_title m :: e_titles m) m.
Proof. intros [w h g x y wr rd lk p md ti ts] H. cbn [e_parse] in H. subst p. reflexivity. Qed.
Lemma vt_restore : forall m, e_parse m = PGround ->
  vt RESTORE_TITLE m = match e_titles m with [] => m | a :: r => set_titles a r m end.
Proof. intros [w h g x y wr rd lk p md ti ts] H. cbn [e_parse] in H. subst p. destruct ts; reflexivity. Qed.
Lemma vt_title : forall t m, ~ In 7 t -> ~ In 27 t -> e_parse m = PGround -> vt (SET_TITLE t) m = set_titles t (e_titles m) m.
Proof.
  intros t m H7 H27 H. unfold SET_TITLE.
  change ([ESC] ++ lit "]0;" ++ t ++ [BEL]) with ([27; 93] ++ ([48; 59] ++ t) ++ [7]).
  rewrite vt_app. assert (E : vt [27; 93] m = set_parse (POsc []) m).
  { destruct m as [w h g x y wr rd lk p md ti ts]. cbn [e_parse] in H. subst p. reflexivity. }
  rewrite E, vt_app. rewrite vt_osc_buf.
  - cbn [app]. destruct m as [w h g x y wr rd lk p md ti ts]. cbn [e_parse] in H. subst p.
    cbn. unfold osc. cbn [split_on]. change (split_on 59 (48 :: 59 :: t)) with ([48] :: split_on 59 t).
    cbn. f_equal. exact (join_split_on 59 t).
  - cbn. intros [A|[A|A]]; try discriminate. contradiction.
  - cbn. intros [A|[A|A]]; try discriminate. contradiction.
Qed.

(** in a session: either nothing is set, and the title is the original; or something is, and the
    original is on the stack *)
Definition titled (loose : bool) (o : str) (st : list str) (s : tstate) (m : emu) : Prop :=
  e_parse m = PGround /\
  ((loose = true /\ blank_title (t_title s) /\ e_title m = o /\ e_titles m = st) \/
   (~ blank_title (t_title s) /\ e_titles m = o :: st)).

Lemma set_title_calm : forall t v s m0, calm v -> clean_title t -> e_parse (vt (t_out s) m0) = PGround ->
  exists s', set_title (Some t) v s = (s', Ok tt) /\ t_title s' = Some t /\ let m := vt (t_out s) m0 in
    vt (t_out s') m0 = set_titles t (match t_title s with Some (_ :: _) => e_titles m | _ => e_title m :: e_titles m end) m.
Proof.
  intros t v s m0 C [_ [H7 H27]] G. unfold set_title, seqM, bindM, whenM, write_control, retM.
  destruct (t_title s) as [[|c tt0]|]; rewrite (stream_ok _ v s) by apply C; try rewrite (stream_ok _ v _) by apply C;
    eexists; (split; [reflexivity|]); (split; [reflexivity|]); cbn [set_custom_title t_out set_out];
    rewrite ?vt_app; rewrite ?vt_store by assumption; rewrite vt_title by assumption; reflexivity.
Qed.
Lemma reset_title_calm : forall v s m0, calm v -> e_parse (vt (t_out s) m0) = PGround ->
  exists s', set_title None v s = (s', Ok tt) /\ t_title s' = None /\ let m := vt (t_out s) m0 in
    vt (t_out s') m0 = match e_titles m with [] => m | a :: r => set_titles a r m end.
Proof.
  intros v s m0 C G. unfold set_title, seqM, bindM, write_control. rewrite stream_ok by apply C.
  eexists. split; [reflexivity|]. split; [reflexivity|]. cbn [set_custom_title t_out set_out]. rewrite vt_app. now rewrite vt_restore by assumption.
Qed.

Lemma acts_titled : forall loose o st v m0, calm v -> forall l s, Forall fair l ->
  (loose = true /\ st = [] \/ Forall only_sets l) -> titled loose o st s (vt (t_out s) m0) ->
  titled loose o st (fst (acts l v s)) (vt (t_out (fst (acts l v s))) m0).
Proof.
  intros loose o st v m0 C l. induction l as [|a l IH]; intros s F L T; [exact T|].
  inversion F as [|? ? Fa Fl]; subst.
  assert (L' : loose = true /\ st = [] \/ Forall only_sets l) by (destruct L as [L|L]; [now left|right; now inversion L]).
  destruct T as [G T]. destruct a as [[t|]|m]; cbn [acts]; unfold seqM, bindM.
  - destruct (set_title_calm t v s m0 C Fa G) as [s' [-> [Ht Hm]]]. cbv zeta in Hm.
    apply IH; auto. split; [rewrite Hm; exact G|]. right. rewrite Ht, Hm. destruct Fa as [Ne _]. split.
    + destruct t; [contradiction|]. cbn. tauto.
    + cbn [set_titles e_titles]. destruct T as [[_ [B [E1 E2]]]|[B E]].
      * destruct (t_title s) as [[|]|]; cbn in B; try contradiction; now rewrite E1, E2.
      * destruct (t_title s) as [[|]|]; cbn in B; try tauto; exact E.
  - destruct L as [[-> ->]|L]; [|inversion L; contradiction].
    destruct (reset_title_calm v s m0 C G) as [s' [-> [Ht Hm]]]. cbv zeta in Hm.
    apply IH; auto. rewrite Hm. split.
    + destruct (e_titles (vt (t_out s) m0)); exact G.
    + left. rewrite Ht. split; auto. split; [exact I|]. destruct T as [[_ [B [E1 E2]]]|[B E]].
      * rewrite E2. auto.
      * rewrite E. auto.
  - cbn [fair] in Fa. destruct (Fa v s) as [s' [r [out [E [Ht [Ho Q]]]]]]. rewrite E.
    destruct (Q (vt (t_out s) m0) G) as [Q1 [Q2 Q3]].
    assert (T' : titled loose o st s' (vt (t_out s') m0)).
    { split; rewrite Ho, vt_app; [exact Q1|]. rewrite Ht, Q2, Q3. exact T. }
    destruct r as [u|x]; [now apply IH|exact T'].
Qed.

Lemma vt_ground_alt : forall h m, e_parse m = PGround ->
  let m' := vt (opening (AltBuffer h)) m in e_parse m' = PGround /\ e_title m' = e_title m /\ e_titles m' = e_titles m.
Proof. intros h [w hh g x y wr rd lk p md ti ts] H. cbn [e_parse] in H. subst p. destruct h; vm_compute; auto. Qed.
Lemma vt_close_alt : forall h m, e_parse m = PGround ->
  let m' := vt (closing (AltBuffer h)) m in e_parse m' = PGround /\
    e_title m' = hd (e_title m) (e_titles m) /\ e_titles m' = tl (e_titles m).
Proof. intros h [w hh g x y wr rd lk p md ti ts] H. cbn [e_parse] in H. subst p. destruct h, ts; vm_compute; auto. Qed.

Lemma session : forall A v h (body : M A) s s' r, calm v -> alt_buffer h body v s = (s', r) ->
  exists s1 s2, t_title s1 = t_title s /\ t_out s1 = t_out s ++ opening (AltBuffer h) /\ body v s1 = (s2, r) /\
    t_title s' = t_title s2 /\ t_out s' = t_out s2 ++ closing (AltBuffer h).
Proof.
  intros A v h body s s' r C H. destruct (nesting A v C [AltBuffer h] body s) as [s1 [S1 [O1 [_ R]]]].
  destruct (body v s1) as [s2 r2] eqn:E. destruct (R s2 r2 eq_refl) as [s3 [E3 [S3 [O3 _]]]].
  cbn [nest fold_right within] in E3. rewrite H in E3. injection E3 as -> ->.
  unfold closings, openings in *. cbn [rev app flat_map] in *. rewrite app_nil_r in O1, O3.
  exists s1, s2. unfold same_object in *. intuition.
Qed.

(** From an application that has set no title yet and an empty stack, any session gives the title back *)
Lemma title_back : forall v h l s s' r m0, calm v -> Forall fair l -> blank_title (t_title s) ->
  e_parse (vt (t_out s) m0) = PGround -> e_titles (vt (t_out s) m0) = [] ->
  alt_buffer h (acts l) v s = (s', r) ->
  e_title (vt (t_out s') m0) = e_title (vt (t_out s) m0) /\ e_titles (vt (t_out s') m0) = [].
Proof.
  intros v h l s s' r m0 C F B G S H. destruct (session unit v h (acts l) s s' r C H) as [s1 [s2 [T1 [O1 [E [T2 O2]]]]]].
  destruct (vt_ground_alt h (vt (t_out s) m0) G) as [G1 [G2 G3]].
  pose proof (acts_titled true (e_title (vt (t_out s) m0)) [] v m0 C l s1 F (or_introl (conj eq_refl eq_refl))) as T.
  rewrite E in T. cbn [fst] in T. destruct T as [G4 T].
  { split; rewrite O1, vt_app; [exact G1|]. left. rewrite G2, G3, T1. auto. }
  rewrite O2, vt_app. destruct (vt_close_alt h (vt (t_out s2) m0) G4) as [_ [K1 K2]]. rewrite K1, K2.
  destruct T as [[_ [_ [E1 E2]]]|[_ E2]]; rewrite E2; cbn; auto.
Qed.
(** With titles already on the stack (another application's), if the session starts by setting a
    title and never resets it *)
Lemma title_back_stack : forall v h t l s s' r m0, calm v -> clean_title t -> Forall fair l -> Forall only_sets l ->
  blank_title (t_title s) -> e_parse (vt (t_out s) m0) = PGround ->
  alt_buffer h (acts (TTitle (Some t) :: l)) v s = (s', r) ->
  e_title (vt (t_out s') m0) = e_title (vt (t_out s) m0) /\ e_titles (vt (t_out s') m0) = e_titles (vt (t_out s) m0).
Proof.
  intros v h t l s s' r m0 C Ct F L B G H. destruct (session unit v h _ s s' r C H) as [s1 [s2 [T1 [O1 [E [T2 O2]]]]]].
  destruct (vt_ground_alt h (vt (t_out s) m0) G) as [G1 [G2 G3]]. rewrite <- vt_app, <- O1 in *.
  cbn [acts] in E. unfold seqM, bindM in E.
  destruct (set_title_calm t v s1 m0 C Ct G1) as [s1' [E1 [Ht Hm]]]. rewrite E1 in E. cbv zeta in Hm.
  pose proof (acts_titled false (e_title (vt (t_out s) m0)) (e_titles (vt (t_out s) m0)) v m0 C l s1' F (or_intror L)) as T.
  rewrite E in T. cbn [fst] in T. destruct T as [G4 T].
  { split; rewrite Hm; [exact G1|]. right. rewrite Ht. destruct Ct as [Ne _]. split; [destruct t; [contradiction|]; cbn; tauto|].
    rewrite T1. cbn [set_titles e_titles]. rewrite G2, G3. destruct (t_title s) as [[|]|]; cbn in B; try contradiction; reflexivity. }
  rewrite O2, vt_app. destruct (vt_close_alt h (vt (t_out s2) m0) G4) as [_ [K1 K2]]. rewrite K1, K2.
  destruct T as [[X _]|[_ E2]]; [discriminate|]. rewrite E2; cbn; auto.
Qed.

(** * The second session *)
Lemma sets_run : forall v m0, calm v -> forall l s o st, Forall clean_title l -> ~ blank_title (t_title s) ->
  e_parse (vt (t_out s) m0) = PGround -> e_title (vt (t_out s) m0) = o -> e_titles (vt (t_out s) m0) = st ->
  exists s', acts (sets l) v s = (s', Ok tt) /\ ~ blank_title (t_title s') /\ e_parse (vt (t_out s') m0) = PGround /\
    e_title (vt (t_out s') m0) = last l o /\ e_titles (vt (t_out s') m0) = st.
Proof.
  intros v m0 C l. induction l as [|t l IH]; intros s o st F B G T S; cbn [sets map acts].
  - exists s. cbn. auto.
  - inversion F as [|? ? Ft Fl]; subst. unfold seqM, bindM.
    destruct (set_title_calm t v s m0 C Ft G) as [s1 [-> [H1 H2]]]. cbv zeta in H2.
    destruct (IH s1 t (e_titles (vt (t_out s) m0))) as [s' [E [B' [G' [T' S']]]]]; auto.
    + rewrite H1. destruct Ft as [Ne _]. destruct t; [contradiction|]. cbn. tauto.
    + rewrite H2. exact G.
    + now rewrite H2.
    + rewrite H2. cbn. destruct (t_title s) as [[|]|]; cbn in B; try tauto.
    + exists s'. rewrite last_cons_d. auto.
Qed.
Lemma later_session : forall v h l s m0, calm v -> Forall clean_title l -> ~ blank_title (t_title s) ->
  e_parse (vt (t_out s) m0) = PGround -> e_titles (vt (t_out s) m0) = [] ->
  exists s', alt_buffer h (acts (sets l)) v s = (s', Ok tt) /\ ~ blank_title (t_title s') /\
    e_title (vt (t_out s') m0) = last l (e_title (vt (t_out s) m0)).
Proof.
  intros v h l s m0 C F B G S. destruct (alt_buffer h (acts (sets l)) v s) as [s' r] eqn:H.
  destruct (session unit v h _ s s' r C H) as [s1 [s2 [T1 [O1 [E [T2 O2]]]]]].
  destruct (vt_ground_alt h (vt (t_out s) m0) G) as [G1 [G2 G3]]. rewrite <- vt_app, <- O1 in *.
  destruct (sets_run v m0 C l s1 (e_title (vt (t_out s) m0)) [] F) as [s2' [E' [B' [G' [T' S']]]]]; auto; try congruence.
  rewrite E in E'. injection E' as -> ->. exists s'. split; auto. split; [congruence|].
  rewrite O2, vt_app. destruct (vt_close_alt h (vt (t_out s2') m0) G') as [_ [K1 K2]]. rewrite K1, S'. exact T'.
Qed.

(** * Failed draws *)
Lemma draw_lost : forall redraw v s s' x, draw redraw v s = (s', Err x) ->
  t_out s' = t_out s /\ sc_cells (t_screen s') = sc_cells (t_screen s) /\
  forall v', te_file_ok v' = true -> te_fail v' (t_writes s') = false ->
    exists s'', draw false v' s' = (s'', Ok tt) /\ t_out s'' = t_out s ++ RESET.
Proof.
  intros redraw v s s' x H. unfold draw in H.
  destruct (render (t_screen s) (t_origin s) redraw) as [ansi sc] eqn:E.
  assert (Hsc : sc = mkScreen (sc_w (t_screen s)) (sc_h (t_screen s)) (sc_cells (t_screen s)) [] (sc_cursor (t_screen s)) (sc_off (t_screen s))).
  { unfold render in E. destruct (t_origin s), redraw; injection E as _ <-; reflexivity. }
  assert (Hs : t_out s' = t_out s /\ t_screen s' = sc /\ t_origin s' = t_origin s).
  { destruct (te_file_ok v).
    - unfold stream_write in H. destruct (te_fail v _); [|discriminate]. injection H as <- _. auto.
    - injection H as <- _. auto. }
  destruct Hs as [H1 [H2 H3]]. split; auto. split; [now rewrite H2, Hsc|].
  intros v' Hf Hw. unfold draw, render. rewrite H2, Hsc. cbn [sc_buf sc_w sc_h sc_cells sc_cursor sc_off].
  destruct (t_origin s') as [ox oy]. rewrite Hf. rewrite stream_ok by exact Hw.
  eexists. split; [reflexivity|]. cbn [t_out set_out set_screen]. rewrite H1. reflexivity.
Qed.
Lemma redraw_recovers : forall redraw v s s' x, draw redraw v s = (s', Err x) -> forall v',
  te_file_ok v' = true -> te_fail v' (t_writes s') = false ->
  exists s'', draw true v' s' = (s'', Ok tt) /\ t_out s'' = t_out s ++ fst (render (t_screen s) (t_origin s) true).
Proof.
  intros redraw v s s' x H v' Hf Hw. unfold draw in H.
  destruct (render (t_screen s) (t_origin s) redraw) as [ansi sc] eqn:E.
  assert (Hsc : sc_cells sc = sc_cells (t_screen s)).
  { unfold render in E. destruct (t_origin s), redraw; injection E as _ <-; reflexivity. }
  assert (Hs : t_out s' = t_out s /\ t_screen s' = sc /\ t_origin s' = t_origin s).
  { destruct (te_file_ok v).
    - unfold stream_write in H. destruct (te_fail v _); [|discriminate]. injection H as <- _. auto.
    - injection H as <- _. auto. }
  destruct Hs as [H1 [H2 H3]]. unfold draw, render. rewrite H2, H3, Hsc.
  destruct (t_origin s) as [ox oy]. rewrite Hf. rewrite stream_ok by exact Hw.
  eexists. split; [reflexivity|]. cbn [t_out set_out set_screen fst]. now rewrite H1.
Qed.
Lemma draw_delivers : forall redraw v s, te_file_ok v = true -> te_fail v (t_writes s) = false ->
  exists s', draw redraw v s = (s', Ok tt) /\ t_out s' = t_out s ++ fst (render (t_screen s) (t_origin s) redraw) /\
    t_screen s' = snd (render (t_screen s) (t_origin s) redraw).
Proof.
  intros redraw v s Hf Hw. unfold draw. destruct (render (t_screen s) (t_origin s) redraw) as [ansi sc].
  rewrite Hf, stream_ok by exact Hw. eexists. split; [reflexivity|]. auto.
Qed.

(** * Color sequences are computed once *)
Lemma reads_first : forall e es c, reads (e :: es) (mkObj c None) = repeat (color_ansi e c) (S (List.length es)).
Proof.
  intros e es c. cbn [reads read_ansi co_ansi co_color repeat]. f_equal.
  induction es as [|e' es IH]; cbn; auto. now f_equal.
Qed.

(** * Settings of the color space *)
Lemma settings_last : forall l v s, let s' := fold_left (fun s c => fst (set_color_space c v s)) l s in
  (l <> [] -> color_space v s' = match last l None with Some c => Ok c | None => get_color_space (te_shell v) end) /\
  t_cslog s' = t_cslog s ++ l /\ t_out s' = t_out s /\ t_screen s' = t_screen s /\ t_cache s' = t_cache s /\ t_bgcol s' = t_bgcol s.
Proof.
  intros l v s. cbn zeta. induction l as [|c l IH] using rev_ind.
  - cbn. rewrite app_nil_r. repeat split; auto. contradiction.
  - rewrite fold_left_app. cbn [fold_left]. destruct IH as [_ [L [O [S [C B]]]]].
    set (s1 := fold_left _ l s) in *. rewrite last_last. split; [intros _; reflexivity|].
    cbn. rewrite L. repeat split; auto. now rewrite <- app_assoc.
Qed.
Lemma written_in : forall c l p force v s tb, as_background (t_bgcol s) true None = Ok tb ->
  let s' := fst (set_color_space (Some c) v s) in
  let '(sc, ch, r) := write {| env_cs := c; env_pow := te_pow v |} (t_cache s) (t_screen s) l (Some p) tb force in
  twrite (PSpans l) (Some p) force v s' = (set_screen sc ch s', r).
Proof.
  intros c l p force v s tb H s'. unfold twrite, s'. cbn [set_color_space fst color_env color_space t_forced set_cslog set_forced bindr t_bgcol t_cache t_screen].
  rewrite H. destruct (write _ _ _ _ _ _ _) as [[sc ch] r]. reflexivity.
Qed.
