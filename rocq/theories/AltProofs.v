(** Proofs about the alternate buffer. *)
From Coq Require Import ZArith List Bool Lia String.
From Verif Require Import PyBase PyLemmas F64 SpaceModel ColorModel AnsiRe SpanModel CoreModel ScreenModel ScreenSpec TermModel TermSpec TermProofs2
  Vt CommandSpec CommandProofs CommandProofs2 CommandProofs3 AltSpec.
Import ListNotations.
Open Scope Z_scope.

Lemma commands_app : forall c1 a b, whole c1 a -> commands c1 (a ++ b) = commands c1 a ++ commands c1 b.
Proof. intros c1 a b H. unfold commands. rewrite scan_app. cbn [fst]. now rewrite H. Qed.
Lemma whole_app : forall c1 a b, whole c1 a -> snd (scan c1 Ground (a ++ b)) = snd (scan c1 Ground b).
Proof. intros c1 a b H. rewrite scan_app. cbn [snd]. now rewrite H. Qed.
Lemma shown_app : forall T c1 a b st, whole c1 a -> shown T c1 (a ++ b) st = shown T c1 b (shown T c1 a st).
Proof. intros T c1 a b st H. unfold shown. now rewrite commands_app, fold_left_app. Qed.

Lemma stay_alternate : forall T l r b0 b, Forall (fun k => switches k = None) l ->
  fold_left (carry T) l (r, Alternate b0 b) = (fst (obeys T l (r, b)), Alternate b0 (snd (obeys T l (r, b)))).
Proof.
  intros T l. induction l as [|k l IH]; intros r b0 b F; [reflexivity|]. cbn [fold_left carry]. rewrite (Forall_inv F). unfold obeys. cbn [fold_left].
  destruct (obey T k (r, b)) as [r' b']. apply IH. now apply Forall_inv_tail in F.
Qed.
Lemma stay_normal : forall T l r b, Forall (fun k => switches k = None) l ->
  fold_left (carry T) l (r, Normal b) = (fst (obeys T l (r, b)), Normal (snd (obeys T l (r, b)))).
Proof.
  intros T l. induction l as [|k l IH]; intros r b F; [reflexivity|]. cbn [fold_left carry]. rewrite (Forall_inv F). unfold obeys. cbn [fold_left].
  destruct (obey T k (r, b)) as [r' b']. apply IH. now apply Forall_inv_tail in F.
Qed.
Lemma prefix_commands : forall c1 a b, exists l, commands c1 (a ++ b) = commands c1 a ++ l.
Proof. intros c1 a b. unfold commands. rewrite scan_app. cbn [fst]. eauto. Qed.
Lemma stays_prefix : forall c1 a b, stays c1 (a ++ b) -> stays c1 a.
Proof. intros c1 a b H. unfold stays in *. destruct (prefix_commands c1 a b) as [l E]. rewrite E in H. now apply Forall_app in H. Qed.

(** the opening and closing sequences *)
Definition opens (h : bool) : list command := Csi (lit "?1049") 104 :: if h then [Csi (lit "?25") 108] else [].
Definition closes (h : bool) : list command := Csi (lit "23;0") 116 :: if h then [Csi (lit "?25") 104] else [].
Lemma opening_scan : forall c1 h, scan c1 Ground (opening (AltBuffer h)) = (opens h, Ground).
Proof. intros [] []; reflexivity. Qed.
Lemma leave_none : forall q, Forall (fun k => switches k = None) (leave q).
Proof. intros []; cbn; constructor; auto. Qed.
Lemma closing_scan : forall c1 h q, scan c1 q (closing (AltBuffer h)) = (leave q ++ Csi (lit "?1049") 108 :: closes h, Ground).
Proof. intros [] [] [| | |]; reflexivity. Qed.
Lemma closing_aside : forall h, Forall aside (closes h).
Proof. intros []; cbn; repeat (apply Forall_cons; [unfold aside; auto|]); apply Forall_nil. Qed.
Lemma aside_obeys : forall T l r b, tidy T -> Forall aside l -> snd (obeys T l (r, b)) = b.
Proof.
  intros T l. induction l as [|k l IH]; intros r b HT F; [reflexivity|]. unfold obeys. cbn [fold_left].
  pose proof (HT k r b (Forall_inv F)) as E. destruct (obey T k (r, b)) as [r' b']. cbn in E. subst b'. apply IH; auto. now apply Forall_inv_tail in F.
Qed.
Lemma aside_none : forall k, aside k -> switches k = None.
Proof. intros k [-> | [-> | ->]]; reflexivity. Qed.

(** entering *)
Lemma entered : forall T c1 h r b, exists r' b', shown T c1 (opening (AltBuffer h)) (r, Normal b) = (r', Alternate b b').
Proof.
  intros T c1 h r b. unfold shown, commands. rewrite opening_scan. cbn [fst]. destruct h; cbn [opens fold_left].
  - change (carry T (r, Normal b) (Csi (lit "?1049") 104)) with (r, Alternate b (erased T b)).
    cbn [carry]. change (switches (Csi (lit "?25") 108)) with (@None bool). cbn iota. destruct (obey T _ _) as [r' b']. eauto.
  - eexists _, _. reflexivity.
Qed.
Lemma opening_whole : forall c1 h, whole c1 (opening (AltBuffer h)).
Proof. intros c1 h. unfold whole. now rewrite opening_scan. Qed.
Lemma left : forall T c1 h out r b0 b, tidy T -> stays c1 out ->
  exists r', shown T c1 (out ++ closing (AltBuffer h)) (r, Alternate b0 b) = (r', Normal b0) /\ whole c1 (out ++ closing (AltBuffer h)).
Proof.
  intros T c1 h out r b0 b HT HS. unfold shown, whole, commands. rewrite scan_app, closing_scan. cbn [fst snd]. rewrite app_assoc, fold_left_app.
  rewrite stay_alternate by (apply Forall_app; split; [exact HS|apply leave_none]). cbn [fold_left].
  set (r1 := fst _). set (b1 := snd _). change (carry T (r1, Alternate b0 b1) (Csi (lit "?1049") 108)) with (r1, @Normal (Buf T) b0).
  rewrite stay_normal by (eapply Forall_impl; [|apply closing_aside]; apply aside_none).
  rewrite aside_obeys; auto using closing_aside. eauto.
Qed.

(** * Sessions *)
Lemma session : forall A T c1 h (body : M A) v s s2 r out st0 r0 b, tidy T ->
  (enter (AltBuffer h) ;; body) v s = (s2, r) -> calm_from v (t_writes s2) ->
  t_out s2 = t_out s ++ opening (AltBuffer h) ++ out -> stays c1 out -> whole c1 (t_out s) -> shown T c1 (t_out s) st0 = (r0, Normal b) ->
  exists s3 r', alt_buffer h body v s = (s3, r) /\ shown T c1 (t_out s3) st0 = (r', Normal b) /\ whole c1 (t_out s3).
Proof.
  intros A T c1 h body v s s2 r out st0 r0 b HT E C HO HS HW H0.
  destruct (leaving A (AltBuffer h) body v s s2 r E C) as [s3 [E3 [_ [O3 _]]]]. exists s3.
  rewrite O3, HO, <- !app_assoc. rewrite shown_app, H0 by auto. rewrite shown_app by apply opening_whole.
  destruct (entered T c1 h r0 b) as [r1 [b1 E1]]. rewrite E1.
  destruct (left T c1 h out r1 b b1 HT HS) as [r2 [E2 W2]]. exists r2. split; [exact E3|]. split; [exact E2|].
  unfold whole. rewrite whole_app by auto. rewrite whole_app by apply opening_whole. exact W2.
Qed.

Lemma instants : forall T c1 h out p q r b, stays c1 out -> out = p ++ q ->
  exists r' b', shown T c1 (opening (AltBuffer h) ++ p) (r, Normal b) = (r', Alternate b b').
Proof.
  intros T c1 h out p q r b HS ->. rewrite shown_app by apply opening_whole. destruct (entered T c1 h r b) as [r1 [b1 ->]].
  unfold shown. rewrite stay_alternate by exact (stays_prefix c1 p q HS). eauto.
Qed.

(** what is drawn *)
Lemma draws_none : forall ctl k, draws_only ctl [95; 69; 101] k -> switches k = None.
Proof.
  intros ctl [c|c|i f|buf f|k t] H; try reflexivity. destruct H as [_ H]. cbn in H. cbn. destruct buf as [|c ps]; [reflexivity|].
  destruct (_ && _); [|reflexivity]. assert (f =? 104 = false) as -> by (apply Z.eqb_neq; intuition lia).
  assert (f =? 108 = false) as -> by (apply Z.eqb_neq; intuition lia). reflexivity.
Qed.
Lemma drawn_stays : forall c1 ctl e w h cursor fill ds s c out,
  Forall (deed_ok ctl) ds -> controls (fun _ => False) fill ->
  fold_left (do_deed e) ds (new_screen w h cursor fill, [], []) = (s, c, out) -> stays c1 out.
Proof.
  intros c1 ctl e w h cursor fill ds s c out Hd Hf E.
  assert (X : In 95 [95; 69; 101] /\ In 69 [95; 69; 101] /\ In 101 [95; 69; 101]) by (cbn; tauto).
  destruct (drawn_only c1 ctl [95; 69; 101] e w h cursor fill ds s c out Hd (or_intror X) Hf E) as [H _].
  unfold stays. eapply Forall_impl; [|exact H]. apply draws_none.
Qed.
Lemma drawn_session : forall T c1 ctl e w h cursor fill ds s c out hide p q r b, tidy T ->
  Forall (deed_ok ctl) ds -> controls (fun _ => False) fill ->
  fold_left (do_deed e) ds (new_screen w h cursor fill, [], []) = (s, c, out) -> out = p ++ q ->
  (exists r' b', shown T c1 (opening (AltBuffer hide) ++ p) (r, Normal b) = (r', Alternate b b')) /\
  exists r', shown T c1 (opening (AltBuffer hide) ++ p ++ closing (AltBuffer hide)) (r, Normal b) = (r', Normal b).
Proof.
  intros T c1 ctl e w h cursor fill ds s c out hide p q r b HT Hd Hf E Ep.
  pose proof (drawn_stays c1 ctl e w h cursor fill ds s c out Hd Hf E) as HS.
  split; [eapply instants; eauto|]. rewrite shown_app by apply opening_whole. destruct (entered T c1 hide r b) as [r1 [b1 ->]].
  subst out. destruct (left T c1 hide p r1 b b1 HT (stays_prefix _ _ _ HS)) as [r2 [E2 _]]. eauto.
Qed.

(** * One inside the other *)
Lemma inner_leaves : forall T c1 h1 h2 out1 out2 r b, tidy T -> stays c1 out1 -> stays c1 out2 -> exists r1,
  shown T c1 (opening (AltBuffer h1) ++ opening (AltBuffer h2) ++ out1 ++ closing (AltBuffer h2)) (r, Normal b) = (r1, Normal b) /\
  shown T c1 (opening (AltBuffer h1) ++ opening (AltBuffer h2) ++ out1 ++ closing (AltBuffer h2) ++ out2) (r, Normal b) =
    (fst (obeys T (commands c1 out2) (r1, b)), Normal (snd (obeys T (commands c1 out2) (r1, b)))).
Proof.
  intros T c1 h1 h2 out1 out2 r b HT S1 S2.
  destruct (entered T c1 h1 r b) as [r1 [b1 E1]].
  assert (E : exists r2 b2, shown T c1 (opening (AltBuffer h2)) (r1, Alternate b b1) = (r2, Alternate b b2)).
  { unfold shown, commands. rewrite opening_scan. cbn [fst]. destruct h2; cbn [opens fold_left].
    - change (carry T (r1, Alternate b b1) (Csi (lit "?1049") 104)) with (r1, Alternate b (erased T b1)).
      cbn [carry]. change (switches (Csi (lit "?25") 108)) with (@None bool). cbn iota. destruct (obey T _ _) as [r' b']. eauto.
    - eexists _, _. reflexivity. }
  destruct E as [r2 [b2 E2]].
  destruct (left T c1 h2 out1 r2 b b2 HT S1) as [r3 [E3 W3]]. exists r3.
  assert (G : forall u, shown T c1 (opening (AltBuffer h1) ++ opening (AltBuffer h2) ++ u) (r, Normal b) = shown T c1 u (r2, Alternate b b2)).
  { intro u. rewrite shown_app, E1 by apply opening_whole. now rewrite shown_app, E2 by apply opening_whole. }
  split; [rewrite G; exact E3|]. rewrite G. rewrite app_assoc. rewrite shown_app by exact W3. rewrite E3. unfold shown. now rewrite stay_normal.
Qed.

(** * Entering fails *)
Lemma not_entered : forall A T c1 h (body : M A) v s st0 r0 b, tidy T -> te_fail v (t_writes s) = true -> calm_from v (S (t_writes s)) ->
  whole c1 (t_out s) -> shown T c1 (t_out s) st0 = (r0, Normal b) ->
  exists s3 r', alt_buffer h body v s = (s3, Err OSError) /\ shown T c1 (t_out s3) st0 = (r', Normal (recall T b)).
Proof.
  intros A T c1 h body v s st0 r0 b HT F C HW H0.
  destruct (leaving A (AltBuffer h) body v s (set_out (t_out s) (S (t_writes s)) s) (Err OSError)) as [s3 [E3 [_ [O3 _]]]].
  - cbn [enter]. unfold stream_write, seqM, bindM. now rewrite F.
  - exact C.
  - exists s3. rewrite O3. cbn [t_out set_out]. rewrite shown_app, H0 by auto. unfold shown, commands. rewrite closing_scan. cbn [fst leave app fold_left].
    change (carry T (r0, Normal b) (Csi (lit "?1049") 108)) with (r0, @Normal (Buf T) (recall T b)).
    rewrite stay_normal by (eapply Forall_impl; [|apply closing_aside]; apply aside_none).
    rewrite aside_obeys; auto using closing_aside. eauto.
Qed.

(** * Redraws *)
Lemma redraw_leaves : forall T c1 e w h cursor tb force hide r b, 8 <= w -> 0 < h -> fine tb ->
  exists s c n, write_bulk e [] (new_screen w h cursor (lit " ")) [((0, 0), [plain_span (seq_ "?1049l")])] tb force = (s, c, Ok n) /\
    exists p q r', fst (render s (1, 1) true) = p ++ q /\ shown T c1 (opening (AltBuffer hide) ++ p) (r, Normal b) = (r', Normal b).
Proof.
  intros T c1 e w h cursor tb force hide r b Hw Hh Htb.
  destruct (redraw_text e w h cursor (seq_ "?1049l") tb force) as [s [c [n [E R]]]]; auto; try lia.
  { cbn. unfold NL. intuition lia. }
  exists s, c, n. split; [exact E|]. destruct R as [rest R]; [discriminate|]. exists (cup 1 1 ++ seq_ "?1049l"), rest.
  rewrite shown_app by apply opening_whole. destruct (entered T c1 hide r b) as [r1 [b1 ->]].
  unfold shown. replace (commands c1 (cup 1 1 ++ seq_ "?1049l")) with [Csi (lit "1;1") 72; Csi (lit "?1049") 108] by (destruct c1; reflexivity).
  cbn [fold_left]. cbn [carry]. change (switches (Csi (lit "1;1") 72)) with (@None bool). cbn iota. destruct (obey T _ _) as [r2 b2].
  exists r2. split; [rewrite R; now rewrite <- app_assoc|reflexivity].
Qed.
