(** Lemmas: what a terminal shows of a printed span, widths, mutation, slices, characters. *)
From Coq Require Import ZArith List Bool Lia String.
From Verif Require Import PyBase PyLemmas SplitLemmas F64 SpaceModel ColorModel ColorSpec ColorProofs AnsiRe SpanModel
  CoreModel Vt SpanSpec.
Open Scope Z_scope.

(** * Strings *)
Lemma split_on_semi : forall c a b, split_on c (a ++ c :: b) = split_on c a ++ split_on c b.
Proof.
  intros c a b. induction a as [|x a IH]; simpl.
  - now rewrite Z.eqb_refl.
  - rewrite IH. destruct (x =? c); [reflexivity|].
    pose proof (split_on_ne c a). destruct (split_on c a); [congruence|reflexivity].
Qed.
Lemma params_semi : forall a b, params (a ++ 59 :: b) = params a ++ params b.
Proof. intros. unfold params. now rewrite split_on_semi, map_app. Qed.
Lemma join_app_ne : forall sep l m, l <> [] -> m <> [] -> join sep (l ++ m) = join sep l ++ sep ++ join sep m.
Proof.
  intros sep l m Hl Hm. induction l as [|a l IH]; [congruence|].
  destruct l as [|b l].
  - simpl. destruct m; [congruence|reflexivity].
  - cbn [app] in *. rewrite !join_cons. rewrite IH by discriminate. now rewrite <- !app_assoc.
Qed.

(** * The terminal *)
Lemma vt_app : forall a b m, vt (a ++ b) m = vt b (vt a m).
Proof. intros. apply fold_left_app. Qed.
Lemma emu_eta : forall m, set_parse (e_parse m) m = m. Proof. intros []. reflexivity. Qed.

Lemma param_char_csi : forall c, param_char c = true -> c =? 27 = false /\ is_final c = false /\ c =? 63 = false.
Proof.
  intros c H. unfold param_char, is_digit, is_final in *.
  rewrite orb_true_iff, andb_true_iff, Z.leb_le, Z.leb_le, Z.eqb_eq in H.
  rewrite andb_false_iff, !Z.eqb_neq, Z.leb_gt. lia.
Qed.

Lemma vt_csi_buf : forall b buf m, forallb param_char b = true ->
  vt b (set_parse (PCsi buf) m) = set_parse (PCsi (buf ++ b)) m.
Proof.
  induction b as [|c b IH]; intros buf m H; simpl in H.
  - now rewrite app_nil_r.
  - apply andb_true_iff in H. destruct H as [Hc Hb].
    apply param_char_csi in Hc. destruct Hc as [H1 [H2 _]].
    cbn [vt fold_left]. unfold feed1 at 2. cbn [e_parse set_parse]. rewrite H1, H2.
    change (fold_left feed1 b ?x) with (vt b x).
    change (set_parse (PCsi (buf ++ [c])) (set_parse (PCsi buf) m)) with (set_parse (PCsi (buf ++ [c])) m).
    rewrite IH by assumption. now rewrite <- app_assoc.
Qed.

Lemma vt_csi_m : forall b m, forallb param_char b = true -> e_parse m = PGround ->
  vt (csi_m b) m = set_rend (sgr (params b) (e_rend m)) m.
Proof.
  intros b m H Hm. unfold csi_m. change ([ESC; 91] ++ b ++ [109]) with (27 :: 91 :: (b ++ [109])).
  cbn [vt fold_left]. unfold feed1 at 3. rewrite Hm. change (27 =? 27) with true. cbv iota.
  unfold feed1 at 2. cbn [e_parse set_parse]. change (91 =? 91) with true. cbv iota.
  change (fold_left feed1 (b ++ [109]) ?x) with (vt (b ++ [109]) x).
  change (set_parse (PCsi []) (set_parse PEsc m)) with (set_parse (PCsi []) m).
  rewrite vt_app, vt_csi_buf by assumption. cbn [app vt fold_left].
  unfold feed1. cbn [e_parse set_parse]. change (109 =? 27) with false. change (is_final 109) with true. cbv iota.
  change (set_parse PGround (set_parse (PCsi b) m)) with (set_parse PGround m).
  rewrite <- Hm, emu_eta.
  unfold csi. destruct b as [|c b]; [reflexivity|].
  pose proof H as H'. simpl in H. apply andb_true_iff in H. destruct H as [Hc _].
  apply param_char_csi in Hc. destruct Hc as [_ [_ ->]].
  unfold csi_plain. now rewrite H'.
Qed.

Lemma vt_osc_buf : forall b buf m, ~ In 27 b -> ~ In 7 b ->
  vt b (set_parse (POsc buf) m) = set_parse (POsc (buf ++ b)) m.
Proof.
  induction b as [|c b IH]; intros buf m H1 H2.
  - now rewrite app_nil_r.
  - simpl in H1, H2. apply Decidable.not_or in H1, H2.
    cbn [vt fold_left]. unfold feed1 at 2. cbn [e_parse set_parse].
    destruct (Z.eqb_spec c 7); [lia|]. destruct (Z.eqb_spec c 27); [lia|].
    change (fold_left feed1 b ?x) with (vt b x).
    change (set_parse (POsc (buf ++ [c])) (set_parse (POsc buf) m)) with (set_parse (POsc (buf ++ [c])) m).
    rewrite IH by tauto. now rewrite <- app_assoc.
Qed.

Lemma vt_link_open : forall url m, ~ In 27 url -> ~ In 7 url -> e_parse m = PGround ->
  vt (link_open url) m = set_link url m.
Proof.
  intros url m H1 H2 Hm. unfold link_open.
  change ([ESC] ++ lit "]8;;" ++ url ++ [ESC; 92]) with (27 :: 93 :: ((56 :: 59 :: 59 :: url) ++ [27; 92])).
  cbn [vt fold_left]. unfold feed1 at 3. rewrite Hm. change (27 =? 27) with true. cbv iota.
  unfold feed1 at 2. cbn [e_parse set_parse]. change (93 =? 91) with false. change (93 =? 93) with true. cbv iota.
  change (fold_left feed1 (?a ++ ?b) ?x) with (vt (a ++ b) x).
  change (set_parse (POsc []) (set_parse PEsc m)) with (set_parse (POsc []) m).
  rewrite vt_app, vt_osc_buf by (simpl; intuition lia). cbn [app vt fold_left].
  unfold feed1 at 2. cbn [e_parse set_parse]. change (27 =? 7) with false. change (27 =? 27) with true. cbv iota.
  unfold feed1. cbn [e_parse set_parse]. change (92 =? 92) with true. cbv iota.
  unfold osc. cbn [split_on]. change (56 =? 59) with false. change (59 =? 59) with true. cbv iota.
  change (str_eqb [56] [48]) with false. change (str_eqb [56] [56]) with true. cbv iota. cbn [tl].
  rewrite join_split_on. destruct m; simpl in *. now subst.
Qed.

Lemma put_char_parse : forall c m, e_parse (put_char c m) = e_parse m.
Proof.
  intros c m. unfold put_char, line_feed, carriage_return.
  destruct (e_wrap m); [|now destruct (_ <? _)].
  cbn [e_y set_pos e_h]. destruct (_ <? _); destruct (_ <? _); reflexivity.
Qed.
Lemma put_char_rend : forall c m, e_rend (put_char c m) = e_rend m.
Proof.
  intros c m. unfold put_char, line_feed, carriage_return.
  destruct (e_wrap m); [|now destruct (_ <? _)].
  cbn [e_y set_pos e_h]. destruct (_ <? _); destruct (_ <? _); reflexivity.
Qed.
Lemma put_char_link : forall c m, e_link (put_char c m) = e_link m.
Proof.
  intros c m. unfold put_char, line_feed, carriage_return.
  destruct (e_wrap m); [|now destruct (_ <? _)].
  cbn [e_y set_pos e_h]. destruct (_ <? _); destruct (_ <? _); reflexivity.
Qed.
Lemma type_text_parse : forall t m, e_parse (type_text t m) = e_parse m.
Proof. induction t; intros; simpl; [reflexivity|]. unfold type_text in *. rewrite IHt. apply put_char_parse. Qed.
Lemma type_text_rend : forall t m, e_rend (type_text t m) = e_rend m.
Proof. induction t; intros; simpl; [reflexivity|]. unfold type_text in *. rewrite IHt. apply put_char_rend. Qed.
Lemma type_text_link : forall t m, e_link (type_text t m) = e_link m.
Proof. induction t; intros; simpl; [reflexivity|]. unfold type_text in *. rewrite IHt. apply put_char_link. Qed.

Lemma vt_text : forall t m, printable t -> e_parse m = PGround -> vt t m = type_text t m.
Proof.
  induction t as [|c t IH]; intros m H Hm; [reflexivity|].
  inversion H as [|? ? Hc Ht]; subst. cbn [vt type_text fold_left].
  unfold feed1 at 2. rewrite Hm. rewrite Hc.
  unfold is_ctl in Hc. apply orb_false_iff in Hc. destruct Hc as [Hc _]. apply Z.ltb_ge in Hc.
  destruct (Z.eqb_spec c 27); [lia|]. destruct (Z.eqb_spec c 10); [lia|]. destruct (Z.eqb_spec c 13); [lia|].
  apply IH; auto. now rewrite put_char_parse.
Qed.

(** * The sequences of a span *)
Lemma colorless_join : forall f,
  colorless_body f = join (lit ";") (map setter (filter (fun k => get_flag k f) all_flags)).
Proof.
  intros [[] [] [] [] [] [] [] [] [] []]; vm_compute; reflexivity.
Qed.
Lemma colorless_params : forall f, forallb param_char (colorless_body f) = true.
Proof. intros [[] [] [] [] [] [] [] [] [] []]; vm_compute; reflexivity. Qed.
Lemma colorless_nil : forall f, colorless_body f = [] <-> existsb (fun k => get_flag k f) all_flags = false.
Proof. intros [[] [] [] [] [] [] [] [] [] []]; vm_compute; split; intro; try reflexivity; discriminate. Qed.
Lemma colorless_sgr : forall f pen, colorless_body f <> [] -> sgr (params (colorless_body f)) pen = styled f None None pen.
Proof.
  intros [[] [] [] [] [] [] [] [] [] []] [fg bg a b c d e g h i j] H;
    try (exfalso; apply H; reflexivity); vm_compute; reflexivity.
Qed.

Lemma styled_trans : forall f fg bg pen, styled f None None (styled no_flags fg bg pen) = styled f fg bg pen.
Proof. intros f fg bg []. unfold styled. cbn. destruct fg, bg; reflexivity. Qed.
Lemma styled_none : forall pen, styled no_flags None None pen = pen.
Proof. intros []. reflexivity. Qed.

Definition color_bodies (e : env) (s : span) : list str :=
  map (color_ansi e) (opt_list (s_fg s)) ++ map (color_ansi e) (opt_list (s_bg s)).
Definition bodies (e : env) (s : span) : list str :=
  color_bodies e s ++ match colorless_body (s_flags s) with [] => [] | b => [b] end.

Lemma total_join : forall e s fg bg, displayed e false (s_fg s) fg -> displayed e true (s_bg s) bg ->
  total_body e s = join (lit ";") (bodies e s).
Proof.
  intros e s fg bg Hf Hb. unfold total_body, bodies. fold (color_bodies e s).
  destruct (colorless_body (s_flags s)) as [|c r] eqn:E; [now rewrite app_nil_r|].
  destruct (color_bodies e s) as [|x l] eqn:EC; [reflexivity|].
  rewrite join_app_ne by discriminate. rewrite <- EC.
  assert (N : zlen (join (lit ";") (color_bodies e s)) =? 0 = false).
  { apply Z.eqb_neq. intro Z0. apply zlen_0 in Z0. unfold color_bodies in *.
    unfold displayed in *.
    destruct (s_fg s) as [cf|], (s_bg s) as [cb|]; destruct fg, bg; try contradiction; cbn in EC, Z0; try discriminate.
    - destruct Hf as [_ [Hf _]]. destruct (color_ansi e cf); [congruence|discriminate].
    - destruct Hf as [_ [Hf _]]. destruct (color_ansi e cf); [congruence|discriminate].
    - destruct Hb as [_ [Hb _]]. destruct (color_ansi e cb); [congruence|discriminate]. }
  rewrite N. reflexivity.
Qed.

Lemma bodies_params : forall e s fg bg, displayed e false (s_fg s) fg -> displayed e true (s_bg s) bg ->
  Forall (fun b => forallb param_char b = true) (bodies e s).
Proof.
  intros e s fg bg Hf Hb. unfold bodies, color_bodies. rewrite !Forall_app. repeat split.
  - destruct (s_fg s); cbn; auto. destruct fg; [|contradiction]. destruct Hf as [_ [_ [H _]]]. auto.
  - destruct (s_bg s); cbn; auto. destruct bg; [|contradiction]. destruct Hb as [_ [_ [H _]]]. auto.
  - pose proof (colorless_params (s_flags s)). destruct (colorless_body (s_flags s)); auto.
Qed.
Lemma join_params : forall l, Forall (fun b => forallb param_char b = true) l ->
  forallb param_char (join (lit ";") l) = true.
Proof.
  induction l as [|a l IH]; intro H; [reflexivity|]. inversion H; subst.
  destruct l as [|b l]; [assumption|]. rewrite join_cons, !forallb_app.
  rewrite H2. exact (IH H3).
Qed.
Lemma total_params : forall e s fg bg, displayed e false (s_fg s) fg -> displayed e true (s_bg s) bg ->
  forallb param_char (total_body e s) = true.
Proof.
  intros e s fg bg Hf Hb. erewrite total_join by eassumption. eapply join_params, bodies_params; eassumption.
Qed.

Lemma params_join : forall l, l <> [] -> params (join (lit ";") l) = flat_map params l.
Proof.
  induction l as [|a l IH]; intro H; [congruence|]. destruct l as [|b l].
  - simpl. now rewrite app_nil_r.
  - rewrite join_cons. change (a ++ lit ";" ++ ?x) with (a ++ 59 :: x). rewrite params_semi.
    rewrite IH by discriminate. reflexivity.
Qed.

Lemma paint_fg : forall x pen, paint false x pen = styled no_flags (Some x) None pen.
Proof. intros x []. reflexivity. Qed.
Lemma paint_bg : forall x pen, paint true x pen = styled no_flags None (Some x) pen.
Proof. intros x []. reflexivity. Qed.
Lemma styled_both : forall x y pen, styled no_flags None y (styled no_flags x None pen) = styled no_flags x y pen.
Proof. intros [] [] []; reflexivity. Qed.

Lemma bodies_sgr : forall e s fg bg pen, displayed e false (s_fg s) fg -> displayed e true (s_bg s) bg ->
  sgr (flat_map params (bodies e s)) pen = styled (s_flags s) fg bg pen.
Proof.
  intros e s fg bg pen Hf Hb. unfold bodies, color_bodies. rewrite !flat_map_app, <- app_assoc.
  assert (F : forall more pen, sgr (flat_map params (map (color_ansi e) (opt_list (s_fg s))) ++ more) pen
            = sgr more (styled no_flags fg None pen)).
  { intros. destruct (s_fg s), fg; try contradiction; cbn; [|now rewrite styled_none].
    destruct Hf as [Hl [_ [_ Hs]]]. rewrite app_nil_r, Hs, Hl, paint_fg. reflexivity. }
  assert (B : forall more pen, sgr (flat_map params (map (color_ansi e) (opt_list (s_bg s))) ++ more) pen
            = sgr more (styled no_flags None bg pen)).
  { intros. destruct (s_bg s), bg; try contradiction; cbn; [|now rewrite styled_none].
    destruct Hb as [Hl [_ [_ Hs]]]. rewrite app_nil_r, Hs, Hl, paint_bg. reflexivity. }
  rewrite F, B, styled_both, <- styled_trans.
  pose proof (colorless_sgr (s_flags s)) as C. pose proof (colorless_nil (s_flags s)) as N.
  destruct (colorless_body (s_flags s)) as [|c r] eqn:E.
  - cbn. destruct N as [N _]. specialize (N eq_refl).
    destruct (s_flags s) as [[] [] [] [] [] [] [] [] [] []]; try discriminate.
    change (mkFlags false false false false false false false false false false) with no_flags.
    now rewrite styled_none.
  - cbn [flat_map]. rewrite app_nil_r. apply C. discriminate.
Qed.

Lemma total_nil : forall e s fg bg, displayed e false (s_fg s) fg -> displayed e true (s_bg s) bg ->
  (total_body e s = [] <-> has_style s = false).
Proof.
  intros e s fg bg Hf Hb. erewrite total_join by eassumption. unfold has_style, bodies, color_bodies.
  pose proof (colorless_nil (s_flags s)) as N.
  destruct (s_fg s) as [cf|], (s_bg s) as [cb|]; destruct fg, bg; try contradiction; cbn [opt_list map app];
    rewrite ?orb_true_r, ?orb_false_r.
  - split; [|discriminate]. intro J. destruct Hf as [_ [Hf _]]. rewrite join_cons in J.
    destruct (color_ansi e cf); [congruence|discriminate].
  - split; [|discriminate]. intro J. destruct Hf as [_ [Hf _]].
    destruct (colorless_body (s_flags s)); [|rewrite join_cons in J]; cbn in J; destruct (color_ansi e cf); try congruence; discriminate.
  - split; [|discriminate]. intro J. destruct Hb as [_ [Hb _]].
    destruct (colorless_body (s_flags s)); [|rewrite join_cons in J]; cbn in J; destruct (color_ansi e cb); try congruence; discriminate.
  - destruct (colorless_body (s_flags s)) eqn:E; cbn [join]; [tauto|]. rewrite <- N. split; discriminate.
Qed.

Lemma vt_sequences : forall e s fg bg m, displayed e false (s_fg s) fg -> displayed e true (s_bg s) bg ->
  e_parse m = PGround ->
  vt (span_sequences e s) m = set_rend (styled (s_flags s) fg bg (e_rend m)) m.
Proof.
  intros e s fg bg m Hf Hb Hm. unfold span_sequences, csi_or_empty.
  pose proof (total_nil e s fg bg Hf Hb) as N.
  pose proof (total_join e s fg bg Hf Hb) as J. pose proof (bodies_sgr e s fg bg (e_rend m) Hf Hb) as S.
  destruct (total_body e s) as [|c r] eqn:E.
  - cbn [vt fold_left]. rewrite <- S.
    assert (Hn : bodies e s = []).
    { destruct N as [N _]. specialize (N eq_refl). unfold has_style in N. apply orb_false_iff in N. destruct N as [N N3].
      apply orb_false_iff in N. destruct N as [N1 N2]. apply colorless_nil in N1. unfold bodies, color_bodies.
      rewrite N1. destruct (s_fg s), (s_bg s); try discriminate. reflexivity. }
    rewrite Hn. cbn. now destruct m.
  - rewrite <- E. rewrite vt_csi_m; [|eapply total_params; eassumption|assumption]. f_equal. rewrite <- S. f_equal.
    rewrite E, J. apply params_join. intro Hn. rewrite Hn in J. discriminate.
Qed.

Lemma span_sequences_nil : forall e s fg bg, displayed e false (s_fg s) fg -> displayed e true (s_bg s) bg ->
  negb (str_eqb (span_sequences e s) []) = has_style s.
Proof.
  intros e s fg bg Hf Hb. pose proof (total_nil e s fg bg Hf Hb) as N. unfold span_sequences, csi_or_empty.
  destruct (total_body e s).
  - destruct N as [N _]. now rewrite N.
  - destruct (has_style s); [reflexivity|]. destruct N as [_ N]. now specialize (N eq_refl).
Qed.

Lemma vt_reset : forall m, e_parse m = PGround -> vt RESET m = set_rend rend0 m.
Proof. intros m Hm. unfold RESET. now rewrite vt_csi_m. Qed.

Lemma set_rend_id : forall m, set_rend (e_rend m) m = m. Proof. intros []; reflexivity. Qed.

(** What printing a span does to a terminal *)
Lemma span_printed : forall e s fg bg m, displayed e false (s_fg s) fg -> displayed e true (s_bg s) bg ->
  printable (s_text s) -> linkable (s_link s) -> e_parse m = PGround ->
  vt (span_str e s) m =
    let pen := styled (s_flags s) fg bg (e_rend m) in
    let linked := negb (str_eqb (s_link s) []) in
    let m1 := set_rend pen (if linked then set_link (s_link s) m else m) in
    let m2 := type_text (s_text s) m1 in
    let m3 := if s_reset s && has_style s then set_rend rend0 m2 else m2 in
    if linked then set_link [] m3 else m3.
Proof.
  intros e s fg bg m Hf Hb Ht Hl Hm. unfold span_str.
  rewrite (span_sequences_nil e s fg bg Hf Hb).
  assert (C : forall m, e_parse m = PGround ->
    vt (span_sequences e s ++ s_text s ++ (if s_reset s && has_style s then RESET else [])) m =
    let m2 := type_text (s_text s) (set_rend (styled (s_flags s) fg bg (e_rend m)) m) in
    if s_reset s && has_style s then set_rend rend0 m2 else m2).
  { intros m' Hm'. rewrite !vt_app. rewrite (vt_sequences e s fg bg m' Hf Hb Hm').
    rewrite (vt_text (s_text s)) by assumption. cbv zeta.
    destruct (s_reset s && has_style s); [|reflexivity].
    apply vt_reset. rewrite type_text_parse. exact Hm'. }
  destruct Hl as [L1 [L2 _]].
  destruct (str_eqb (s_link s) []) eqn:EL; cbn [negb].
  - apply C. exact Hm.
  - rewrite (vt_app (link_open (s_link s))), (vt_app _ (link_open [])). rewrite (vt_link_open (s_link s)) by assumption.
    rewrite C by assumption. cbv zeta.
    rewrite vt_link_open; [reflexivity|intros []|intros []|].
    destruct (s_reset s && has_style s); cbn; rewrite type_text_parse; assumption.
Qed.

(** Text typed in a row that has room for it *)
Lemma type_text_row : forall t m, e_wrap m = false -> 0 <= e_x m -> e_x m + zlen t <= e_w m -> 0 < zlen t ->
  let m' := type_text t m in
  (forall k c, nth_error t k = Some c ->
     e_grid m' (e_x m + Z.of_nat k) (e_y m) = (c, e_rend m, e_link m)) /\
  (forall x y, ~ (y = e_y m /\ e_x m <= x < e_x m + zlen t) -> e_grid m' x y = e_grid m x y) /\
  e_y m' = e_y m /\ e_w m' = e_w m /\ e_h m' = e_h m /\
  (e_x m + zlen t < e_w m -> e_x m' = e_x m + zlen t /\ e_wrap m' = false) /\
  (e_x m + zlen t = e_w m -> e_x m' = e_w m - 1 /\ e_wrap m' = true).
Proof.
  induction t as [|c t IH]; intros m Hw H0 Hr Hl; [rewrite zlen_nil in Hl; lia|].
  rewrite zlen_cons in *. cbn [type_text fold_left].
  pose proof (zlen_nonneg _ t).
  assert (G : e_grid (put_char c m) = grid_set (e_grid m) (e_x m) (e_y m) (c, e_rend m, e_link m)).
  { unfold put_char. rewrite Hw. cbn. now destruct (_ <? _). }
  assert (R : e_rend (put_char c m) = e_rend m) by apply put_char_rend.
  assert (L : e_link (put_char c m) = e_link m) by apply put_char_link.
  assert (Y : e_y (put_char c m) = e_y m /\ e_w (put_char c m) = e_w m /\ e_h (put_char c m) = e_h m).
  { unfold put_char. rewrite Hw. cbn. now destruct (_ <? _). }
  destruct Y as [Y [W Hh]].
  destruct t as [|d t].
  - cbn [fold_left]. change (zlen (@nil Z)) with 0 in *.
    repeat match goal with |- _ /\ _ => split end.
    + intros [|[|k]] c' E; cbn in E; try discriminate. injection E as <-.
      rewrite G. unfold grid_set. rewrite Z.add_0_r, !Z.eqb_refl. reflexivity.
    + intros x y N. rewrite G. unfold grid_set.
      destruct (Z.eqb_spec x (e_x m)); destruct (Z.eqb_spec y (e_y m)); cbn; try reflexivity. subst. lia.
    + exact Y.
    + exact W.
    + exact Hh.
    + intro Q. unfold put_char. rewrite Hw. cbn. destruct (Z.ltb_spec (e_x m) (e_w m - 1)); cbn; [split; [lia|reflexivity]|lia].
    + intro Q. unfold put_char. rewrite Hw. cbn. destruct (Z.ltb_spec (e_x m) (e_w m - 1)); cbn; [lia|split; [lia|reflexivity]].
  - assert (X : e_x (put_char c m) = e_x m + 1 /\ e_wrap (put_char c m) = false).
    { rewrite zlen_cons in *. pose proof (zlen_nonneg _ t).
      unfold put_char. rewrite Hw. cbn. destruct (Z.ltb_spec (e_x m) (e_w m - 1)); cbn; [auto|lia]. }
    destruct X as [X X']. rewrite zlen_cons in *. pose proof (zlen_nonneg _ t).
    specialize (IH (put_char c m) X'). rewrite X, Y, R, L, W, Hh in IH.
    destruct IH as [I1 [I2 [I3 [I4 [I5 [I6 I7]]]]]]; [lia|lia|lia|].
    repeat match goal with |- _ /\ _ => split end; auto.
    + intros [|k] c' E.
      * cbn in E. injection E as <-. rewrite Z.add_0_r.
        change (fold_left (fun m c => put_char c m) (d :: t) ?x) with (type_text (d :: t) x).
        rewrite I2 by lia. rewrite G. unfold grid_set. now rewrite !Z.eqb_refl.
      * cbn [nth_error] in E. rewrite Nat2Z.inj_succ.
        replace (e_x m + Z.succ (Z.of_nat k)) with (e_x m + 1 + Z.of_nat k) by lia. apply I1. exact E.
    + intros x y N. change (fold_left (fun m c => put_char c m) (d :: t) ?x) with (type_text (d :: t) x).
      rewrite I2 by lia. rewrite G. unfold grid_set.
      destruct (Z.eqb_spec x (e_x m)); destruct (Z.eqb_spec y (e_y m)); cbn; try reflexivity. subst. lia.
    + intro Q. destruct I6 as [I6 I6']; [lia|]. split; [|exact I6'].
      change (fold_left (fun m c => put_char c m) (d :: t) ?x) with (type_text (d :: t) x). lia.
    + intro Q. destruct I7 as [I7 I7']; [lia|]. split; [|exact I7'].
      change (fold_left (fun m c => put_char c m) (d :: t) ?x) with (type_text (d :: t) x). lia.
Qed.

(** A span printed with the default pen in a row that has room for it *)
Lemma span_shown : forall e s fg bg m, displayed e false (s_fg s) fg -> displayed e true (s_bg s) bg ->
  printable (s_text s) -> linkable (s_link s) -> e_parse m = PGround -> e_rend m = rend0 -> e_link m = [] ->
  e_wrap m = false -> 0 <= e_x m -> 0 < zlen (s_text s) -> e_x m + zlen (s_text s) <= e_w m ->
  let m' := vt (span_str e s) m in
  let look := styled (s_flags s) fg bg rend0 in
  (forall k c, nth_error (s_text s) k = Some c ->
     e_grid m' (e_x m + Z.of_nat k) (e_y m) = (c, look, s_link s)) /\
  (forall x y, ~ (y = e_y m /\ e_x m <= x < e_x m + zlen (s_text s)) -> e_grid m' x y = e_grid m x y) /\
  e_link m' = [] /\ e_parse m' = PGround /\
  e_rend m' = (if s_reset s then rend0 else look).
Proof.
  intros e s fg bg m Hf Hb Ht Hl Hm Hr Hk Hw H0 Hn Hx. cbv zeta.
  rewrite (span_printed e s fg bg m Hf Hb Ht Hl Hm). cbv zeta. rewrite Hr.
  set (look := styled (s_flags s) fg bg rend0).
  set (m1 := set_rend look (if negb (str_eqb (s_link s) []) then set_link (s_link s) m else m)).
  assert (M1 : e_wrap m1 = e_wrap m /\ e_x m1 = e_x m /\ e_y m1 = e_y m /\ e_w m1 = e_w m /\ e_grid m1 = e_grid m /\
               e_rend m1 = look /\ e_link m1 = s_link s /\ e_parse m1 = PGround).
  { unfold m1. destruct (str_eqb (s_link s) []) eqn:E; cbn; repeat split; auto.
    apply str_eqb_eq in E. congruence. }
  destruct M1 as [M1 [M2 [M3 [M4 [M5 [M6 [M7 M8]]]]]]].
  destruct (type_text_row (s_text s) m1) as [T1 [T2 _]]; try congruence; try lia.
  rewrite M2, M3, M6, M7, M5 in *.
  assert (P : e_parse (type_text (s_text s) m1) = PGround) by (rewrite type_text_parse; exact M8).
  assert (RR : e_rend (type_text (s_text s) m1) = look) by (rewrite type_text_rend; exact M6).
  assert (LL : e_link (type_text (s_text s) m1) = s_link s) by (rewrite type_text_link; exact M7).
  assert (NS : has_style s = false -> look = rend0).
  { intro N. unfold has_style in N. apply orb_false_iff in N. destruct N as [N N3].
    apply orb_false_iff in N. destruct N as [N1 N2]. unfold look.
    destruct (s_fg s); [discriminate|]. destruct (s_bg s); [discriminate|].
    destruct fg; [contradiction|]. destruct bg; [contradiction|].
    destruct (s_flags s) as [[] [] [] [] [] [] [] [] [] []]; try discriminate. reflexivity. }
  destruct (str_eqb (s_link s) []) eqn:E; cbn [negb]; destruct (s_reset s) eqn:ER; cbn [andb];
    try (destruct (has_style s) eqn:EH); cbn; repeat match goal with |- _ /\ _ => split end; auto;
    try (apply str_eqb_eq in E; congruence); rewrite RR; auto.
Qed.
