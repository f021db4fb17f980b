(** The screen properties: layers, rendering, the cache along histories. *)
From Coq Require Import ZArith Reals List Bool Lia Lra Permutation Sorting.Sorted.
From Flocq Require Import Core IEEE754.BinarySingleNaN.
From Verif Require Import PyBase PyLemmas F64 FloatLemmas SpaceModel ColorModel ColorSpec ColorProofs ColorProofs2 BlendProofs
  AnsiRe SpanModel SpanSpec SpanProofs2 GroupProofs ParseProofs ScreenModel ScreenSpec ScreenProofs ScreenProofs2 ScreenProofs3 ScreenProofs4
  ScreenProofs5 ScreenProofs6.
Import ListNotations.
Open Scope Z_scope.

(** * Cell content of a write *)
Lemma write_cell : forall e tb data s s' n q old new nl, shaped s -> fine tb -> fine_data data ->
  write_effect e tb data s s' n -> on_screen (sc_w s) (sc_h s) q -> cell_at s q = Some old ->
  outcome tb (laid_all e (sc_w s) (sc_h s) data) q = Some (Ok (new, nl)) ->
  exists c, cell_at s' q = Some c /\ same_cell c new.
Proof.
  intros e tb data s s' n q old new nl Hs Ht Hf W Hq Eold Eo.
  pose proof (we_cell _ _ _ _ _ _ W q old Hq Eold) as G. rewrite Eo in G. cbn [okf] in G.
  destruct (cell_eqb new old) eqn:Eq.
  - apply same_cell_iff in Eq. exists old. split; [now apply G|now apply same_cell_sym].
  - exists new. split; [apply G; intro Hs'; apply same_cell_iff in Hs'; congruence|].
    eapply outcome_refl; eauto. rewrite Eo. reflexivity.
Qed.

(** * Layers *)
Lemma lstrip_nil : forall p (l : str), lstrip_by p l = [] <-> forallb p l = true.
Proof. intros p l. induction l as [|a l IH]; cbn; [tauto|]. destruct (p a); cbn; [apply IH|]. split; discriminate. Qed.
Lemma rstrip_nil : forall p (l : str), rstrip_by p l = [] <-> forallb p l = true.
Proof.
  intros p l. unfold rstrip_by.
  assert (E : forallb p (rev l) = true <-> forallb p l = true).
  { rewrite !forallb_forall. split; intros H x Hx; apply H; [now apply in_rev in Hx|now apply in_rev]. }
  rewrite <- E, <- lstrip_nil. split; intro H.
  - apply (f_equal (@rev Z)) in H. rewrite rev_involutive in H. exact H.
  - now rewrite H.
Qed.
Lemma strip_nil : forall p (l : str), strip_by p l = [] <-> forallb p l = true.
Proof.
  intros p l. unfold strip_by. rewrite rstrip_nil. induction l as [|a l IH]; [cbn; tauto|].
  cbn [lstrip_by forallb]. destruct (p a) eqn:E; cbn [andb]; [exact IH|]. cbn. rewrite E. cbn. tauto.
Qed.
Lemma see_through_eq : forall ch s, char_empty ch && negb (fl_opaque (s_flags s)) = see_through (ch, s).
Proof.
  intros ch s. unfold see_through, char_empty. cbn [fst snd]. f_equal.
  destruct (forallb is_space (strip_ansi ch)) eqn:E.
  - apply strip_nil in E. rewrite E. reflexivity.
  - apply str_eqb_neq. intro H. apply strip_nil in H. congruence.
Qed.

Lemma alpha_not_one_iff : forall c, alpha_not_one c = true <-> c_alpha c <> fone.
Proof.
  intro c. unfold alpha_not_one. rewrite negb_true_iff. split.
  - intros H E. rewrite E, fone_refl in H. discriminate.
  - intro H. destruct (feqb (c_alpha c) fone) eqn:E; auto. apply fone_unique in E. contradiction.
Qed.

Definition bleeds_b (base : str * span) (layers : list (str * span)) : bool :=
  match rev layers with
  | top :: _ => see_through top && negb (str_eqb (fst top) (fst (showing base layers)))
  | [] => false
  end.
Lemma showing_snoc : forall base ls i, showing base (ls ++ [i]) = if see_through i then showing base ls else i.
Proof.
  intros base ls i. unfold showing. rewrite filter_app. cbn [filter]. destruct (see_through i); cbn [negb].
  - now rewrite app_nil_r.
  - apply last_last.
Qed.
Lemma bleeds_iff : forall base layers, bleeds_b base layers = true <-> bleeds base layers.
Proof.
  intros base layers. unfold bleeds_b, bleeds. split.
  - destruct (rev layers) as [|top r] eqn:E; [discriminate|]. intro H. apply andb_true_iff in H. destruct H as [H1 H2].
    exists (rev r), top. split; [|split; auto].
    + rewrite <- (rev_involutive layers), E. reflexivity.
    + apply negb_true_iff, str_eqb_neq in H2. auto.
  - intros [ls [top [-> [H1 H2]]]]. rewrite rev_app_distr. cbn [rev app]. rewrite H1. cbn [andb].
    apply negb_true_iff, str_eqb_neq. auto.
Qed.

Lemma fold_layers : forall base b layers bgs, s_bg (snd base) = Some b -> c_alpha b = fone ->
  Forall2 translucent layers bgs ->
  fold_left cstep (base :: layers) (None, []) =
  (Some (fst (showing base layers), s_fg (snd (showing base layers)), Some b, bleeds_b base layers), bgs).
Proof.
  intros [ch s] b layers bgs Hb Ha. cbn [snd] in Hb. revert bgs. induction layers as [|[ch' s'] layers IH] using rev_ind; intros bgs H.
  - inversion H; subst. cbn [fold_left]. unfold cstep, over. cbn [fst snd showing filter last]. rewrite Hb. reflexivity.
  - apply Forall2_app_inv_l in H. destruct H as [l1 [l2 [H1 [H2 ->]]]]. inversion H2 as [|? l ? ? [Hl1 Hl2] Hn]; subst. inversion Hn; subst.
    cbn [snd] in *.
    change ((ch, s) :: layers ++ [(ch', s')]) with (((ch, s) :: layers) ++ [(ch', s')]). rewrite fold_left_app, (IH l1 H1).
    cbn [fold_left]. unfold cstep, over. cbn [fst snd]. rewrite Hl1. apply alpha_not_one_iff in Hl2. rewrite Hl2.
    rewrite see_through_eq. unfold bleeds_b. rewrite rev_app_distr. cbn [rev app]. rewrite showing_snoc. cbn [opt_list].
    destruct (see_through (ch', s')) eqn:Es; cbn [andb fst snd]; [reflexivity|].
    do 2 f_equal. rewrite str_eqb_refl. reflexivity.
Qed.

Lemma strength_blend : forall b l bg, alpha_not_one l = true -> get_blended (Some b) (Some l) bg (flit 1 10) =
  let* r := blend b l (strength l) bg in Ok (Some r).
Proof. intros b l bg H. unfold get_blended, alpha_not_one in *. apply negb_true_iff in H. now rewrite H. Qed.

Lemma fine_some : forall c, fine c -> fine_o (Some c).
Proof. intros c H d E. now injection E as <-. Qed.
Lemma strength_fin : forall l, fine l -> exists y, fin (strength l) y /\ (0 <= y <= 1)%R.
Proof.
  intros l Hl. destruct tenth_small as [dx [Hd Hdx]]. destruct (fine_fin l Hl) as [x [Hx Hx1]].
  assert (Hs : fin (fadd (c_alpha l) (flit 1 10)) (rnd (x + dx))).
  { apply fadd_spec; auto. rewrite Rabs_pos_eq by lra. unfold big. apply Rle_trans with 2%R; [lra|].
    replace 2%R with (bpow radix2 1) by reflexivity. apply bpow_le. lia. }
  apply (fmin_one _ _ Hs). rewrite <- rnd_0. apply rnd_le. lra.
Qed.
Lemma blend_layer : forall b l, fine b -> fine l -> exists m, blend b l (strength l) None = Ok m /\ fine m /\ c_alpha m = fone.
Proof.
  intros b l Hb Hl. destruct (strength_fin l Hl) as [y [Hy Hy1]].
  destruct (blend_total b l (strength l) None) as [[k [Ek [Ok1 [_ Ea]]]]|[_ Hbig]]; try apply Hb; try apply Hl; try apply Hy.
  - exists k. split; auto. split; auto. now apply fine_fone.
  - exfalso. destruct Hy as [_ Hy]. rewrite Hy in Hbig. destruct p1000_big as [_ Hp]. rewrite Rabs_pos_eq in Hbig by lra. lra.
Qed.
Lemma tinted_alpha : forall b ls r, tinted b ls r -> ls <> [] -> Forall fine ls -> fine b -> c_alpha r = fone.
Proof.
  intros b ls r H. induction H as [b|b l ls m r Hm H IH]; intros Hn Hf Hb; [congruence|]. inversion Hf; subst.
  destruct (blend_layer b l Hb H2) as [m' [E [Hm' Ha]]]. rewrite Hm in E. injection E as <-.
  destruct ls as [|l2 ls]; [|apply IH; auto; discriminate]. inversion H; subst. auto.
Qed.

Lemma blend_stack_layers : forall (ls : list color) (lst : option color) b f (bleed : bool), Forall fine ls -> Forall (fun l => c_alpha l <> fone) ls -> alternating ls ->
  match lst, ls with Some k, l :: _ => ~ eq_color (Some k) (Some l) | _, _ => True end -> fine b -> fine f ->
  exists r g, tinted b ls r /\ fine r /\ (if bleed then tinted f ls g else g = f) /\ fine g /\
    blend_stack ls lst (Some b) (Some f) bleed = Ok (Some r, Some g).
Proof.
  induction ls as [|l ls IH]; intros lst b f bleed Hf Ha Halt Hl Hb Hff; cbn [blend_stack].
  - exists b, f. repeat match goal with |- _ /\ _ => split end; auto; [constructor|]. destruct bleed; auto. constructor.
  - inversion Hf as [|? ? Hfl Hfls]; subst. inversion Ha as [|? ? Hal Hals]; subst.
    assert (E : match lst with Some k => color_eqb l k | None => false end = false).
    { destruct lst as [k|]; auto. destruct (color_eqb l k) eqn:E; auto. exfalso. apply Hl. apply eq_color_sym, opt_color_eqb_iff. exact E. }
    rewrite E. apply alpha_not_one_iff in Hal. rewrite strength_blend by auto.
    destruct (blend_layer b l Hb Hfl) as [m [Em [Hm _]]]. rewrite Em. cbn [bindr].
    assert (Hnext : alternating ls /\ match ls with l2 :: _ => ~ eq_color (Some l) (Some l2) | [] => True end).
    { destruct ls as [|l2 ls]; cbn [alternating] in Halt |- *; tauto. }
    destruct Hnext as [Halt' Hl'].
    destruct bleed.
    + rewrite strength_blend by auto. destruct (blend_layer f l Hff Hfl) as [m2 [Em2 [Hm2 _]]]. rewrite Em2. cbn [bindr].
      destruct (IH (Some l) m m2 true) as [r [g [H1 [H2 [H3 [H4 H5]]]]]]; auto.
      exists r, g. repeat match goal with |- _ /\ _ => split end; auto; econstructor; eauto.
    + cbn [bindr]. destruct (IH (Some l) m f false) as [r [g [H1 [H2 [H3 [H4 H5]]]]]]; auto.
      exists r, g. repeat match goal with |- _ /\ _ => split end; auto; econstructor; eauto.
Qed.

Lemma finish_layers : forall tb base b layers bgs, s_bg (snd base) = Some b -> c_alpha b = fone -> fine b ->
  Forall2 translucent layers bgs -> Forall fine bgs -> alternating bgs -> fine (foreground (showing base layers)) ->
  solid (s_fg (snd (showing base layers))) ->
  (exists t c, fst (showing base layers) = t ++ [c] /\ c <> NL) ->
  exists r g, tinted b bgs r /\ (bleeds base layers -> tinted (foreground (showing base layers)) bgs g) /\
    (~ bleeds base layers -> g = foreground (showing base layers)) /\
    match fold_left cstep (base :: layers) (None, []) with
    | (Some c, st) => finish_cell tb c st = Ok ((fst (showing base layers), Some g, Some r), false)
    | (None, _) => False
    end.
Proof.
  intros tb base b layers bgs Hb Ha Hfb H2 Hf Halt Hff Hsol [t [ch [Et Hch]]].
  rewrite (fold_layers base b layers bgs Hb Ha H2).
  assert (Hna : Forall (fun l => c_alpha l <> fone) bgs).
  { clear - H2. induction H2; constructor; auto. apply H. }
  destruct (blend_stack_layers bgs (Some b) b (foreground (showing base layers)) (bleeds_b base layers) Hf Hna Halt) as [r [g [T1 [Fr [T2 [Fg E]]]]]]; auto.
  { destruct bgs as [|l bgs]; auto. inversion Hna; subst. intro Heq. apply opt_color_eqb_iff in Heq. cbn in Heq.
    apply color_eqb_meaning in Heq. destruct Heq as [_ [_ [_ Heq]]]. rewrite Ha in Heq.
    rewrite feqb_sym in Heq. apply fone_unique in Heq. contradiction. }
  exists r, g. split; auto. split; [|split].
  - intro Hbl. apply bleeds_iff in Hbl. now rewrite Hbl in T2.
  - intro Hbl. destruct (bleeds_b base layers) eqn:Eb; auto. exfalso. apply Hbl. now apply bleeds_iff.
  - unfold finish_cell.
    replace (match s_fg (snd (showing base layers)) with Some f => Some f | None => Some WHITE end) with (Some (foreground (showing base layers))).
    2: { unfold foreground. now destruct (s_fg (snd (showing base layers))). }
    rewrite E. cbn [bindr].
    assert (Har : c_alpha r = fone).
    { destruct bgs as [|l bgs]; [inversion T1; now subst|]. eapply tinted_alpha; eauto. discriminate. }
    assert (Hs1 : bg_has_alpha (Some r) = false) by (apply solid_alpha; intros d Ed; now injection Ed as <-).
    rewrite Hs1. cbn [bindr].
    assert (Hag : c_alpha g = fone).
    { assert (H0 : c_alpha (foreground (showing base layers)) = fone).
      { unfold foreground. destruct (s_fg (snd (showing base layers))) as [f|] eqn:Ef; [|reflexivity]. now apply Hsol. }
      destruct (bleeds_b base layers); [|now subst g].
      destruct bgs as [|l bgs]; [inversion T2; now subst|]. eapply tinted_alpha; eauto. discriminate. }
    assert (Hs2 : bg_has_alpha (Some g) = false) by (apply solid_alpha; intros d Ed; now injection Ed as <-).
    rewrite Hs2. cbn [bindr]. rewrite Et. destruct (tail_clean t ch Hch) as [-> ->]. reflexivity.
Qed.

(** the characters a write lays on a cell end in something that is not a newline *)
Lemma covering_tail : forall e w h data q ch s, Forall (calm_entry w h) data -> In (ch, s) (covering q (laid_all e w h data)) ->
  exists t c, ch = t ++ [c] /\ c <> NL.
Proof.
  intros e w h data q ch s Hd Hi. apply in_covering, in_laid in Hi. destruct Hi as [[[x y] line] [H1 [H2 H3]]].
  rewrite Forall_forall in Hd. specialize (Hd _ H1). destruct Hd as [_ [Hn _]]. rewrite Forall_forall in Hn.
  cbn [snd] in H2. eapply characters_tail; eauto.
Qed.
Lemma showing_in : forall base layers, showing base layers = base \/ In (showing base layers) layers.
Proof.
  intros base layers. induction layers as [|i layers IH] using rev_ind; [now left|]. rewrite showing_snoc.
  destruct (see_through i); [|right; apply in_app_iff; right; now left].
  destruct IH as [->|IH]; [now left|right; apply in_app_iff; now left].
Qed.

Lemma layers_spec : forall e c s data tb force q base layers b bgs, cache_ok e c -> shaped s -> calm_write s data ->
  fine tb -> fine_data data -> on_screen (sc_w s) (sc_h s) q ->
  covering q (laid_all e (sc_w s) (sc_h s) data) = base :: layers ->
  s_bg (snd base) = Some b -> c_alpha b = fone -> Forall2 translucent layers bgs -> alternating bgs ->
  solid (s_fg (snd (showing base layers))) ->
  exists s' c' n new bg fg, write_bulk e c s data tb force = (s', c', Ok n) /\ cell_at s' q = Some new /\
    same_cell new (fst (showing base layers), Some fg, Some bg) /\ tinted b bgs bg /\
    (bleeds base layers -> tinted (foreground (showing base layers)) bgs fg) /\
    (~ bleeds base layers -> fg = foreground (showing base layers)).
Proof.
  intros e c s data tb force q base layers b bgs Hc Hs Hd Ht Hf Hq Hcov Hb Ha H2 Halt Hsol.
  destruct (write_bulk_effect e c s data tb force Hc Hs Hd Ht Hf) as [s' [c' [n [E [Hc' W]]]]].
  assert (Hfine : forall i, In i (base :: layers) -> fine_span (snd i)).
  { intros i Hi. eapply covering_fine; eauto. rewrite Hcov. exact Hi. }
  assert (Hsh : In (showing base layers) (base :: layers)) by (destruct (showing_in base layers); [left; auto|right; auto]).
  destruct (finish_layers tb base b layers bgs Hb Ha) as [r [g [T1 [T2 [T3 Hfin]]]]]; auto.
  { apply (Hfine base); [now left|auto]. }
  { clear - Hfine H2. assert (Hl : forall i, In i layers -> fine_span (snd i)) by (intros; apply Hfine; now right). clear Hfine.
    induction H2 as [|i l layers bgs [Hi1 Hi2] H2 IH]; constructor.
    - apply (Hl i); [now left|auto].
    - apply IH. intros j Hj. apply Hl. now right. }
  { unfold foreground. destruct (s_fg (snd (showing base layers))) as [f|] eqn:Ef; [|apply fine_WHITE]. apply (Hfine _ Hsh). auto. }
  { destruct (showing base layers) as [ch sp] eqn:Es. cbn [fst]. eapply (covering_tail e (sc_w s) (sc_h s) data q ch sp); [apply Hd|]. rewrite Hcov. exact Hsh. }
  destruct (cell_at_some s q Hs Hq) as [old Eold].
  assert (Eo : outcome tb (laid_all e (sc_w s) (sc_h s) data) q = Some (Ok ((fst (showing base layers), Some g, Some r), false))).
  { unfold outcome. rewrite Hcov. destruct (fold_left cstep (base :: layers) (None, [])) as [[wc|] st]; [|contradiction]. now rewrite Hfin. }
  destruct (write_cell e tb data s s' n q old _ _ Hs Ht Hf W Hq Eold Eo) as [new [En Hn]].
  exists s', c', n, new, r, g. repeat match goal with |- _ /\ _ => split end; auto.
Qed.

(** * Translucent foregrounds *)
Lemma finish_invisible : forall tb ch f b t z, fine tb -> fine b -> fine f -> c_alpha f <> fone -> ch = t ++ [z] -> z <> NL ->
  exists k, finish_cell tb (ch, Some f, Some b, false) [] = Ok ((ch, Some k, Some k), false) /\
    (c_alpha b = fone -> k = b) /\ (c_alpha b <> fone -> blend tb b (strength b) None = Ok k).
Proof.
  intros tb ch f b t z Ht Hb Hf Ha -> Hz. unfold finish_cell. cbn [blend_stack bindr bg_has_alpha].
  destruct (tail_clean t z Hz) as [-> ->]. apply alpha_not_one_iff in Ha.
  destruct (alpha_not_one b) eqn:Eb.
  - rewrite strength_blend by auto. destruct (blend_layer tb b Ht Hb) as [m [Em [Hm Hm1]]]. rewrite Em. cbn [bindr].
    cbn [bg_has_alpha]. rewrite Ha. cbn [get_blended]. rewrite Hm1, fone_refl. cbn [bindr]. exists m. split; auto. split; auto.
    intro E. apply alpha_not_one_iff in Eb. contradiction.
  - cbn [bindr bg_has_alpha]. rewrite Ha. cbn [get_blended].
    unfold alpha_not_one in Eb. apply negb_false_iff in Eb. rewrite Eb. cbn [bindr]. exists b. split; auto. split; auto.
    intro E. apply fone_unique in Eb. contradiction.
Qed.
Lemma invisible : forall e c s data tb force q ch sp f b, cache_ok e c -> shaped s -> calm_write s data ->
  fine tb -> fine_data data -> on_screen (sc_w s) (sc_h s) q ->
  covering q (laid_all e (sc_w s) (sc_h s) data) = [(ch, sp)] ->
  s_fg sp = Some f -> s_bg sp = Some b -> c_alpha f <> fone ->
  exists s' c' n new k, write_bulk e c s data tb force = (s', c', Ok n) /\ cell_at s' q = Some new /\
    same_cell new (ch, Some k, Some k) /\
    (c_alpha b = fone -> k = b) /\ (c_alpha b <> fone -> blend tb b (strength b) None = Ok k).
Proof.
  intros e c s data tb force q ch sp f b Hc Hs Hd Ht Hf Hq Hcov Ef Eb Ha.
  destruct (write_bulk_effect e c s data tb force Hc Hs Hd Ht Hf) as [s' [c' [n [E [Hc' W]]]]].
  assert (Hfine : fine_span sp).
  { apply (covering_fine e (sc_w s) (sc_h s) data q (ch, sp)); auto. rewrite Hcov. now left. }
  destruct (covering_tail e (sc_w s) (sc_h s) data q ch sp) as [t [z [Et Hz]]]; [apply Hd|rewrite Hcov; now left|].
  destruct (finish_invisible tb ch f b t z Ht) as [k [Ek [H1 H2]]]; auto; try (apply Hfine; auto).
  destruct (cell_at_some s q Hs Hq) as [old Eold].
  assert (Eo : outcome tb (laid_all e (sc_w s) (sc_h s) data) q = Some (Ok ((ch, Some k, Some k), false))).
  { unfold outcome. rewrite Hcov. cbn [fold_left]. unfold cstep, over. cbn [fst snd opt_list app]. rewrite Ef, Eb. f_equal. exact Ek. }
  destruct (write_cell e tb data s s' n q old _ _ Hs Ht Hf W Hq Eold Eo) as [new [En Hn]].
  exists s', c', n, new, k. repeat match goal with |- _ /\ _ => split end; auto.
Qed.

(** * Rendering *)
Lemma pos_leb_trans : forall a b c, pos_leb a b = true -> pos_leb b c = true -> pos_leb a c = true.
Proof. intros [x y] [x' y'] [x2 y2]. unfold pos_leb. cbn. rewrite !orb_true_iff, !andb_true_iff, !Z.ltb_lt, !Z.leb_le, !Z.eqb_eq. lia. Qed.
Lemma pos_leb_total : forall a b, pos_leb a b = false -> pos_leb b a = true.
Proof.
  intros [x y] [x' y']. unfold pos_leb. cbn. rewrite orb_false_iff, andb_false_iff, orb_true_iff, andb_true_iff, !Z.ltb_lt, !Z.leb_le, !Z.eqb_eq, Z.ltb_ge, Z.leb_gt, Z.eqb_neq. lia.
Qed.
Lemma pos_leb_above : forall a b, pos_leb a b = true -> a <> b -> above a b.
Proof.
  intros [x y] [x' y']. unfold pos_leb, above. cbn. rewrite orb_true_iff, andb_true_iff, Z.ltb_lt, Z.leb_le, Z.eqb_eq. intros H Hn.
  destruct (Z.eq_dec x x'); [|lia]. subst. destruct (Z.eq_dec y y'); [subst; congruence|lia].
Qed.
Definition item_leb (a b : pos * str) : Prop := pos_leb (fst a) (fst b) = true.
Lemma insert_perm : forall i l, Permutation (insert_item i l) (i :: l).
Proof.
  intros i l. induction l as [|j l IH]; cbn; auto. destruct (pos_leb (fst i) (fst j)); auto.
  rewrite IH. apply perm_swap.
Qed.
Lemma insert_sorted : forall i l, StronglySorted item_leb l -> StronglySorted item_leb (insert_item i l).
Proof.
  intros i l H. induction H as [|j l H IH Hj]; cbn; [repeat constructor|].
  destruct (pos_leb (fst i) (fst j)) eqn:E.
  - constructor; [constructor; auto|]. constructor; auto. eapply Forall_impl; [|exact Hj]. intros k Hk.
    eapply pos_leb_trans; eauto.
  - constructor; auto. apply pos_leb_total in E. rewrite Forall_forall in *. intros k Hk.
    apply (Permutation_in _ (insert_perm i l)) in Hk. destruct Hk as [<-|Hk]; auto.
Qed.
Lemma gather_perm : forall d, Permutation (gather d) d.
Proof. induction d as [|i d IH]; cbn; auto. rewrite insert_perm. auto. Qed.
Lemma gather_sorted : forall d, StronglySorted item_leb (gather d).
Proof. induction d as [|i d IH]; cbn; [constructor|]. now apply insert_sorted. Qed.
Lemma gather_strict : forall d, NoDup (map fst d) -> StronglySorted (fun a b => above (fst a) (fst b)) (gather d).
Proof.
  intros d H. assert (Hn : NoDup (map fst (gather d))).
  { eapply Permutation_NoDup; [|exact H]. apply Permutation_map. symmetry. apply gather_perm. }
  pose proof (gather_sorted d) as Hs. induction Hs as [|i l Hl IH Hi]; constructor.
  - cbn in Hn. inversion Hn; auto.
  - cbn in Hn. inversion Hn as [|? ? Hni _]; subst. rewrite Forall_forall in *. intros j Hj. apply pos_leb_above; [now apply Hi|].
    intro E. apply Hni. rewrite E. now apply in_map.
Qed.

Lemma render_items_emitted : forall ox oy items prev,
  render_items ox oy (match prev with Some (px, py) => Some (px + ox, py + oy) | None => None end) items =
  List.concat (map (fun pi => let '(p, (q, t)) := pi in
    (if follows p q then [] else move_to (fst q + ox) (snd q + oy)) ++ t)
    (combine (prev :: map (fun i => Some (fst i)) items) items)).
Proof.
  intros ox oy items. induction items as [|[[x y] t] items IH]; intro prev; auto.
  cbn [render_items combine map List.concat fst snd]. pose proof (IH (Some (x, y))) as IH'. cbn [render_items] in IH'. rewrite IH'. clear IH IH'.
  match goal with |- ?a ++ ?b = ?c ++ ?d => cut (a = c); [intros ->; reflexivity|] end.
  destruct prev as [[px py]|]; [|reflexivity].
  assert (E : (x + ox =? px + ox + 1) && (y + oy =? py + oy) = follows (Some (px, py)) (x, y)).
  { cbn. f_equal; apply eq_true_iff_eq; rewrite !Z.eqb_eq; lia. }
  rewrite E. destruct (follows (Some (px, py)) (x, y)); reflexivity.
Qed.

Lemma render_spec : forall s origin, keyed s ->
  exists items, Permutation items (sc_buf s) /\ StronglySorted (fun a b => above (fst a) (fst b)) items /\
    let '(out, s') := render s origin false in
    (exists body, out = body ++ [27; 91; 48; 109]) /\
    (out = emitted origin items \/ out = emitted origin items ++ [27; 91; 48; 109]) /\
    s' = mkScreen (sc_w s) (sc_h s) (sc_cells s) [] (sc_cursor s) (sc_off s) /\
    forall origin', fst (render s' origin' false) = [27; 91; 48; 109].
Proof.
  intros s [ox oy] Hk. exists (gather (sc_buf s)). split; [apply gather_perm|]. split; [now apply gather_strict|].
  unfold render at 1. pose proof (render_items_emitted ox oy (gather (sc_buf s)) None) as E.
  change (List.concat _) with (emitted (ox, oy) (gather (sc_buf s))) in E. rewrite E.
  assert (G : forall origin', fst (render (mkScreen (sc_w s) (sc_h s) (sc_cells s) [] (sc_cursor s) (sc_off s)) origin' false) = [27; 91; 48; 109]).
  { intros [ox' oy']. reflexivity. }
  change RESET with [27; 91; 48; 109].
  destruct (endswith [27; 91; 48; 109] (emitted (ox, oy) (gather (sc_buf s)))) eqn:Ee.
  - split; [apply endswith_iff in Ee; exact Ee|]. auto.
  - split; [now exists (emitted (ox, oy) (gather (sc_buf s)))|]. auto.
Qed.

(** * The cache along a history that never scrolls *)
Lemma calm_step : forall e s c o, shaped s -> cache_ok e c -> sc_off s = 0 -> calm_op s o ->
  let st := step e (s, c) o in shaped (fst st) /\ cache_ok e (snd st) /\ sc_off (fst st) = 0.
Proof.
  intros e s c o Hs Hc Ho Hcalm.
  assert (HB : forall data tb force, calm_write s data ->
     let st := fst (write_bulk e c s data tb force) in cache_ok e (snd st) /\ sc_off (fst st) = 0).
  { intros data tb force [_ Hd]. unfold write_bulk.
    destruct (place_all_calm e (sc_w s) (sc_h s) data (mkW (blank_matrix (sc_w s) (sc_h s) None) (blank_matrix (sc_w s) (sc_h s) []) (sc_cells s) (sc_off s) c) Hc Ho Hd)
      as [c' [-> Hc']]. cbn [ws_wm ws_am ws_cells ws_off ws_cache after].
    destruct (commit _ _ _ _ _ _ _ _) as [[[cells buf] n] ex]. cbn. auto. }
  assert (HS : forall data tb force, shaped (fst (fst (write_bulk e c s data tb force)))).
  { intros data tb force. unfold write_bulk.
    set (w := sc_w s). set (h := sc_h s).
    set (st0 := mkW (blank_matrix w h None) (blank_matrix w h []) (sc_cells s) (sc_off s) c).
    assert (D0 : dims w h (ws_cells st0)) by (apply shaped_dims in Hs; exact Hs).
    assert (C : cache_len c).
    { unfold cache_len, cache_ok in *. rewrite Forall_forall in *. intros [[[s0 x0] a0] v0] Hin. specialize (Hc _ Hin). cbn in Hc. subst v0. apply characters_length. }
    destruct (place_all_puts e w h data st0 D0 C) as [items [st [r [E [Hi [Em [D [C' Hr]]]]]]]]. rewrite E.
    destruct r as [u|ex]; [|apply dims_shaped; exact D].
    rewrite commit_jobs_eq. destruct (commit_jobs e tb (jobs (ws_wm st) (ws_am st) 0) (ws_cells st) (sc_buf s) 0) as [[[cells' buf'] n'] ex] eqn:Ec.
    destruct (commit_jobs_dims _ _ w h _ _ _ _ _ _ _ _ D Ec) as [D' Hk]. apply dims_shaped. exact D'. }
  destruct o as [spans cursor tb force|data tb force|sp x a|fill|[w h] fill keep|[ox oy] redraw]; cbn [step calm_op] in *.
  - destruct cursor as [p|]; [|cbn; auto]. unfold write. specialize (HB [(p, spans)] tb force Hcalm). specialize (HS [(p, spans)] tb force). auto.
  - specialize (HB data tb force Hcalm). specialize (HS data tb force). auto.
  - cbn [fst snd]. destruct (cached_ok e c sp x a Hc) as [c' [-> Hc']]. auto.
  - cbn [fst snd]. split; [apply (resize_shape s (sc_w s) (sc_h s) fill false)|]. auto.
  - cbn [fst snd]. split; [apply resize_shape|]. auto.
  - cbn [fst snd]. destruct redraw; cbn; auto.
Qed.
Lemma calm_history : forall e ops s c, shaped s -> cache_ok e c -> sc_off s = 0 -> calm_run e (s, c) ops ->
  let st := run e (s, c) ops in shaped (fst st) /\ cache_ok e (snd st) /\ sc_off (fst st) = 0.
Proof.
  intros e ops. induction ops as [|o ops IH]; intros s c Hs Hc Ho Hr; [cbn; auto|].
  unfold run in *. cbn [fold_left]. destruct Hr as [H1 H2]. destruct (calm_step e s c o Hs Hc Ho H1) as [G1 [G2 G3]].
  destruct (step e (s, c) o) as [s1 c1]. cbn [fst snd] in *. apply IH; auto.
Qed.
Lemma calm_characters : forall e ops s sp x a, shaped s -> sc_off s = 0 -> calm_run e (s, []) ops ->
  fst (cached_characters e (snd (run e (s, []) ops)) sp x a) = get_characters e sp x a.
Proof.
  intros e ops s sp x a Hs Ho Hr. destruct (calm_history e ops s [] Hs (Forall_nil _) Ho Hr) as [_ [Hc _]].
  destruct (cached_ok e _ sp x a Hc) as [c' [E _]]. exact (f_equal fst E).
Qed.
