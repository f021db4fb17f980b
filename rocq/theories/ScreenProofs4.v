(** The screen properties: shape, layout, counts, repetition, last writer. *)
From Coq Require Import ZArith Reals List Bool Lia.
From Flocq Require Import Core IEEE754.BinarySingleNaN.
From Verif Require Import PyBase PyLemmas F64 FloatLemmas SpaceModel ColorModel ColorSpec ColorProofs ColorProofs2 BlendProofs
  SpanModel SpanSpec GroupProofs ParseProofs ScreenModel ScreenSpec ScreenProofs ScreenProofs2 ScreenProofs3.
Open Scope Z_scope.

Lemma cell_at_on : forall s q, on_screen (sc_w s) (sc_h s) q -> cell_at s q = mget (sc_cells s) (fst q) (snd q).
Proof.
  intros s [x y] [H1 H2]. unfold cell_at. cbn [fst snd] in *.
  now rewrite (proj2 (Z.leb_le 0 x)), (proj2 (Z.leb_le 0 y)) by lia.
Qed.
Lemma cell_at_off : forall s q, shaped s -> ~ on_screen (sc_w s) (sc_h s) q -> cell_at s q = None.
Proof.
  intros s [x y] Hs Hq. apply shaped_dims in Hs. unfold cell_at, on_screen in *. cbn [fst snd] in *.
  destruct (0 <=? x) eqn:E1; auto. destruct (0 <=? y) eqn:E2; auto. apply Z.leb_le in E1, E2. cbn [andb].
  pose proof (dims_get _ _ _ _ x y Hs E1 E2) as G. destruct (mget (sc_cells s) x y); auto. exfalso. apply Hq. lia.
Qed.
Lemma cell_at_some : forall s q, shaped s -> on_screen (sc_w s) (sc_h s) q -> exists c, cell_at s q = Some c.
Proof.
  intros s q Hs Hq. rewrite cell_at_on by auto. apply shaped_dims in Hs. destruct Hq.
  eapply dims_get_some; eauto.
Qed.

Lemma fine_nan : forall c, fine c -> f_nan (c_alpha c) = false.
Proof. intros c [_ [H _]]. destruct (c_alpha c); try discriminate; reflexivity. Qed.
Lemma fine_eq_color : forall o, fine_o o -> eq_color o o.
Proof.
  intros [c|] H; cbn; auto. split; auto. apply feqb_refl. apply fine_nan. auto.
Qed.

Record write_effect (e : env) (tb : color) (data : list (pos * list span)) (s s' : screen) (n : Z) : Prop := {
  we_shaped : shaped s';
  we_size : sc_w s' = sc_w s /\ sc_h s' = sc_h s /\ sc_cursor s' = sc_cursor s /\ sc_off s' = 0;
  we_cell : forall q old, on_screen (sc_w s) (sc_h s) q -> cell_at s q = Some old ->
    match okf (outcome tb (laid_all e (sc_w s) (sc_h s) data) q) with
    | None => cell_at s' q = Some old /\ pending s' q = pending s q
    | Some (new, nl) =>
        (same_cell new old -> cell_at s' q = Some old /\ pending s' q = pending s q) /\
        (~ same_cell new old -> cell_at s' q = Some new /\ pending s' q = Some (cell_entry e new nl))
    end;
  we_off : forall q, ~ on_screen (sc_w s) (sc_h s) q -> pending s' q = pending s q;
  we_count : counts (fun q => on_screen (sc_w s) (sc_h s) q /\
     exists old new nl, cell_at s q = Some old /\ okf (outcome tb (laid_all e (sc_w s) (sc_h s) data) q) = Some (new, nl) /\
       ~ same_cell new old) n;
  we_keyed : keyed s -> keyed s';
  we_none : n = 0 -> s' = s
}.

Lemma write_bulk_effect : forall e c s data tb force, cache_ok e c -> shaped s -> calm_write s data ->
  fine tb -> fine_data data ->
  exists s' c' n, write_bulk e c s data tb force = (s', c', Ok n) /\ cache_ok e c' /\ write_effect e tb data s s' n.
Proof.
  intros e c s data tb force Hc Hs Hd Ht Hf.
  set (items := laid_all e (sc_w s) (sc_h s) data).
  destruct (write_bulk_calm e c s data tb force Hc Hs Hd) as [cells' [c' [E [Hc' [D G]]]]].
  { intros q x Hq Eo. destruct (outcome_ok e (sc_w s) (sc_h s) tb data q Ht Hf) as [[E _]|[_ [t [f [b [nl [E _]]]]]]];
    congruence. }
  fold items in E, G. set (f := fun q => okf (outcome tb items q)) in *.
  set (ch := changes f (sc_cells s)) in *.
  rewrite E. eexists. exists c'. eexists. split; [reflexivity|]. split; auto.
  assert (Hnd : NoDup (filter ch (positions (sc_w s) (sc_h s)))) by apply NoDup_filter, positions_NoDup.
  assert (Hfn : forall q, In q (filter ch (positions (sc_w s) (sc_h s))) -> f q <> None).
  { intros q Hq. apply filter_In in Hq. destruct Hq as [_ Hq]. unfold ch, changes in Hq. destruct (f q); congruence. }
  assert (Hex : forall q, existsb (pos_eqb q) (filter ch (positions (sc_w s) (sc_h s))) = true <->
     on_screen (sc_w s) (sc_h s) q /\ ch q = true).
  { intro q. rewrite existsb_exists. split.
    - intros [q' [Hi Hq]]. apply pos_eqb_iff in Hq. subst q'. apply filter_In in Hi. rewrite positions_in in Hi. auto.
    - intros [H1 H2]. exists q. split; [|apply pos_eqb_refl]. apply filter_In. rewrite positions_in. auto. }
  split; cbn [sc_w sc_h sc_cells sc_buf sc_cursor sc_off].
  - apply shaped_dims. auto.
  - auto.
  - intros q old Hq Hold. change (okf (outcome tb (laid_all e (sc_w s) (sc_h s) data) q)) with (f q).
    rewrite (cell_at_on (mkScreen _ _ _ _ _ _)) by auto. cbn [sc_cells]. rewrite G by auto. change (okf (outcome tb items q)) with (f q).
    unfold pending. cbn [sc_buf]. rewrite log_change_get by auto.
    rewrite cell_at_on in Hold by auto.
    assert (Ec : ch q = match f q with Some (new, _) => negb (cell_eqb new old) | None => false end).
    { unfold ch, changes. rewrite Hold. auto. }
    rewrite Ec. destruct (f q) as [[new nl]|] eqn:Ef; [|split; auto].
    2: { destruct (existsb _ _) eqn:Ex; auto. apply Hex in Ex. destruct Ex as [_ Ex]. congruence. }
    split; intro Hsame.
    + apply same_cell_iff in Hsame. rewrite Hsame. split; auto.
      destruct (existsb _ _) eqn:Ex; auto. apply Hex in Ex. destruct Ex as [_ Ex]. rewrite Hsame in Ec. cbn in Ec. congruence.
    + destruct (cell_eqb new old) eqn:Eq; [apply same_cell_iff in Eq; contradiction|]. cbn [negb] in Ec |- *.
      split; auto. rewrite (proj2 (Hex q)) by auto. auto.
  - intros q Hq. unfold pending. cbn [sc_buf]. rewrite log_change_get by auto.
    destruct (existsb _ _) eqn:Ex; auto. apply Hex in Ex. tauto.
  - exists (filter ch (positions (sc_w s) (sc_h s))). split; auto. split; auto.
    intro q. rewrite filter_In, positions_in. split; intros [H1 H2]; split; auto.
    + destruct (cell_at_some s q Hs H1) as [old Eo]. unfold ch, changes in H2. rewrite cell_at_on in Eo by auto.
      rewrite Eo in H2. change (okf (outcome tb (laid_all e (sc_w s) (sc_h s) data) q)) with (f q).
      destruct (f q) as [[new nl]|] eqn:Ef; [|discriminate]. exists old, new, nl. rewrite cell_at_on by auto.
      split; auto. split; auto. intro Hsame. apply same_cell_iff in Hsame. now rewrite Hsame in H2.
    + destruct H2 as [old [new [nl [E1 [E2 E3]]]]].
      change (okf (outcome tb (laid_all e (sc_w s) (sc_h s) data) q)) with (f q) in E2.
      unfold ch, changes. rewrite E2. rewrite cell_at_on in E1 by auto. rewrite E1.
      destruct (cell_eqb new old) eqn:Eq; auto. apply same_cell_iff in Eq. contradiction.
  - intros Hk. unfold keyed in *. cbn [sc_buf]. now apply log_change_NoDup.
  - intros Hz. apply zlen_0 in Hz.
    assert (Ecells : cells' = sc_cells s).
    { apply (mget_ext _ (sc_w s) (sc_h s)); auto; [now apply shaped_dims|]. intros x y Hx Hy.
      pose proof (G (x, y) (conj Hx Hy)) as Gq. cbn [fst snd] in Gq. rewrite Gq. destruct (ch (x, y)) eqn:Ech; auto.
      exfalso. assert (Hin : In (x, y) (filter ch (positions (sc_w s) (sc_h s)))).
      { apply filter_In. split; auto. apply positions_in. split; auto. }
      rewrite Hz in Hin. contradiction. }
    rewrite Hz, Ecells. cbn [fold_left]. destruct Hd as [Ho _]. rewrite <- Ho. now destruct s.
Qed.

(** * Characters of calm data hold no line break *)
Lemma characters_tail : forall e s ch, ~ In NL (s_text s) -> In ch (get_characters e s true true) ->
  exists t c, ch = t ++ [c] /\ c <> NL.
Proof.
  intros e s ch H Hi. unfold get_characters in Hi.
  assert (G : forall (t : str) (q : str) ch, ~ In NL t -> In ch (fst (chars_init q true t)) -> exists a c, ch = a ++ [c] /\ c <> NL).
  { clear. induction t as [|c t IH]; intros q ch H Hi; cbn [chars_init] in Hi; [contradiction|].
    specialize (IH q). destruct (chars_init q true t) as [l r]. cbn [fst] in *. destruct Hi as [<-|Hi].
    - exists q, c. split; auto. intros ->. apply H. now left.
    - apply IH; auto. intro. apply H. now right. }
  specialize (G (removelast (s_text s)) (span_colorless s)).
  destruct (chars_init (span_colorless s) true (removelast (s_text s))) as [l r]. cbn [fst] in G.
  assert (Hr : ~ In NL (removelast (s_text s))) by (intro; apply H; now apply in_removelast).
  destruct (rev (s_text s)) as [|c t] eqn:Er; auto.
  apply in_app_iff in Hi. destruct Hi as [Hi|[<-|[]]]; auto.
  assert (Hc : c <> NL). { intros ->. apply H. apply in_rev. rewrite Er. now left. }
  destruct (negb _ && _).
  - exists (r ++ [c] ++ [27; 91; 48]), 109. split; [|discriminate]. rewrite <- !app_assoc. reflexivity.
  - exists [], c. auto.
Qed.
Lemma tail_clean : forall t c, c <> NL -> rstrip_by is_nl (t ++ [c]) = t ++ [c] /\ endswith [NL] (t ++ [c]) = false.
Proof.
  intros t c H. split.
  - apply rstrip_none. apply Z.eqb_neq. auto.
  - rewrite endswith_char. apply Z.eqb_neq. auto.
Qed.
(** the text of a cell is one of the characters written there *)
Lemma fold_text : forall (items : list (str * span)) (old : option wcell) (st : list color), True ->
  match fst (fold_left cstep items (old, st)) with
  | Some (t, _, _, _) => In t (map fst items) \/ (exists f b z, old = Some (t, f, b, z))
  | None => items = [] /\ old = None
  end.
Proof.
  induction items as [|[ch s] items IH]; intros old st _; cbn [fold_left].
  - cbn. destruct old as [[[[t f] b] z]|]; auto. right. eauto.
  - unfold cstep at 2. cbn [fst snd]. destruct (over s ch old) as [[[[t1 f1] b1] z1] push] eqn:Eo.
    specialize (IH (Some (t1, f1, b1, z1)) (st ++ opt_list push) I).
    match type of IH with match fst ?zz with _ => _ end => change (match fst zz with
      | Some (t, _, _, _) => In t (map fst ((ch, s) :: items)) \/ (exists f b z, old = Some (t, f, b, z))
      | None => (ch, s) :: items = [] /\ old = None end); destruct (fst zz) as [[[[t f] b] z0]|] end.
    + destruct IH as [IH|[f' [b' [z' IH]]]]; [left; now right|]. injection IH as -> _ _ _.
      unfold over in Eo. destruct old as [[[[ot of] ob] oz]|].
      2: { injection Eo as <- _ _ _ _. left. now left. }
      destruct (s_bg s) as [b0|]; [|injection Eo as <- _ _ _ _; left; now left].
      destruct (alpha_not_one b0); [|injection Eo as <- _ _ _ _; left; now left].
      injection Eo as Et _ _ _ _. destruct (_ && _); subst t; [right; eauto|left; now left].
    + destruct IH. discriminate.
Qed.
Lemma finish_text : forall tb t fg bg z st r, finish_cell tb (t, fg, bg, z) st = Ok r ->
  fst (fst (fst r)) = rstrip_by is_nl t /\ snd r = endswith [NL] t.
Proof.
  intros tb t fg bg z st r H. unfold finish_cell in H.
  destruct (blend_stack _ _ _ _ _) as [[bl f]|]; [|discriminate]. cbn [bindr] in H.
  destruct (if bg_has_alpha bl then _ else _); [|discriminate]. cbn [bindr] in H.
  destruct (if bg_has_alpha f then _ else _); [|discriminate]. cbn [bindr] in H. injection H as <-. auto.
Qed.
Lemma outcome_text : forall e w h tb data q t f b nl, Forall (calm_entry w h) data ->
  outcome tb (laid_all e w h data) q = Some (Ok ((t, f, b), nl)) ->
  nl = false /\ In t (map fst (covering q (laid_all e w h data))).
Proof.
  intros e w h tb data q t f b nl Hd H. unfold outcome in H.
  pose proof (fold_text (covering q (laid_all e w h data)) None [] I) as G.
  destruct (fold_left cstep _ (None, [])) as [[[[[t0 f0] b0] z0]|] st]; [|discriminate]. cbn [fst] in G.
  destruct G as [G|[? [? [? G]]]]; [|discriminate].
  injection H as H. apply finish_text in H. cbn [fst snd] in H. destruct H as [-> ->].
  apply in_map_iff in G. destruct G as [[ch s] [E Hi]]. cbn in E. subst ch.
  pose proof Hi as Hi'. apply in_covering, in_laid in Hi'. destruct Hi' as [[[x y] line] [H1 [H2 H3]]].
  rewrite Forall_forall in Hd. specialize (Hd _ H1). destruct Hd as [_ [Hn _]]. rewrite Forall_forall in Hn.
  destruct (characters_tail e s t0 (Hn s H2) H3) as [a [c [-> Hc]]].
  destruct (tail_clean a c Hc) as [-> ->]. split; auto. apply in_map_iff. eexists. split; [|eauto]. auto.
Qed.

(** * Opaque content *)
Lemma solid_alpha : forall o, solid o -> bg_has_alpha o = false.
Proof. intros [c|] H; cbn; auto. unfold alpha_not_one. rewrite (H c eq_refl), fone_refl. auto. Qed.
Lemma cstep_opaque : forall old st ch s, opaque_span s -> cstep (old, st) (ch, s) = (Some (ch, s_fg s, s_bg s, false), st).
Proof.
  intros old st ch s [_ Hb]. unfold cstep, over. cbn [fst snd].
  apply solid_alpha in Hb. destruct old as [[[[oc of] ob] oz]|]; [|cbn; now rewrite app_nil_r].
  destruct (s_bg s) as [b|]; cbn in Hb |- *; rewrite ?Hb; cbn; now rewrite app_nil_r.
Qed.
Lemma fold_opaque : forall items, Forall (fun i => opaque_span (snd i)) items -> 
  forall old st, fold_left cstep items (old, st) =
  (match rev items with (ch, s) :: _ => Some (ch, s_fg s, s_bg s, false) | [] => old end, st).
Proof.
  intros items. induction items as [|[ch s] items IH] using rev_ind; intros H old st; auto.
  apply Forall_app in H. destruct H as [H1 H2]. inversion H2; subst.
  rewrite fold_left_app, IH by auto. cbn [fold_left]. rewrite cstep_opaque by auto. rewrite rev_app_distr. reflexivity.
Qed.
Lemma finish_opaque : forall tb ch s t c, opaque_span s -> ch = t ++ [c] -> c <> NL ->
  finish_cell tb (ch, s_fg s, s_bg s, false) [] = Ok (plain_cell (ch, s), false).
Proof.
  intros tb ch s t c [Hf Hb] -> Hc. unfold finish_cell, plain_cell. cbn [blend_stack bindr].
  rewrite (solid_alpha _ Hb). cbn [bindr].
  assert (Hf' : bg_has_alpha (match s_fg s with Some f => Some f | None => Some WHITE end) = false).
  { destruct (s_fg s) as [f|] eqn:E; [now apply solid_alpha|reflexivity]. }
  assert (Hw : bg_has_alpha (Some WHITE) = false) by (apply solid_alpha; intros ? E; injection E as <-; reflexivity).
  assert (Hf'' : bg_has_alpha (match s_fg s with Some f => Some f | None => Some WHITE end) = false).
  { destruct (s_fg s) as [f|] eqn:E; [now apply solid_alpha|apply Hw]. }
  rewrite Hf''. cbn [bindr]. destruct (tail_clean t c Hc) as [-> ->]. destruct (s_fg s); auto.
Qed.
Lemma outcome_opaque : forall e w h tb data q, Forall (calm_entry w h) data -> opaque_data data ->
  outcome tb (laid_all e w h data) q =
  match rev (covering q (laid_all e w h data)) with
  | [] => None
  | i :: _ => Some (Ok (plain_cell i, false))
  end.
Proof.
  intros e w h tb data q Hd Ho. unfold outcome. set (items := laid_all e w h data).
  assert (Hin : forall ch s, In (ch, s) (covering q items) -> opaque_span s /\ exists t c, ch = t ++ [c] /\ c <> NL).
  { intros ch s Hi. apply in_covering, in_laid in Hi. destruct Hi as [[[x y] line] [H1 [H2 H3]]].
    unfold opaque_data in Ho. rewrite Forall_forall in Hd, Ho. specialize (Hd _ H1). specialize (Ho _ H1).
    destruct Hd as [_ [Hn _]]. rewrite Forall_forall in Hn, Ho. split; [now apply Ho|].
    eapply characters_tail; eauto. }
  rewrite fold_opaque.
  - destruct (rev (covering q items)) as [|[ch s] l] eqn:Er; auto.
    destruct (Hin ch s) as [Hs [t [c [Ech Hc]]]].
    { apply in_rev. rewrite Er. now left. }
    transitivity (Some (finish_cell tb (ch, s_fg s, s_bg s, false) [])); [reflexivity|].
    f_equal. eapply finish_opaque; eauto.
  - apply Forall_forall. intros [ch s] Hi. now apply (Hin ch s).
Qed.
