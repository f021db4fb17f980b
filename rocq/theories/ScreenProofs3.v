(** Proofs about what writes leave in cells. *)
From Coq Require Import ZArith Reals List Bool Lia Lra.
From Flocq Require Import Core IEEE754.BinarySingleNaN.
From Verif Require Import PyBase PyLemmas F64 FloatLemmas SpaceModel ColorModel ColorSpec ColorProofs ColorProofs2 BlendProofs
  SpanModel SpanSpec GroupProofs ScreenModel ScreenSpec ScreenProofs ScreenProofs2.
Open Scope Z_scope.

(** * Equality of cells *)
Lemma same_cell_iff : forall a b, cell_eqb a b = true <-> same_cell a b.
Proof.
  intros [[t f] g] [[t' f'] g']. unfold cell_eqb, same_cell.
  rewrite !andb_true_iff, str_eqb_eq, !opt_color_eqb_iff. tauto.
Qed.
Lemma eq_color_trans : forall a b c, eq_color a b -> eq_color b c -> eq_color a c.
Proof.
  intros [a|] [b|] [c|]; cbn; try tauto. intros [H1 H2] [H3 H4]. split; [congruence|].
  eapply feqb_trans; eauto.
Qed.
Lemma same_cell_sym : forall a b, same_cell a b -> same_cell b a.
Proof. intros [[t f] g] [[t' f'] g'] [H1 [H2 H3]]. split; auto. split; now apply eq_color_sym. Qed.
Lemma same_cell_trans : forall a b c, same_cell a b -> same_cell b c -> same_cell a c.
Proof.
  intros [[t f] g] [[t' f'] g'] [[t2 f2] g2] [H1 [H2 H3]] [H4 [H5 H6]].
  split; [congruence|]. split; eapply eq_color_trans; eauto.
Qed.
Lemma fone_unique : forall a, feqb a fone = true -> a = fone.
Proof.
  intros a H. apply feqb_iff in H. destruct H as [[H _]|[s [t [_ H]]]]; auto.
  exfalso. pose proof fone_1 as [_ G]. rewrite H in G. cbn in G. lra.
Qed.
Lemma fone_refl : feqb fone fone = true.
Proof. apply (feqb_spec fone fone 1 1); auto; apply fone_1. Qed.

(** * Blending in range *)
Lemma fine_fin : forall c, fine c -> exists x, fin (c_alpha c) x /\ (0 <= x <= 1)%R.
Proof. intros c [_ [H1 H2]]. exists (B2R (c_alpha c)). split; auto. split; auto. Qed.
Lemma fine_fone : forall c, color_ok c -> c_alpha c = fone -> fine c.
Proof.
  intros c H E. split; auto. rewrite E. destruct fone_1 as [H1 H2]. split; auto. rewrite H2. lra.
Qed.
Lemma fine_WHITE : fine WHITE.
Proof. apply fine_fone; [apply WHITE_ok|reflexivity]. Qed.
Lemma fmin_one : forall a x, fin a x -> (0 <= x)%R -> exists y, fin (fmin a fone) y /\ (0 <= y <= 1)%R.
Proof.
  intros a x H Hx. unfold fmin. destruct (fltb fone a) eqn:E.
  - exists 1%R. split; [apply fone_1|lra].
  - exists x. split; auto. pose proof (proj1 (fltb_false fone a 1 x fone_1 H) E). lra.
Qed.
Definition fine_o (o : option color) : Prop := forall c, o = Some c -> fine c.
(** the amounts added to an alpha *)
Definition small_add (d : f64) : Prop := exists x, fin d x /\ (0 <= x <= 1)%R.
Lemma tenth_small : small_add (flit 1 10).
Proof.
  pose proof big_1. exists (rnd (1 / 10)). unfold flit. split.
  - apply (flit_spec 1 10); try lia. rewrite Rabs_pos_eq; lra.
  - split.
    + rewrite <- rnd_0. apply rnd_le. lra.
    + apply rnd_le_fmt; [apply (fmt_IZR 1); lia|lra].
Qed.
Lemma zero_small : small_add fzero.
Proof. exists 0%R. split; [split; reflexivity|lra]. Qed.
Lemma get_blended_ok : forall a b bg d, fine_o a -> fine_o b -> small_add d ->
  exists r, get_blended a b bg d = Ok r /\ fine_o r /\ (r = None <-> a = None /\ b = None).
Proof.
  intros [a|] [b|] bg d Ha Hb [dx [Hd Hdx]]; cbn [get_blended].
  - destruct (feqb (c_alpha b) fone) eqn:E.
    + eexists. split; eauto. split; auto. split; [discriminate|intros []; discriminate].
    + destruct (fine_fin b (Hb b eq_refl)) as [x [Hx Hx1]].
      assert (Hs : fin (fadd (c_alpha b) d) (rnd (x + dx))).
      { apply fadd_spec; auto. rewrite Rabs_pos_eq by lra. unfold big. apply Rle_trans with 2%R; [lra|].
        replace 2%R with (bpow radix2 1) by reflexivity. apply bpow_le. lia. }
      destruct (fmin_one _ _ Hs) as [y [Hy Hy1]].
      { rewrite <- rnd_0. apply rnd_le. lra. }
      destruct (blend_total a b (fmin (fadd (c_alpha b) d) fone) bg) as [[k [Ek [Ok1 [_ Ea]]]]|[_ Hbig]];
        try (apply Ha; reflexivity); try (apply Hb; reflexivity); try apply Hy.
      * rewrite Ek. eexists. split; [reflexivity|]. split; [|split; [discriminate|intros []; discriminate]].
        intros c Ec. injection Ec as <-. now apply fine_fone.
      * exfalso. destruct Hy as [_ Hy]. rewrite Hy in Hbig. destruct p1000_big as [_ Hp].
        rewrite Rabs_pos_eq in Hbig by lra. lra.
  - eexists. split; eauto. split; auto. split; [discriminate|intros []; discriminate].
  - eexists. split; eauto. split; auto. split; [discriminate|intros []; discriminate].
  - eexists. split; eauto. split; auto. tauto.
Qed.
Lemma blend_stack_ok : forall stack lst bl fg bleed, Forall fine stack -> fine_o bl -> fine_o fg ->
  exists bl' fg', blend_stack stack lst bl fg bleed = Ok (bl', fg') /\ fine_o bl' /\ fine_o fg' /\ (fg <> None -> fg' <> None).
Proof.
  induction stack as [|c stack IH]; intros lst bl fg bleed Hs Hb Hf; cbn [blend_stack].
  - do 2 eexists. split; eauto.
  - inversion Hs; subst. destruct (match lst with Some l => color_eqb c l | None => false end); auto.
    assert (Hc : fine_o (Some c)) by (intros d E; now injection E as <-).
    destruct (get_blended_ok bl (Some c) None (flit 1 10) Hb Hc tenth_small) as [r [-> [Hr _]]].
    cbn [bindr]. destruct bleed.
    + destruct (get_blended_ok fg (Some c) None (flit 1 10) Hf Hc tenth_small) as [r' [-> [Hr' Hn]]].
      cbn [bindr]. destruct (IH (Some c) r r' true) as [bl' [fg' [E [G1 [G2 G3]]]]]; auto.
      exists bl', fg'. repeat match goal with |- _ /\ _ => split end; auto. intros. apply G3. intro E'. apply Hn in E'. tauto.
    + cbn [bindr]. apply IH; auto.
Qed.
Lemma finish_cell_ok : forall tb t fg bg bleed stack, fine tb -> Forall fine stack -> fine_o fg -> fine_o bg ->
  exists f b, finish_cell tb (t, fg, bg, bleed) stack = Ok ((rstrip_by is_nl t, Some f, b), endswith [NL] t) /\ fine f /\ fine_o b.
Proof.
  intros tb t fg bg bleed stack Ht Hs Hf Hb. unfold finish_cell.
  set (fg0 := match fg with Some f => Some f | None => Some WHITE end).
  assert (H0 : fine_o fg0 /\ fg0 <> None).
  { unfold fg0. destruct fg as [f|]; split; auto; try discriminate. intros c E. injection E as <-. apply fine_WHITE. }
  destruct H0 as [H0 H0n].
  destruct (blend_stack_ok stack bg bg fg0 bleed Hs Hb H0) as [bl [fg1 [-> [Hbl [Hfg Hn]]]]]. cbn [bindr].
  specialize (Hn H0n).
  assert (E1 : exists b, (if bg_has_alpha bl then get_blended (Some tb) bl None (flit 1 10) else Ok bl) = Ok b /\ fine_o b).
  { destruct (bg_has_alpha bl); eauto.
    destruct (get_blended_ok (Some tb) bl None (flit 1 10)) as [r [-> [Hr _]]]; eauto.
    - intros c E. now injection E as <-.
    - apply tenth_small. }
  destruct E1 as [b [-> Hb']]. cbn [bindr].
  assert (E2 : exists f, (if bg_has_alpha fg1 then get_blended fg1 b None fzero else Ok fg1) = Ok (Some f) /\ fine f).
  { destruct fg1 as [f1|]; [|congruence]. destruct (bg_has_alpha (Some f1)).
    - destruct (get_blended_ok (Some f1) b None fzero) as [r [-> [Hr Hrn]]]; auto.
      + apply zero_small.
      + destruct r as [r|]; [eauto|]. destruct (proj1 Hrn eq_refl). discriminate.
    - eauto. }
  destruct E2 as [f [-> Hf']]. cbn [bindr]. eauto.
Qed.

(** * The state of a cell stays usable *)
Definition wfine (st : cstate) : Prop :=
  Forall fine (snd st) /\ match fst st with Some (_, fg, bg, _) => fine_o fg /\ fine_o bg | None => True end.
Lemma cstep_fine : forall st i, wfine st -> fine_span (snd i) -> wfine (cstep st i).
Proof.
  intros [old st] [ch s] [H1 H2] Hs. cbn [fst snd] in *.
  assert (Hfg : fine_o (s_fg s)) by (intros c E; apply Hs; auto).
  assert (Hbg : fine_o (s_bg s)) by (intros c E; apply Hs; auto).
  unfold cstep, over. cbn [fst snd].
  assert (H0 : wfine (Some (ch, s_fg s, s_bg s, false), st ++ opt_list None)).
  { split; cbn; auto. now rewrite app_nil_r. }
  destruct old as [[[[oc ofg] obg] ob]|]; auto. destruct (s_bg s) as [b|] eqn:Eb; auto.
  destruct (alpha_not_one b); auto. destruct H2 as [H2 H3]. split; cbn [fst snd opt_list].
  - apply Forall_app. split; auto.
  - split; auto. destruct (_ && _); auto.
Qed.
Lemma fold_cstep_fine : forall items st, wfine st -> Forall (fun i => fine_span (snd i)) items -> wfine (fold_left cstep items st).
Proof. induction items as [|i items IH]; intros st H Hi; cbn; auto. inversion Hi; subst. apply IH; auto. now apply cstep_fine. Qed.

Lemma pieces_span : forall e line ch s, In (ch, s) (pieces e line) -> In s line /\ In ch (get_characters e s true true).
Proof.
  intros e line ch s H. apply in_flat_map in H. destruct H as [t [Ht H]]. apply in_map_iff in H.
  destruct H as [c [E H]]. injection E as <- <-. auto.
Qed.
Lemma in_number : forall A w h p (l : list A) q a, In (q, a) (number w h p l) -> In a l.
Proof.
  intros A w h p l. revert p. induction l as [|b l IH]; cbn; intros p q a H; [tauto|].
  destruct (p <? w * h); [|contradiction]. destruct H as [H|H]; [injection H as _ ->; auto|eauto].
Qed.
Lemma in_laid : forall e w h data q ch s, In (q, (ch, s)) (laid_all e w h data) ->
  exists entry, In entry data /\ In s (snd entry) /\ In ch (get_characters e s true true).
Proof.
  intros e w h data q ch s H. apply in_flat_map in H. destruct H as [[[x y] line] [Hd H]].
  unfold laid in H. destruct (_ && _); [|contradiction]. apply in_number, pieces_span in H.
  exists ((x, y), line). tauto.
Qed.
Lemma in_covering : forall A q (items : list (pos * A)) a, In a (covering q items) <-> In (q, a) items.
Proof.
  intros. unfold covering. rewrite in_map_iff. split.
  - intros [[q' b] [<- H]]. apply filter_In in H. destruct H as [H E]. cbn in *. apply pos_eqb_iff in E. now subst.
  - intro H. exists (q, a). split; auto. apply filter_In. split; auto. apply pos_eqb_refl.
Qed.
Lemma outcome_ok : forall e w h tb data q, fine tb -> fine_data data ->
  outcome tb (laid_all e w h data) q = None /\ covering q (laid_all e w h data) = [] \/
  covering q (laid_all e w h data) <> [] /\
  exists t f b nl, outcome tb (laid_all e w h data) q = Some (Ok ((t, Some f, b), nl)) /\ fine f /\ fine_o b.
Proof.
  intros e w h tb data q Ht Hd. unfold outcome.
  set (items := laid_all e w h data).
  assert (Hf : Forall (fun i => fine_span (snd i)) (covering q items)).
  { apply Forall_forall. intros [ch s] Hi. apply in_covering in Hi. apply in_laid in Hi.
    destruct Hi as [entry [H1 [H2 _]]]. unfold fine_data in Hd. rewrite Forall_forall in Hd.
    specialize (Hd entry H1). rewrite Forall_forall in Hd. now apply Hd. }
  pose proof (fold_cstep_fine (covering q items) (None, []) ltac:(split; cbn; auto) Hf) as [G1 G2].
  destruct (covering q items) as [|i l] eqn:El.
  - left. auto.
  - right. split; [discriminate|].
    assert (Hsome : exists c st, fold_left cstep (i :: l) (None, []) = (Some c, st)).
    { clear. cbn [fold_left].
      assert (H : forall l st, (exists c, fst st = Some c) -> exists c, fst (fold_left cstep l st) = Some c).
      { clear. induction l as [|j l IH]; intros st H; cbn; auto. apply IH. unfold cstep. destruct (over _ _ _). cbn. eauto. }
      destruct (H l (cstep (None, []) i)) as [c Hc].
      { unfold cstep. destruct (over _ _ _). cbn. eauto. }
      destruct (fold_left cstep l (cstep (None, []) i)) as [c' st] eqn:E. cbn in Hc. subst c'. eauto. }
    destruct Hsome as [c [st E]]. rewrite E in *. cbn [fst snd] in *. destruct c as [[[t fg] bg] bleed]. destruct G2.
    destruct (finish_cell_ok tb t fg bg bleed st) as [f [b [-> [Hf' Hb']]]]; auto. eauto 10.
Qed.
