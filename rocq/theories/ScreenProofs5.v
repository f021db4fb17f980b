(** The screen properties: layout, counts, repetition, last writer. *)
From Coq Require Import ZArith Reals List Bool String Lia.
From Flocq Require Import Core IEEE754.BinarySingleNaN.
From Verif Require Import PyBase PyLemmas F64 FloatLemmas SpaceModel ColorModel ColorSpec ColorProofs ColorProofs2 BlendProofs
  SpanModel SpanSpec SpanProofs2 GroupProofs ParseProofs ScreenModel ScreenSpec ScreenProofs ScreenProofs2 ScreenProofs3 ScreenProofs4.
Import ListNotations.
Open Scope Z_scope.

Lemma drawn_text : forall (l t : str),
  match l with [] => t | _ => csi_m l ++ t ++ RESET end =
  if str_eqb l [] then t else [27; 91] ++ l ++ [109] ++ t ++ [27; 91; 48; 109].
Proof. intros [|z l] t; cbn [str_eqb]; auto. unfold csi_m. change RESET with [27; 91; 48; 109]. rewrite <- !app_assoc. reflexivity. Qed.
Lemma drawn_entry : forall e c, cell_entry e c false = drawn e c.
Proof.
  intros e [[t fg] bg]. unfold cell_entry, drawn. rewrite app_nil_r, drawn_text.
  destruct fg as [f|], bg as [b|]; reflexivity.
Qed.

Lemma number_nth : forall A w h p (l : list A) k, p + Z.of_nat k < w * h ->
  nth_error (number w h p l) k = option_map (fun a => (((p + Z.of_nat k) mod w, (p + Z.of_nat k) / w), a)) (nth_error l k).
Proof.
  intros A w h p l. revert p. induction l as [|a l IH]; intros p k H; cbn [number].
  - now destruct k.
  - rewrite (proj2 (Z.ltb_lt p (w * h))) by lia. destruct k as [|k]; cbn [nth_error option_map].
    + rewrite Z.add_0_r. auto.
    + rewrite IH by lia. replace (p + 1 + Z.of_nat k) with (p + Z.of_nat (S k)) by lia. auto.
Qed.
Lemma number_nth_inv : forall A w h p (l : list A) k i, nth_error (number w h p l) k = Some i -> p + Z.of_nat k < w * h.
Proof.
  intros A w h p l. revert p. induction l as [|a l IH]; intros p k i H; cbn [number] in H.
  - now destruct k.
  - destruct (p <? w * h) eqn:E; [|now destruct k]. apply Z.ltb_lt in E. destruct k as [|k]; [lia|].
    cbn in H. apply IH in H. lia.
Qed.
Lemma cell_number_inj : forall w p p', 0 < w -> p mod w = p' mod w -> p / w = p' / w -> p = p'.
Proof. intros w p p' Hw H1 H2. rewrite (Z.div_mod p w), (Z.div_mod p' w) by lia. now rewrite H1, H2. Qed.
Lemma number_NoDup : forall A w h p (l : list A), 0 < w -> NoDup (map fst (number w h p l)).
Proof.
  intros A w h p l Hw. apply NoDup_nth_error. intros i j Hi E. rewrite !nth_error_map in E.
  assert (Hi' : (i < List.length (number w h p l))%nat) by now rewrite map_length in Hi.
  destruct (nth_error (number w h p l) i) as [a|] eqn:Ea; [|apply nth_error_None in Ea; lia].
  destruct (nth_error (number w h p l) j) as [b|] eqn:Eb; [|discriminate].
  pose proof (number_nth_inv _ _ _ _ _ _ _ Ea) as Ha. pose proof (number_nth_inv _ _ _ _ _ _ _ Eb) as Hb.
  rewrite number_nth in Ea, Eb by auto.
  destruct (nth_error l i); [|discriminate]. destruct (nth_error l j); [|discriminate].
  injection Ea as <-. injection Eb as <-. cbn in E. injection E as E1 E2.
  apply (cell_number_inj w) in E2; auto. lia.
Qed.
Lemma covering_one : forall A q (a : A) items, NoDup (map fst items) -> In (q, a) items -> covering q items = [a].
Proof.
  intros A q a items. induction items as [|[q' b] items IH]; intros Hn H; [contradiction|].
  cbn in Hn. inversion Hn as [|? ? Hni Hn']; subst. unfold covering. cbn [filter fst].
  assert (Hother : ~ In q (map fst items) -> covering q items = []).
  { intro G. destruct (covering q items) as [|c l] eqn:E; auto. exfalso. apply G.
    assert (Hc : In c (covering q items)) by (rewrite E; now left). apply in_covering in Hc.
    apply in_map_iff. now exists (q, c). }
  destruct H as [H|H].
  - injection H as -> ->. rewrite pos_eqb_refl. cbn [map snd]. fold (covering q items). now rewrite Hother.
  - destruct (pos_eqb q' q) eqn:E.
    + apply pos_eqb_iff in E. subst q'. exfalso. apply Hni. apply in_map_iff. now exists (q, a).
    + fold (covering q items). auto.
Qed.
Lemma covering_none : forall A q (items : list (pos * A)), (forall a, ~ In (q, a) items) -> covering q items = [].
Proof.
  intros A q items H. destruct (covering q items) as [|c l] eqn:E; auto. exfalso. apply (H c).
  apply in_covering. rewrite E. now left.
Qed.
Lemma covering_app : forall A q (a b : list (pos * A)), covering q (a ++ b) = covering q a ++ covering q b.
Proof. intros. unfold covering. now rewrite filter_app, map_app. Qed.

(** * Layout *)
Lemma layout : forall e c s x y line tb force, cache_ok e c -> shaped s -> calm_write s [((x, y), line)] ->
  fine tb -> Forall fine_span line -> Forall opaque_span line -> 0 <= x < sc_w s -> 0 <= y < sc_h s ->
  exists s' c' n, write e c s line (Some (x, y)) tb force = (s', c', Ok n) /\
    let w := sc_w s in let p := y * w + x in
    (forall k ch sp, 0 <= k -> p + k < w * sc_h s -> nth_error (pieces e line) (Z.to_nat k) = Some (ch, sp) ->
       exists new, cell_at s' ((p + k) mod w, (p + k) / w) = Some new /\ same_cell new (plain_cell (ch, sp))) /\
    (forall q, (forall k, 0 <= k < zlen (pieces e line) -> q <> ((p + k) mod w, (p + k) / w)) -> cell_at s' q = cell_at s q).
Proof.
  intros e c s x y line tb force Hc Hs Hd Ht Hf Ho Hx Hy.
  destruct (write_bulk_effect e c s [((x, y), line)] tb force Hc Hs Hd Ht) as [s' [c' [n [E [Hc' W]]]]].
  { constructor; auto. }
  exists s', c', n. split; [exact E|]. cbv zeta. set (w := sc_w s) in *. set (p := y * w + x) in *.
  assert (Hit : laid_all e w (sc_h s) [((x, y), line)] = number w (sc_h s) p (pieces e line)).
  { unfold laid_all, laid. cbn [flat_map]. rewrite app_nil_r.
    rewrite (proj2 (Z.leb_le 0 x)), (proj2 (Z.leb_le 0 y)), (proj2 (Z.ltb_lt x w)), (proj2 (Z.ltb_lt y (sc_h s))) by lia.
    reflexivity. }
  assert (Hout : forall q, outcome tb (laid_all e w (sc_h s) [((x, y), line)]) q =
     match rev (covering q (laid_all e w (sc_h s) [((x, y), line)])) with [] => None | i :: _ => Some (Ok (plain_cell i, false)) end).
  { intro q. apply outcome_opaque; [apply Hd|]. constructor; auto. }
  assert (Hp : 0 <= p) by (unfold p; nia).
  split.
  - intros k ch sp Hk Hlt Hn.
    set (q := ((p + k) mod w, (p + k) / w)).
    assert (Hin : In (q, (ch, sp)) (number w (sc_h s) p (pieces e line))).
    { apply (nth_error_In _ (Z.to_nat k)). rewrite number_nth by lia. rewrite Hn. cbn [option_map].
      rewrite Z2Nat.id by lia. reflexivity. }
    assert (Hq : on_screen w (sc_h s) q) by (apply (number_inside _ _ _ p (pieces e line) q (ch, sp)); auto; lia).
    destruct (cell_at_some s q Hs Hq) as [old Eold].
    pose proof (we_cell _ _ _ _ _ _ W q old Hq Eold) as G. fold w in G. rewrite Hout, Hit in G.
    rewrite (covering_one _ q (ch, sp)) in G; auto; [|apply number_NoDup; lia]. cbn [rev app okf] in G.
    destruct (cell_eqb (plain_cell (ch, sp)) old) eqn:Eq.
    + apply same_cell_iff in Eq. exists old. split; [now apply G|now apply same_cell_sym].
    + assert (Hne : ~ same_cell (plain_cell (ch, sp)) old) by (intro Hsame; apply same_cell_iff in Hsame; congruence).
      eexists. split; [now apply G|]. apply same_cell_iff.
      assert (Hsp : In sp line). { apply nth_error_In in Hn. apply pieces_span in Hn. tauto. }
      rewrite Forall_forall in Hf. specialize (Hf sp Hsp).
      apply same_cell_iff. unfold plain_cell, same_cell. split; auto. split.
      * change (eq_color (Some match s_fg sp with Some c0 => c0 | None => WHITE end) (Some match s_fg sp with Some c0 => c0 | None => WHITE end)).
        apply fine_eq_color. intros d Ed. injection Ed as <-. destruct (s_fg sp) eqn:Efg; [apply Hf; auto|apply fine_WHITE].
      * apply fine_eq_color. intros d Ed. apply Hf. auto.
  - intros q Hq. destruct (we_size _ _ _ _ _ _ W) as [Hw [Hh _]].
    destruct ((0 <=? fst q) && (fst q <? w) && (0 <=? snd q) && (snd q <? sc_h s)) eqn:Eb.
    + rewrite !andb_true_iff, !Z.leb_le, !Z.ltb_lt in Eb.
      assert (Hon : on_screen w (sc_h s) q) by (unfold on_screen; lia).
      destruct (cell_at_some s q Hs Hon) as [old Eold].
      pose proof (we_cell _ _ _ _ _ _ W q old Hon Eold) as G. fold w in G. rewrite Hout, Hit in G.
      rewrite covering_none in G; [cbn in G; rewrite Eold; tauto|].
      intros a Ha. apply In_nth_error in Ha. destruct Ha as [k Hk]. pose proof (number_nth_inv _ _ _ _ _ _ _ Hk) as Hlt.
      rewrite number_nth in Hk by auto. destruct (nth_error (pieces e line) k) eqn:Ek; [|discriminate].
      injection Hk as Hk _. apply (Hq (Z.of_nat k)); auto.
      assert (k < List.length (pieces e line))%nat by (apply nth_error_Some; congruence). unfold zlen. lia.
    + assert (Hoff : ~ on_screen w (sc_h s) q).
      { intros [H1 H2]. rewrite !andb_false_iff, !Z.leb_gt, !Z.ltb_ge in Eb. lia. }
      rewrite !cell_at_off; auto; [apply W|now rewrite Hw, Hh].
Qed.

(** outside the columns or above the first row nothing is written *)
Lemma layout_outside : forall e c s x y line tb force, cache_ok e c -> shaped s -> calm_write s [((x, y), line)] ->
  fine tb -> Forall fine_span line -> (x < 0 \/ sc_w s <= x \/ y < 0) ->
  exists c', write e c s line (Some (x, y)) tb force = (s, c', Ok 0).
Proof.
  intros e c s x y line tb force Hc Hs Hd Ht Hf Hx.
  destruct (write_bulk_effect e c s [((x, y), line)] tb force Hc Hs Hd Ht) as [s' [c' [n [E [Hc' W]]]]].
  { constructor; auto. }
  assert (Hn : n = 0).
  { destruct (we_count _ _ _ _ _ _ W) as [l [Hnd [Hl <-]]]. destruct l as [|q l]; auto. exfalso.
    destruct (proj1 (Hl q) (or_introl eq_refl)) as [_ [old [new [nl [_ [Ho _]]]]]].
    replace (laid_all e (sc_w s) (sc_h s) [((x, y), line)]) with (@nil (pos * (str * span))) in Ho; [discriminate|].
    unfold laid_all, laid. cbn [flat_map]. rewrite app_nil_r.
    destruct ((0 <=? x) && (x <? sc_w s) && (0 <=? y) && (y <? sc_h s)) eqn:Eb; auto.
    rewrite !andb_true_iff, !Z.leb_le, !Z.ltb_lt in Eb. lia. }
  exists c'. transitivity (s', c', Ok n : res Z); [exact E|]. subst n. now rewrite (we_none _ _ _ _ _ _ W eq_refl).
Qed.

(** * Counting *)
Lemma outcome_refl : forall e w h tb data q new nl, fine tb -> fine_data data ->
  okf (outcome tb (laid_all e w h data) q) = Some (new, nl) -> same_cell new new.
Proof.
  intros e w h tb data q new nl Ht Hf H.
  destruct (outcome_ok e w h tb data q Ht Hf) as [[E _]|[_ [t [f [b [nl' [E [H1 H2]]]]]]]]; rewrite E in H; [discriminate|].
  cbn in H. injection H as <- <-. split; auto. split; apply fine_eq_color; auto. intros c Ec. now injection Ec as <-.
Qed.
Lemma outcome_nl : forall e w h tb data q new nl, Forall (calm_entry w h) data ->
  okf (outcome tb (laid_all e w h data) q) = Some (new, nl) -> nl = false.
Proof.
  intros e w h tb data q [[t f] b] nl Hd H. destruct (outcome tb _ q) as [[r|]|] eqn:E; try discriminate.
  cbn in H. injection H as ->. eapply outcome_text; eauto.
Qed.

Lemma write_counts : forall e c s data tb force, cache_ok e c -> shaped s -> calm_write s data -> fine tb -> fine_data data ->
  exists s' c' n, write_bulk e c s data tb force = (s', c', Ok n) /\
    counts (fun q => cell_at s' q <> cell_at s q) n /\
    (forall q, cell_at s' q = cell_at s q -> pending s' q = pending s q) /\
    (forall q, cell_at s' q <> cell_at s q ->
       exists old new, cell_at s q = Some old /\ cell_at s' q = Some new /\ ~ same_cell new old /\
         pending s' q = Some (drawn e new)).
Proof.
  intros e c s data tb force Hc Hs Hd Ht Hf.
  destruct (write_bulk_effect e c s data tb force Hc Hs Hd Ht Hf) as [s' [c' [n [E [Hc' W]]]]].
  exists s', c', n. split; auto.
  set (w := sc_w s) in *. set (h := sc_h s) in *. destruct (we_size _ _ _ _ _ _ W) as [Hw [Hh _]].
  assert (Hon : forall q, on_screen w h q \/ ~ on_screen w h q) by (intro q; unfold on_screen; lia).
  assert (Hchg : forall q, cell_at s' q <> cell_at s q -> on_screen w h q /\ exists old new, cell_at s q = Some old /\
     okf (outcome tb (laid_all e w h data) q) = Some (new, false) /\ ~ same_cell new old /\ cell_at s' q = Some new /\
     pending s' q = Some (drawn e new)).
  { intros q Hq. destruct (Hon q) as [H1|H1].
    2: { exfalso. apply Hq. rewrite !cell_at_off; auto; [apply W|]. now rewrite Hw, Hh. }
    split; auto. destruct (cell_at_some s q Hs H1) as [old Eold].
    pose proof (we_cell _ _ _ _ _ _ W q old H1 Eold) as G. fold w h in G.
    destruct (okf (outcome tb (laid_all e w h data) q)) as [[new nl]|] eqn:Eo.
    2: { exfalso. apply Hq. rewrite Eold. tauto. }
    destruct (cell_eqb new old) eqn:Eq.
    { apply same_cell_iff in Eq. exfalso. apply Hq. rewrite Eold. now apply G. }
    assert (Hne : ~ same_cell new old) by (intro Hsame; apply same_cell_iff in Hsame; congruence).
    assert (nl = false) by exact (outcome_nl e w h tb data q new nl (proj2 Hd) Eo). subst nl.
    exists old, new. destruct (proj2 G Hne). rewrite <- drawn_entry. repeat match goal with |- _ /\ _ => split end; auto. }
  split; [|split].
  - destruct (we_count _ _ _ _ _ _ W) as [l [Hnd [Hl Hlen]]]. exists l. split; auto. split; auto.
    intro q. rewrite Hl. fold w h. split.
    + intros [H1 [old [new [nl [E1 [E2 E3]]]]]].
      pose proof (we_cell _ _ _ _ _ _ W q old H1 E1) as G. fold w h in G. rewrite E2 in G.
      destruct (proj2 G E3) as [G1 _]. rewrite G1, E1. intro Heq. injection Heq as <-. apply E3.
      eapply outcome_refl; eauto.
    + intro Hq. destruct (Hchg q Hq) as [H1 [old [new [E1 [E2 [E3 _]]]]]]. split; auto. exists old, new, false. auto.
  - intros q Hq. destruct (Hon q) as [H1|H1]; [|now apply W].
    destruct (cell_at_some s q Hs H1) as [old Eold].
    pose proof (we_cell _ _ _ _ _ _ W q old H1 Eold) as G. fold w h in G.
    destruct (okf (outcome tb (laid_all e w h data) q)) as [[new nl]|] eqn:Eo; [|tauto].
    destruct (cell_eqb new old) eqn:Eq; [apply same_cell_iff in Eq; now apply G|].
    assert (Hne : ~ same_cell new old) by (intro Hsame; apply same_cell_iff in Hsame; congruence).
    exfalso. destruct (proj2 G Hne) as [G1 _]. rewrite G1, Eold in Hq. injection Hq as <-.
    apply Hne. eapply outcome_refl; eauto.
  - intros q Hq. destruct (Hchg q Hq) as [_ [old [new [E1 [_ [E2 [E3 E4]]]]]]]. eauto 10.
Qed.

(** * Repeating *)
Lemma write_twice : forall e c s data tb force, cache_ok e c -> shaped s -> calm_write s data -> fine tb -> fine_data data ->
  exists s' c' n c'', write_bulk e c s data tb force = (s', c', Ok n) /\
    forall force', write_bulk e c' s' data tb force' = (s', c'', Ok 0).
Proof.
  intros e c s data tb force Hc Hs Hd Ht Hf.
  destruct (write_bulk_effect e c s data tb force Hc Hs Hd Ht Hf) as [s' [c' [n [E [Hc' W]]]]].
  destruct (we_size _ _ _ _ _ _ W) as [Hw [Hh [_ Ho]]].
  assert (Hd' : calm_write s' data). { destruct Hd as [_ Hd]. split; auto. now rewrite Hw, Hh. }
  destruct (write_bulk_effect e c' s' data tb force Hc' (we_shaped _ _ _ _ _ _ W) Hd' Ht Hf) as [s2 [c2 [n2 [E2 [Hc2 W2]]]]].
  assert (Hn : n2 = 0).
  { destruct (we_count _ _ _ _ _ _ W2) as [l [Hnd [Hl <-]]]. destruct l as [|q l]; auto. exfalso.
    destruct (proj1 (Hl q) (or_introl eq_refl)) as [Hq [old' [new [nl [E3 [E4 E5]]]]]].
    rewrite Hw, Hh in *. destruct (cell_at_some s q Hs Hq) as [old Eold].
    pose proof (we_cell _ _ _ _ _ _ W q old Hq Eold) as G. rewrite E4 in G.
    destruct (cell_eqb new old) eqn:Eq.
    - apply same_cell_iff in Eq. destruct (proj1 G Eq) as [G1 _]. rewrite G1 in E3. injection E3 as <-. auto.
    - assert (Hne : ~ same_cell new old) by (intro Hsame; apply same_cell_iff in Hsame; congruence).
      destruct (proj2 G Hne) as [G1 _]. rewrite G1 in E3. injection E3 as <-. apply E5. eapply outcome_refl; eauto. }
  exists s', c', n, c2. split; auto. intro force'.
  assert (Ef : forall f f', write_bulk e c' s' data tb f = write_bulk e c' s' data tb f') by reflexivity.
  rewrite (Ef force' force), E2. subst n2. now rewrite (we_none _ _ _ _ _ _ W2 eq_refl).
Qed.

(** * The last writer *)
Lemma topmost_covering : forall A q (items : list (pos * A)) a, topmost q items a -> exists l, rev (covering q items) = a :: l.
Proof.
  intros A q items a [l [r [-> Hr]]]. rewrite covering_app. unfold covering at 2. cbn [filter fst]. rewrite pos_eqb_refl.
  cbn [map snd]. fold (covering q r). rewrite (covering_none _ q r).
  - rewrite rev_app_distr. cbn. eauto.
  - intros b Hb. apply Hr. apply in_map_iff. now exists (q, b).
Qed.
Lemma covering_topmost : forall A q (items : list (pos * A)) a l, rev (covering q items) = a :: l -> topmost q items a.
Proof.
  intros A q items. induction items as [|[q' b] items IH]; intros a l H; [discriminate|].
  unfold covering in H. cbn [filter fst] in H.
  destruct (rev (covering q items)) as [|a' l'] eqn:E.
  - destruct (pos_eqb q' q) eqn:Eq; cbn [map rev snd] in H; fold (covering q items) in H; rewrite E in H; [|discriminate].
    cbn in H. injection H as <- _. apply pos_eqb_iff in Eq. subst q'. exists [], items. split; auto.
    intro Hi. apply in_map_iff in Hi. destruct Hi as [[q' c] [Eq Hi]]. cbn in Eq. subst q'.
    apply in_covering in Hi. apply in_rev in Hi. now rewrite E in Hi.
  - assert (Ha : a = a').
    { destruct (pos_eqb q' q); cbn [map rev snd] in H; fold (covering q items) in H; rewrite E in H; cbn in H; congruence. }
    subst a'. destruct (IH a l' eq_refl) as [l1 [r1 [-> Hr]]]. exists ((q', b) :: l1), r1. auto.
Qed.

(** the cell after opaque writes, up to == *)
Definition settled (s s' : screen) (q : pos) (items : list (pos * (str * span))) : Prop :=
  exists new, cell_at s' q = Some new /\
  match rev (covering q items) with
  | [] => cell_at s q = Some new
  | i :: _ => same_cell new (plain_cell i)
  end.
Lemma plain_refl : forall ch sp, fine_span sp -> same_cell (plain_cell (ch, sp)) (plain_cell (ch, sp)).
Proof.
  intros ch sp Hf. unfold plain_cell, same_cell. split; auto. split.
  - change (eq_color (Some match s_fg sp with Some c0 => c0 | None => WHITE end) (Some match s_fg sp with Some c0 => c0 | None => WHITE end)).
    apply fine_eq_color. intros d Ed. injection Ed as <-. destruct (s_fg sp) eqn:Efg; [apply Hf; auto|apply fine_WHITE].
  - apply fine_eq_color. intros d Ed. apply Hf. auto.
Qed.
Lemma covering_fine : forall e w h data q i, fine_data data -> In i (covering q (laid_all e w h data)) -> fine_span (snd i).
Proof.
  intros e w h data q [ch s] Hd Hi. apply in_covering, in_laid in Hi. destruct Hi as [entry [H1 [H2 _]]].
  unfold fine_data in Hd. rewrite Forall_forall in Hd. specialize (Hd _ H1). rewrite Forall_forall in Hd. now apply Hd.
Qed.
Lemma bulk_settled : forall e c s data tb force, cache_ok e c -> shaped s -> calm_write s data -> fine tb -> fine_data data ->
  opaque_data data ->
  exists s' c' n, write_bulk e c s data tb force = (s', c', Ok n) /\ cache_ok e c' /\ shaped s' /\
    sc_w s' = sc_w s /\ sc_h s' = sc_h s /\ sc_off s' = 0 /\
    forall q, on_screen (sc_w s) (sc_h s) q -> settled s s' q (laid_all e (sc_w s) (sc_h s) data).
Proof.
  intros e c s data tb force Hc Hs Hd Ht Hf Ho.
  destruct (write_bulk_effect e c s data tb force Hc Hs Hd Ht Hf) as [s' [c' [n [E [Hc' W]]]]].
  destruct (we_size _ _ _ _ _ _ W) as [Hw [Hh [_ Hoff]]].
  exists s', c', n. repeat match goal with |- _ /\ _ => split end; auto; [apply W|].
  intros q Hq. destruct (cell_at_some s q Hs Hq) as [old Eold].
  pose proof (we_cell _ _ _ _ _ _ W q old Hq Eold) as G. rewrite outcome_opaque in G by (auto; apply Hd).
  unfold settled. destruct (rev (covering q (laid_all e (sc_w s) (sc_h s) data))) as [|[ch sp] l] eqn:Er; cbn [okf] in G.
  - exists old. tauto.
  - destruct (cell_eqb (plain_cell (ch, sp)) old) eqn:Eq.
    + apply same_cell_iff in Eq. exists old. split; [now apply G|]. now apply same_cell_sym.
    + eexists. split; [apply G; intro Hsame; apply same_cell_iff in Hsame; congruence|].
      apply plain_refl. apply (covering_fine e (sc_w s) (sc_h s) data q (ch, sp)); auto. apply in_rev. rewrite Er. now left.
Qed.

Lemma each_settled : forall e tb data c s, cache_ok e c -> shaped s -> calm_write s data -> fine tb -> fine_data data ->
  opaque_data data ->
  let s' := fst (each e c s data tb) in shaped s' /\ sc_w s' = sc_w s /\ sc_h s' = sc_h s /\
    forall q, on_screen (sc_w s) (sc_h s) q -> settled s s' q (laid_all e (sc_w s) (sc_h s) data).
Proof.
  intros e tb data. induction data as [|entry data IH]; intros c s Hc Hs [Hoff Hd] Ht Hf Ho; cbv zeta.
  - cbn [each fst]. split; auto. split; auto. split; auto. intros q Hq.
    destruct (cell_at_some s q Hs Hq) as [old Eold]. exists old. split; auto.
  - cbn [each]. inversion Hd; subst. inversion Hf; subst. inversion Ho; subst.
    destruct (bulk_settled e c s [entry] tb false Hc Hs) as [s1 [c1 [n [-> [Hc1 [Hs1 [Hw [Hh [Hoff1 G]]]]]]]]]; auto.
    { split; auto. } { constructor; auto. } { constructor; auto. }
    destruct (IH c1 s1 Hc1 Hs1) as [H1' [Hw' [Hh' G']]]; auto.
    { split; auto. now rewrite Hw, Hh. }
    cbv zeta in *. rewrite Hw, Hh in *. split; auto. split; [congruence|]. split; [congruence|].
    intros q Hq. destruct (G q Hq) as [n1 [E1 G1]]. destruct (G' q Hq) as [n2 [E2 G2]]. exists n2. split; auto.
    change (laid_all e (sc_w s) (sc_h s) (entry :: data)) with (laid e (sc_w s) (sc_h s) entry ++ laid_all e (sc_w s) (sc_h s) data).
    rewrite covering_app, rev_app_distr.
    assert (El : laid_all e (sc_w s) (sc_h s) [entry] = laid e (sc_w s) (sc_h s) entry).
    { unfold laid_all. cbn [flat_map]. apply app_nil_r. }
    rewrite El in G1.
    destruct (rev (covering q (laid_all e (sc_w s) (sc_h s) data))) as [|i l]; [|exact G2].
    cbn [app]. rewrite E1 in G2. injection G2 as <-. exact G1.
Qed.

Lemma last_writer : forall e c s data tb force, cache_ok e c -> shaped s -> calm_write s data -> fine tb -> fine_data data ->
  opaque_data data ->
  exists s' c' n, write_bulk e c s data tb force = (s', c', Ok n) /\
    (forall q, on_screen (sc_w s) (sc_h s) q ->
       (forall i, topmost q (laid_all e (sc_w s) (sc_h s) data) i -> exists new, cell_at s' q = Some new /\ same_cell new (plain_cell i)) /\
       ((forall i, ~ In (q, i) (laid_all e (sc_w s) (sc_h s) data)) -> cell_at s' q = cell_at s q) /\
       exists a b, cell_at s' q = Some a /\ cell_at (fst (each e c s data tb)) q = Some b /\ (a = b \/ same_cell a b)).
Proof.
  intros e c s data tb force Hc Hs Hd Ht Hf Ho.
  destruct (bulk_settled e c s data tb force Hc Hs Hd Ht Hf Ho) as [s' [c' [n [E [Hc' [Hs' [Hw [Hh [_ G]]]]]]]]].
  destruct (each_settled e tb data c s Hc Hs Hd Ht Hf Ho) as [_ [_ [_ G']]].
  exists s', c', n. split; auto. intros q Hq. destruct (G q Hq) as [n1 [E1 G1]]. destruct (G' q Hq) as [n2 [E2 G2]].
  split; [|split].
  - intros i Hi. destruct (topmost_covering _ _ _ _ Hi) as [l El]. unfold pos in *. rewrite El in G1. eauto.
  - intros Hi. rewrite covering_none in G1 by auto. cbn in G1. congruence.
  - exists n1, n2. split; auto. split; auto.
    destruct (rev (covering q (laid_all e (sc_w s) (sc_h s) data))) as [|i l]; [left; congruence|right].
    eapply same_cell_trans; eauto. now apply same_cell_sym.
Qed.
