(** What an SVG export shows (C122): whole screens. *)
From Coq Require Import ZArith Reals List Bool Lia String.
From Verif Require Import PyBase PyLemmas F64 SpaceModel SpaceSpec GreySpec ColorModel ColorSpec ColorProofs PaletteSpec PaletteProofs AnsiRe SpanModel Vt SpanSpec
  SpanProofs SpanProofs2 SpanProofs3 GroupProofs GroupSpec GroupProofs2 ScreenModel ScreenSpec DrawSpec DrawProofs DrawProofs2
  SvgSpec SvgProofs SvgDocSpec SvgGeoModel SvgGeoSpec SvgTextModel SvgTextSpec SvgTextProofs ViewSpec ViewProofs ViewProofs2.
From Verif Require DrawProofs3.
Import ListNotations.
Open Scope Z_scope.
Open Scope list_scope.

(** * Letters *)
Lemma letters_zlen : forall s, zlen (letters s) = zlen (s_text s).
Proof. intro s. unfold letters, zlen. now rewrite map_length. Qed.
Lemma letters_nth : forall s k c, nth_error (s_text s) k = Some c -> nth_error (letters s) k = Some (c, s_flags s, s_fg s, s_bg s).
Proof. intros s k c E. unfold letters. now apply (map_nth_error (fun c => (c, s_flags s, s_fg s, s_bg s))). Qed.
Definition all_letters (l : list piece) := flat_map letters (map p_span l).
Lemma all_letters_zlen : forall l, zlen (all_letters l) = characters_in l.
Proof.
  intro l. unfold all_letters. induction l as [|p l IH]; [reflexivity|]. cbn [map flat_map characters_in fold_right]. rewrite zlen_app, IH, letters_zlen. reflexivity.
Qed.
Lemma located : forall a p b k c, nth_error (s_text (p_span p)) k = Some c ->
  nth_error (all_letters (a ++ p :: b)) (Z.to_nat (characters_in a) + k) = Some (c, s_flags (p_span p), s_fg (p_span p), s_bg (p_span p)).
Proof.
  intros a p b k c E. unfold all_letters. rewrite map_app, flat_map_app. cbn [map flat_map]. change (flat_map letters (map p_span a)) with (all_letters a).
  rewrite <- all_letters_zlen. unfold zlen. rewrite Nat2Z.id.
  rewrite nth_error_app2 by lia. replace (List.length (all_letters a) + k - List.length (all_letters a))%nat with k by lia.
  apply letters_nth in E. rewrite nth_error_app1; [exact E|]. apply nth_error_Some. congruence.
Qed.
Lemma found : forall l i, (i < List.length (all_letters l))%nat -> exists a p b, l = a ++ p :: b /\ characters_in a <= Z.of_nat i < characters_in a + zlen (s_text (p_span p)).
Proof.
  intro l. induction l as [|p l IH]; intros i H; [cbn in H; lia|].
  pose proof (letters_zlen (p_span p)) as L. unfold all_letters in H. cbn [map flat_map] in H. rewrite app_length in H. change (flat_map letters (map p_span l)) with (all_letters l) in H.
  unfold zlen in L. destruct (Nat.ltb_spec i (List.length (letters (p_span p)))) as [C|C].
  - exists [], p, l. split; [reflexivity|]. cbn. unfold zlen. lia.
  - destruct (IH (i - List.length (letters (p_span p)))%nat) as [a [q [b [E R]]]]; [lia|].
    exists (p :: a), q, b. split; [now rewrite E|]. cbn [characters_in fold_right]. fold (characters_in a). unfold zlen in *. lia.
Qed.
Lemma of_row_split : forall y a p b, p_row p = y -> of_row y (a ++ p :: b) = of_row y a ++ p :: of_row y b.
Proof. intros y a p b E. unfold of_row. rewrite filter_app. cbn [filter]. now rewrite (proj2 (Z.eqb_eq _ _) E). Qed.
Lemma of_row_back : forall y l a p b, of_row y l = a ++ p :: b -> exists a' b', l = a' ++ p :: b' /\ of_row y a' = a /\ p_row p = y.
Proof.
  intros y l. induction l as [|q l IH]; intros a p b E; [destruct a; discriminate|]. unfold of_row in E. cbn [filter] in E. fold (of_row y l) in E.
  destruct (Z.eqb_spec (p_row q) y) as [Q|Q].
  - destruct a as [|a0 a].
    + cbn in E. injection E as -> E. exists [], l. auto.
    + cbn in E. injection E as -> E. destruct (IH a p b E) as [a' [b' [-> [E2 E3]]]]. exists (a0 :: a'), b'. split; [reflexivity|]. split; [|exact E3].
      unfold of_row. cbn [filter]. rewrite (proj2 (Z.eqb_eq _ _) Q). fold (of_row y a'). now rewrite E2.
  - destruct (IH a p b E) as [a' [b' [-> [E2 E3]]]]. exists (q :: a'), b'. split; [reflexivity|]. split; [|exact E3].
    unfold of_row. cbn [filter]. rewrite (proj2 (Z.eqb_neq _ _) Q). exact E2.
Qed.

(** * The export *)
Lemma rows_ok : forall e rows, Forall (fun row => exists gs, group e row = Ok gs) rows -> forall y i prev, exists l, svg_rows e rows y i prev = Ok l.
Proof.
  intros e rows H. induction H as [|row rows [gs E] H IH]; intros y i prev; cbn [svg_rows]; [eauto|].
  rewrite E. cbn [bindr]. destruct (svg_row gs 0 y i prev) as [[l i'] p']. destruct (IH (y + 1) i' p') as [r ->]. cbn [bindr]. eauto.
Qed.
Lemma told_row : forall e w h k P y, told e w h k P -> 0 <= y < h -> exists row scells,
  nth_error (sc_cells (fst (fst k))) (Z.to_nat y) = Some row /\ zlen row = Z.max 0 w /\ Forall2 stored scells row /\
  forall x d, 0 <= x < w -> nth_error scells (Z.to_nat x) = Some d -> stands d (P (x, y)).
Proof.
  intros e w h k P y T Hy. destruct T as [I1 I2 [I3 I3'] I4 I6 I9]. rewrite I1, I2 in *.
  destruct (nth_error (sc_cells (fst (fst k))) (Z.to_nat y)) as [row|] eqn:Er.
  2: { apply nth_error_None in Er. unfold zlen in I3. lia. }
  assert (L : zlen row = Z.max 0 w) by (rewrite Forall_forall in I3'; apply I3'; eapply nth_error_In; eauto).
  destruct (row_scells row (fun i => P (Z.of_nat i, y))) as [sc [S1 S2]].
  { intros i c Ec. assert (Hi : 0 <= Z.of_nat i < w).
    { assert (i < List.length row)%nat by (apply nth_error_Some; congruence). unfold zlen in L. lia. }
    destruct (I9 (Z.of_nat i, y)) as [c' [Ec' Tc]]; [split; cbn; lia|]. unfold cell_at, mget in Ec'. cbn [fst snd] in Ec'.
    rewrite (proj2 (Z.leb_le 0 (Z.of_nat i))), (proj2 (Z.leb_le 0 y)) in Ec' by lia. cbn [andb] in Ec'. rewrite Er, Nat2Z.id in Ec'. congruence. }
  exists row, sc. split; [reflexivity|]. split; [exact L|]. split; [exact S1|].
  intros x d Hx E. specialize (S2 _ _ E). rewrite Z2Nat.id in S2 by lia. exact S2.
Qed.
Lemma Forall2_nth_l : forall A B (R : A -> B -> Prop) l l' i a, Forall2 R l l' -> nth_error l i = Some a -> exists b, nth_error l' i = Some b /\ R a b.
Proof.
  intros A B R l l' i a H. revert i. induction H as [|x y l l' Hxy H IH]; intros [|i] E; try discriminate.
  - injection E as <-. exists y. auto.
  - exact (IH i E).
Qed.
Lemma Forall2_len : forall A B (R : A -> B -> Prop) l l', Forall2 R l l' -> List.length l = List.length l'.
Proof. intros A B R l l' H. induction H; cbn; auto. Qed.

Section Export.
Variables (e : env) (w h : Z) (k : world) (P : picture).
Hypothesis Hp : powers e.
Hypothesis Hw : 0 < w.
Hypothesis T : told e w h k P.
Lemma row_facts : forall y, 0 <= y < h -> exists row scells gs,
  nth_error (sc_cells (fst (fst k))) (Z.to_nat y) = Some row /\ group e row = Ok gs /\ zlen scells = w /\
  Forall2 carries (flat_map letters gs) (kept_row row_start scells) /\
  forall x d, 0 <= x < w -> nth_error scells (Z.to_nat x) = Some d -> stands d (P (x, y)).
Proof.
  intros y Hy. destruct (told_row e w h k P y T Hy) as [row [sc [R1 [R2 [R3 R4]]]]].
  assert (L : zlen sc = w).
  { apply Forall2_len in R3. unfold zlen in *.
    lia. }
  assert (OK : Forall (scell_fine e) sc).
  { apply Forall_forall. intros d Hd. apply In_nth_error in Hd. destruct Hd as [i Hi].
    assert (i < List.length sc)%nat by (apply nth_error_Some; congruence). apply (stands_ok e d (P (Z.of_nat i, y))); [exact Hp|].
    apply R4; [unfold zlen in L; lia|]. now rewrite Nat2Z.id. }
  destruct (group_kept e sc row R3 OK) as [gs [G1 [_ [_ [_ G5]]]]]; [intros ->; rewrite zlen_nil in L; lia|].
  exists row, sc, gs. auto.
Qed.
Lemma export_ok : exists l, export_svg e (fst (fst k)) = Ok l.
Proof.
  unfold export_svg. apply rows_ok. apply Forall_forall. intros row Hr. apply In_nth_error in Hr. destruct Hr as [i Hi].
  assert (i < List.length (sc_cells (fst (fst k))))%nat by (apply nth_error_Some; congruence).
  destruct (t_shaped _ _ _ _ _ T) as [S _]. rewrite (t_h _ _ _ _ _ T) in S. unfold zlen in S.
  destruct (row_facts (Z.of_nat i)) as [row' [sc [gs [R1 [R2 _]]]]]; [lia|]. rewrite Nat2Z.id in R1. exists gs. congruence.
Qed.
Variable l : list piece.
Hypothesis El : export_svg e (fst (fst k)) = Ok l.

Lemma cells_height : zlen (sc_cells (fst (fst k))) = Z.max 0 h.
Proof. destruct (t_shaped _ _ _ _ _ T) as [S _]. rewrite (t_h _ _ _ _ _ T) in S. exact S. Qed.
(** the letters of a row and the characters stored for it *)
Lemma row_letters : forall y, 0 <= y < h -> exists scells, zlen scells = w /\
  Forall2 carries (all_letters (of_row y l)) (kept_row row_start scells) /\
  forall x d, 0 <= x < w -> nth_error scells (Z.to_nat x) = Some d -> stands d (P (x, y)).
Proof.
  intros y Hy. destruct (row_facts y Hy) as [row [sc [gs [R1 [R2 [R3 [R4 R5]]]]]]].
  destruct (export_layout _ _ _ El) as [_ [L2 _]]. specialize (L2 y row R1 (proj1 Hy)). rewrite R2 in L2. injection L2 as L2.
  exists sc. split; [exact R3|]. split; [|exact R5]. unfold all_letters. rewrite <- L2. exact R4.
Qed.
Lemma row_width : forall y, 0 <= y < h -> characters_in (of_row y l) = w.
Proof.
  intros y Hy. destruct (row_letters y Hy) as [sc [L [F _]]]. rewrite <- all_letters_zlen. unfold zlen.
  rewrite (Forall2_len _ _ _ _ _ F), kept_length. exact L.
Qed.
Lemma some_piece : forall q, on_screen w h q -> exists p, In p l /\ extends p q.
Proof.
  intros [x y] [Hx Hy]. cbn [fst snd] in *. pose proof (row_width y Hy) as W. rewrite <- all_letters_zlen in W. unfold zlen in W.
  destruct (found (of_row y l) (Z.to_nat x)) as [a [p [b [E R]]]]; [lia|].
  destruct (of_row_back y l a p b E) as [a' [b' [E1 [E2 E3]]]]. exists p. split; [rewrite E1; apply in_or_app; right; now left|].
  destruct (export_layout _ _ _ El) as [_ [_ L3]]. split; cbn [fst snd]; [exact E3|].
  rewrite (L3 a' p b' E1), E3, E2. lia.
Qed.
(** the letter of a piece at a position is that of the cell *)
Lemma piece_letter : forall q p, on_screen w h q -> In p l -> extends p q ->
  exists c d d' scells, nth_error (s_text (p_span p)) (Z.to_nat (fst q - p_column p)) = Some c /\ stands d (P q) /\
    zlen scells = w /\ nth_error scells (Z.to_nat (fst q)) = Some d /\ nth_error (kept_row row_start scells) (Z.to_nat (fst q)) = Some d' /\
    (d' = unmark d \/ d' = colorless d) /\ carries (c, s_flags (p_span p), s_fg (p_span p), s_bg (p_span p)) d' /\
    forall x d, 0 <= x < w -> nth_error scells (Z.to_nat x) = Some d -> stands d (P (x, snd q)).
Proof.
  intros [x y] p [Hx Hy] Hin [E1 E2]. cbn [fst snd] in *.
  apply in_split in Hin. destruct Hin as [a [b E]]. destruct (export_layout _ _ _ El) as [_ [_ L3]].
  pose proof (L3 a p b E) as C. rewrite E1 in C.
  destruct (nth_error (s_text (p_span p)) (Z.to_nat (x - p_column p))) as [c|] eqn:Ec.
  2: { apply nth_error_None in Ec. unfold zlen in E2. lia. }
  destruct (row_letters y Hy) as [sc [L [F S]]].
  pose proof (located (of_row y a) p (of_row y b) _ _ Ec) as N. rewrite <- of_row_split, <- E, <- C in N by exact E1.
  assert (0 <= p_column p).
  { rewrite C, <- all_letters_zlen. apply zlen_nonneg. }
  replace (Z.to_nat (p_column p) + Z.to_nat (x - p_column p))%nat with (Z.to_nat x) in N by lia.
  destruct (Forall2_nth_l _ _ _ _ _ _ _ F N) as [d' [D1 D2]]. destruct (kept_nth _ _ _ _ D1) as [d [D3 D4]].
  exists c, d, d', sc. split; [reflexivity|]. split; [apply S; auto|]. auto 10.
Qed.
Lemma carried_flags : forall c f fg bg d d', carries (c, f, fg, bg) d' -> d' = unmark d \/ d' = colorless d -> c = cell_char d /\ clean f = own_flags d.
Proof. intros c f fg bg [[[[ch f0] fg0] bg0] rst] d' H [->| ->]; destruct H as [-> [-> _]]; split; auto. apply clean_clean. Qed.
Lemma spelled_all : pictured spelled w h l P.
Proof.
  intros q Hq. split; [now apply some_piece|]. intros p Hin Hex.
  destruct (piece_letter q p Hq Hin Hex) as [c [d [d' [sc [N [S [_ [_ [_ [D [C _]]]]]]]]]]].
  destruct (carried_flags _ _ _ _ _ _ C D) as [-> F]. pose proof (stands_char _ _ S) as G.
  destruct (P q) as [g r]. cbn [fst] in G. unfold spelled, glyph_at, declared, unbroken. rewrite (map_nth_error _ _ _ N), G.
  split; [reflexivity|]. rewrite bold_css, dim_css, italic_css, underline_css.
  destruct d as [[[[ch f] fg] bg] rst]. destruct S as [_ [_ [_ [_ [H6 _]]]]]. cbn [snd] in H6. subst r.
  unfold own_flags in F. cbn [cell_flags] in F. destruct (s_flags (p_span p)), f. cbn [clean set_flag] in F. injection F as -> -> -> -> -> -> -> -> ->. cbn.
  rewrite !orb_false_r. tauto.
Qed.
Lemma inked_piece : forall nums dfg dbg d v p, stands d v ->
  (forall c, carries (c, s_flags (p_span p), s_fg (p_span p), s_bg (p_span p)) (unmark d) -> inked nums dfg dbg p v).
Proof.
  intros nums dfg dbg [[[[ch f] fg] bg] rst] v p S c [_ [F [Cf Cb]]]. destruct S as [_ [_ [_ [_ [H6 _]]]]].
  unfold inked. cbv zeta. rewrite ink_is, paper_is, H6, F. cbn [styled r_inverse r_fg r_bg]. rewrite orb_false_r.
  replace (fl_invert (clean f)) with (fl_invert f) by (now destruct f). destruct (fl_invert f); split; apply hex_layer; tauto.
Qed.
Lemma gaps_faithful : forall y sc, gaps_end w h P -> 0 <= y < h -> zlen sc = w ->
  (forall x d, 0 <= x < w -> nth_error sc (Z.to_nat x) = Some d -> stands d (P (x, y))) -> faithful sc.
Proof.
  intros y sc G Hy L S a c mid d b E [Uc B] M Ec Ef Bd.
  assert (N : forall i x, nth_error sc i = Some x -> stands x (P (Z.of_nat i, y))).
  { intros i x Hi. apply S; [|now rewrite Nat2Z.id]. assert (i < List.length sc)%nat by (apply nth_error_Some; congruence). unfold zlen in L. lia. }
  assert (Nc : nth_error sc (List.length a) = Some c).
  { rewrite E, nth_error_app2 by lia. now rewrite Nat.sub_diag. }
  assert (Nd : nth_error sc (List.length a + Datatypes.S (List.length mid)) = Some d).
  { rewrite E, nth_error_app2 by lia. replace (List.length a + Datatypes.S (List.length mid) - List.length a)%nat with (Datatypes.S (List.length mid)) by lia.
    cbn [nth_error]. rewrite nth_error_app2 by lia. now rewrite Nat.sub_diag. }
  pose proof (N _ _ Nc) as Sc. pose proof (N _ _ Nd) as Sd. pose proof (stands_flags _ _ Sc Uc) as Fc.
  destruct (rev a) as [|p a'] eqn:Ra; [exfalso; apply B; unfold own_flags; rewrite Fc; reflexivity|]. assert (Ea : a = rev a' ++ [p]) by (rewrite <- (rev_involutive a), Ra; reflexivity).
  assert (La : List.length a = Datatypes.S (List.length (rev a'))) by (rewrite Ea, app_length; cbn; lia).
  assert (Np : nth_error sc (List.length (rev a')) = Some p).
  { rewrite E, Ea, <- app_assoc, nth_error_app2 by lia. now rewrite Nat.sub_diag. }
  pose proof (N _ _ Np) as Sp.
  apply (stands_uncolored _ _ Sd).
  assert (Ld : (List.length a + Datatypes.S (List.length mid) < List.length sc)%nat) by (apply nth_error_Some; congruence).
  apply (G y (Z.of_nat (List.length a))); auto.
  - lia.
  - unfold zlen in L. lia.
  - replace (Z.of_nat (List.length a) - 1) with (Z.of_nat (List.length (rev a'))) by lia. intro U. apply (stands_uncolored _ _ Sp) in U.
    apply B. split; [exact U|]. unfold own_flags. rewrite (stands_flags _ _ Sp U), Fc. reflexivity.
  - intros x Hx. assert (Nx : exists z, nth_error sc (Z.to_nat x) = Some z /\ uncolored z).
    { destruct (Z.eq_dec x (Z.of_nat (List.length a))) as [->|Ne]; [rewrite Nat2Z.id; eauto|].
      destruct (nth_error mid (Z.to_nat x - Datatypes.S (List.length a))) as [z|] eqn:Ez.
      - exists z. split.
        + rewrite E, nth_error_app2 by lia. replace (Z.to_nat x - List.length a)%nat with (Datatypes.S (Z.to_nat x - Datatypes.S (List.length a))) by lia.
          cbn [nth_error]. rewrite nth_error_app1; [exact Ez|]. apply nth_error_Some. congruence.
        + rewrite Forall_forall in M. apply M. eapply nth_error_In; eauto.
      - apply nth_error_None in Ez. lia. }
    destruct Nx as [z [Nz Uz]]. pose proof (N _ _ Nz) as Sz. rewrite Z2Nat.id in Sz by lia. now apply (stands_uncolored _ _ Sz).
  - rewrite <- (stands_char _ _ Sd), <- (stands_char _ _ Sc). exact Ec.
  - apply (stands_plain _ _ Sd). rewrite Ef. unfold own_flags. rewrite Fc. reflexivity.
Qed.
Lemma inked_all : forall nums dfg dbg, gaps_end w h P -> pictured (fun p _ v => inked nums dfg dbg p v) w h l P.
Proof.
  intros nums dfg dbg G q Hq. split; [now apply some_piece|]. intros p Hin Hex.
  destruct (piece_letter q p Hq Hin Hex) as [c [d [d' [sc [N [S [L [D0 [D1 [D [C A]]]]]]]]]]].
  assert (F : faithful sc) by (apply (gaps_faithful (snd q)); auto; apply Hq).
  apply kept_iff in F. rewrite F, (map_nth_error _ _ _ D0) in D1. injection D1 as <-. eapply inked_piece; eauto.
Qed.
(** every piece lies on the screen *)
Lemma piece_inside : forall p, In p l -> 0 <= p_row p < h /\ 0 <= p_column p /\ p_column p + zlen (s_text (p_span p)) <= w.
Proof.
  intros p Hin. destruct (export_layout _ _ _ El) as [L1 [_ L3]]. rewrite Forall_forall in L1. pose proof (L1 p Hin) as R. rewrite cells_height in R.
  apply in_split in Hin. destruct Hin as [a [b E]]. pose proof (L3 a p b E) as C. rewrite C.
  assert (Hy : 0 <= p_row p < h) by lia. split; [exact Hy|]. pose proof (row_width _ Hy) as W. rewrite E, of_row_split in W by reflexivity.
  rewrite <- all_letters_zlen in *. unfold all_letters in W. rewrite map_app, flat_map_app, zlen_app in W. cbn [map flat_map] in W. rewrite zlen_app, letters_zlen in W.
  change (flat_map letters (map p_span (of_row (p_row p) a))) with (all_letters (of_row (p_row p) a)) in W.
  pose proof (zlen_nonneg _ (flat_map letters (map p_span (of_row (p_row p) b)))). pose proof (zlen_nonneg _ (all_letters (of_row (p_row p) a))). lia.
Qed.
Lemma all_legible : in_xml w h P -> Forall legible l.
Proof.
  intro X. apply Forall_forall. intros p Hin. unfold legible. apply forallb_forall. intros c Hc. apply In_nth_error in Hc. destruct Hc as [i Hi].
  destruct (piece_inside p Hin) as [R1 [R2 R3]]. assert (i < List.length (s_text (p_span p)))%nat by (apply nth_error_Some; congruence).
  set (q := (p_column p + Z.of_nat i, p_row p)).
  assert (Hq : on_screen w h q) by (split; cbn; unfold zlen in R3; lia).
  assert (Hex : extends p q) by (split; cbn; [reflexivity|unfold zlen; lia]).
  destruct (piece_letter q p Hq Hin Hex) as [c' [d [d' [sc [N [S [_ [_ [_ [D [C _]]]]]]]]]]].
  cbn [q fst] in N. replace (Z.to_nat (p_column p + Z.of_nat i - p_column p)) with i in N by lia.
  destruct (carried_flags _ _ _ _ _ _ C D) as [E _]. rewrite (stands_char _ _ S) in E. rewrite Hi in N. injection N as ->. rewrite E. now apply X.
Qed.
Lemma all_valid : Forall (Forall valid_cell) (sc_cells (fst (fst k))).
Proof.
  apply Forall_forall. intros row Hr. apply Forall_forall. intros c Hc. apply In_nth_error in Hr. destruct Hr as [y Hy]. apply In_nth_error in Hc. destruct Hc as [x Hx].
  assert (B : (y < List.length (sc_cells (fst (fst k))))%nat) by (apply nth_error_Some; congruence). pose proof cells_height as CH. unfold zlen in CH.
  destruct (t_shaped _ _ _ _ _ T) as [_ S]. rewrite (t_w _ _ _ _ _ T) in S. rewrite Forall_forall in S. pose proof (S row (nth_error_In _ _ Hy)) as LR.
  assert (Bx : (x < List.length row)%nat) by (apply nth_error_Some; congruence). unfold zlen in LR.
  destruct (t_cell _ _ _ _ _ T (Z.of_nat x, Z.of_nat y)) as [c' [Ec' Tc]]; [split; cbn; lia|].
  unfold cell_at, mget in Ec'. cbn [fst snd] in Ec'. rewrite (proj2 (Z.leb_le 0 (Z.of_nat x))), (proj2 (Z.leb_le 0 (Z.of_nat y))) in Ec' by lia.
  cbn [andb] in Ec'. rewrite !Nat2Z.id, Hy, Hx in Ec'. injection Ec' as <-.
  apply tells_shows in Tc. destruct c as [[t fg] bg]. destruct (P _) as [g r]. destruct Tc as [H1 [H2 _]].
  split; cbn [fst snd]; intros z E; [apply (H1 z E)|apply (H2 z E)].
Qed.
End Export.

Section Document.
Variables (e : env) (w h : Z) (k : world) (P : picture).
Hypothesis Hp : powers e.
Hypothesis Hw : 0 < w.
Hypothesis T : told e w h k P.
Lemma told_document : forall fs dfg dbg, font fs -> w <= 8192 -> 0 <= h <= 8192 -> color_ok dfg -> color_ok dbg -> in_xml w h P ->
  exists l doc wt ht nl, export_svg e (fst (fst k)) = Ok l /\ export_text e (fst (fst k)) w h fs dfg dbg = Ok doc /\
    document (terminal_frame (dec fs) wt ht dbg l (numbered_nodes dfg dbg (combine l nl))) doc /\ Forall2 (placed fs) l nl.
Proof.
  intros fs dfg dbg Hfs Hw8 Hh8 Hd1 Hd2 X. destruct (export_ok e w h k P Hp Hw T) as [l El]. exists l.
  destruct (export_text_spec e (fst (fst k)) w h fs dfg dbg l) as [doc [wt [ht [nl [D1 [D2 [_ [_ D5]]]]]]]]; auto.
  - unfold extent. lia.
  - exact (all_valid e w h k P Hw T).
  - exact (all_legible e w h k P Hp Hw T l El X).
  - split.
    + rewrite (cells_height e w h k P T). lia.
    + apply Forall_forall. intros p Hin. destruct (piece_inside e w h k P Hp Hw T l El p Hin) as [_ [_ R]]. lia.
  - exists doc, wt, ht, nl. auto.
Qed.
End Document.

(** * The theorems *)
Section Histories.
Variables (e : env) (w h : Z) (cursor : pos) (fill : Z) (origin : pos) (m : emu) (acts : list act).
Hypothesis Hp : powers e.
Hypothesis Hw : 0 < w.
Hypothesis Hfill : is_ctl fill = false.
Hypothesis Ha : Forall (act_ok w h) acts.
Let k := fold_left (perform e origin) acts (new_screen w h cursor [fill], [], m).
Let P := fold_left (paint_act as_asked w h) acts (blank fill).
Lemma history_told : told e w h k P.
Proof. apply told_run; auto. now apply told_start. Qed.
Lemma view_spelled : exists l, export_svg e (fst (fst k)) = Ok l /\ pictured spelled w h l P.
Proof.
  destruct (export_ok e w h k P Hp Hw history_told) as [l El]. exists l. split; [exact El|].
  exact (spelled_all e w h k P Hp Hw history_told l El).
Qed.
Lemma view_inked : gaps_end w h P -> exists l, export_svg e (fst (fst k)) = Ok l /\
  forall nums dfg dbg, pictured (fun p _ v => inked nums dfg dbg p v) w h l P.
Proof.
  intro G. destruct (export_ok e w h k P Hp Hw history_told) as [l El]. exists l. split; [exact El|].
  intros. exact (inked_all e w h k P Hp Hw history_told l El nums dfg dbg G).
Qed.
Lemma view_document : forall fs dfg dbg, font fs -> w <= 8192 -> 0 <= h <= 8192 -> color_ok dfg -> color_ok dbg -> in_xml w h P ->
  exists l doc wt ht nl, export_svg e (fst (fst k)) = Ok l /\ export_text e (fst (fst k)) w h fs dfg dbg = Ok doc /\
    document (terminal_frame (dec fs) wt ht dbg l (numbered_nodes dfg dbg (combine l nl))) doc /\ Forall2 (placed fs) l nl.
Proof. exact (told_document e w h k P Hp Hw history_told). Qed.
End Histories.

(** * Against the terminal *)
Lemma gaps_ext : forall w h (P Q : picture), (forall q, on_screen w h q -> P q = Q q) -> gaps_end w h P -> gaps_end w h Q.
Proof.
  intros w h P Q E G y x1 x2 Hy Hx Hx2 H1 H2 H3 H4.
  assert (D : forall x, 0 <= x < w -> P (x, y) = Q (x, y)) by (intros x Hx'; apply E; split; cbn; lia).
  rewrite <- !D in * by lia. apply (G y x1 x2); auto. intros x Hx'. rewrite D by lia. auto.
Qed.
Lemma pictured_ext : forall (R : piece -> pos -> Z * rend -> Prop) w h l (P Q : picture), (forall q, on_screen w h q -> P q = Q q) -> pictured R w h l P -> pictured R w h l Q.
Proof. intros R w h l P Q E H q Hq. rewrite <- E by exact Hq. now apply H. Qed.
Lemma view_terminal : forall e w h cursor fill origin m acts, env_cs e = TRUE_COLOR -> 0 < w -> is_ctl fill = false ->
  at_rest m -> DrawSpec.fits w h origin m -> Forall (act_ok w h) acts ->
  let '(s, _, m') := fold_left (perform e origin) (acts ++ [ADraw]) (new_screen w h cursor [fill], [], m) in
  let shown q := fst (seen origin m' q) in
  exists l, export_svg e s = Ok l /\ pictured spelled w h l shown /\
    (gaps_end w h shown -> forall nums dfg dbg, pictured (fun p _ v => inked nums dfg dbg p v) w h l shown).
Proof.
  intros e w h cursor fill origin m acts HT Hw Hfill Hm Hf Ha.
  assert (Hp : powers e) by (intro N; congruence).
  assert (Hsh : shades e as_asked).
  { intros c Hc. destruct (DrawProofs3.shade_exists e Hp) as [sh [H1 H2]].
    specialize (H1 c Hc). specialize (H2 c Hc). unfold approximates, red, green, blue in H2. rewrite HT in H2. rewrite H2 in H1.
    unfold as_asked. destruct (c_rgb c) as [[r g] b]. exact H1. }
  pose proof (drawing e as_asked w h cursor fill origin m acts Hsh Hfill Hm Hf Ha) as D.
  assert (Ha' : Forall (act_ok w h) (acts ++ [ADraw])) by (apply Forall_app; split; [exact Ha|repeat constructor]).
  pose proof (history_told e w h cursor fill origin m (acts ++ [ADraw]) Hfill Ha') as T.
  assert (EP : fold_left (paint_act as_asked w h) (acts ++ [ADraw]) (blank fill) = fold_left (paint_act as_asked w h) acts (blank fill)).
  { rewrite fold_left_app. reflexivity. }
  rewrite EP in T. set (P := fold_left (paint_act as_asked w h) acts (blank fill)) in *.
  set (k := fold_left (perform e origin) (acts ++ [ADraw]) _) in *. destruct k as [[s c] m']. cbv zeta in D. destruct D as [D _].
  assert (EQ : forall q, on_screen w h q -> P q = fst (seen origin m' q)).
  { intros q Hq. rewrite (D q Hq). cbn [fst]. now destruct (P q). }
  destruct (export_ok e w h (s, c, m') P Hp Hw T) as [l El]. exists l. split; [exact El|]. split.
  - apply (pictured_ext _ w h l P); [exact EQ|]. exact (spelled_all e w h (s, c, m') P Hp Hw T l El).
  - intros G nums dfg dbg. apply (pictured_ext _ w h l P); [exact EQ|]. apply (inked_all e w h (s, c, m') P Hp Hw T l El).
    apply (gaps_ext w h (fun q => fst (seen origin m' q))); [intros q Hq; symmetry; auto|exact G].
Qed.

(** attributes an export does not express *)
Lemma unexpressed : forall nums dfg dbg x y i s k v, In k [FBlink; FFastBlink; FConceal; FStrike] ->
  piece_css (as_flag k s v) = piece_css s /\
  piece_nodes (fun _ => nums) dfg dbg (x, y, i, as_flag k s v) = piece_nodes (fun _ => nums) dfg dbg (x, y, i, s).
Proof.
  intros nums dfg dbg x y i [t fg bg lk [b1 b2 b3 b4 b5 b6 b7 b8 b9 b10] rs] k v H.
  destruct H as [<-|[<-|[<-|[<-|[]]]]]; split; reflexivity.
Qed.

(** * Losslessness of grouping *)
Lemma carried_twice : forall s pre l, Forall2 carries l (kept_row (reached pre) s) -> Forall2 carries l (map unmark s) ->
  kept_row (reached pre) s = map unmark s.
Proof.
  intro s. induction s as [|d s IH]; intros pre l H1 H2; [reflexivity|]. cbn [kept_row map] in *.
  destruct (retold (reached pre) d) eqn:E.
  - inversion H1 as [|x ? l' ? A1 A2]; subst. inversion H2 as [|? ? ? ? B1 B2]; subst.
    assert (U : uncolored d).
    { destruct d as [[[[ch f] fg] bg] rst]. destruct x as [[[c f'] fg'] bg']. cbn in *.
      destruct A1 as [_ [_ [A3 A4]]]. destruct B1 as [_ [_ [B3 B4]]].
      assert (N : forall a b : option color, (a = None \/ eq_color a None) -> (a = b \/ eq_color a b) -> b = None).
      { intros a b Ha Hb. destruct a; [destruct Ha as [Ha|Ha]; [discriminate|contradiction]|].
        destruct b; [destruct Hb as [Hb|Hb]; [discriminate|contradiction]|reflexivity]. }
      split; [exact (N fg' fg A3 B3)|exact (N bg' bg A4 B4)]. }
    rewrite (retold_same pre d E U). f_equal. exact (IH pre l' A2 B2).
  - inversion H1 as [|x ? l' ? A1 A2]; subst. inversion H2 as [|? ? ? ? B1 B2]; subst. rewrite <- reached_snoc in *. now rewrite (IH _ l' A2 B2).
Qed.
Lemma lossless_iff : forall e scells row, Forall2 stored scells row -> Forall (scell_fine e) scells -> scells <> [] ->
  ((exists gs, group e row = Ok gs /\ Forall2 carries (flat_map letters gs) (map unmark scells)) <-> faithful scells).
Proof.
  intros e sc row H1 H2 H3. destruct (group_kept e sc row H1 H2 H3) as [gs [G1 [_ [_ [_ G5]]]]]. split.
  - intros [gs' [E C]]. rewrite G1 in E. injection E as <-. apply kept_iff. exact (carried_twice sc [] _ G5 C).
  - intro F. apply kept_iff in F. rewrite F in G5. eauto.
Qed.
