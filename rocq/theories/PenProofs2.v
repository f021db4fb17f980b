(** Lemmas: what a terminal shows after any events. *)
From Coq Require Import ZArith Reals List Bool Lia String Permutation Sorting.Sorted.
From Verif Require Import PyBase PyLemmas F64 SpaceModel ColorModel ColorSpec ColorProofs ColorProofs2 AnsiRe SpanModel Vt SpanSpec
  SpanProofs SpanProofs2 ScreenModel ScreenSpec ScreenProofs ScreenProofs2 ScreenProofs3 ScreenProofs4 ScreenProofs5 ScreenProofs6 ScreenProofs7 ScreenProofs8 DrawSpec
  DrawProofs DrawProofs2 DrawProofs3 CutProofs CutProofs2 TileSpec TileProofs PenSpec PenProofs.
Import ListNotations.
Open Scope Z_scope.

(** * The pen of a draw *)
Definition puts (D : display) (q : pos) : bool := d_due D q && written (d_ink D q).
Lemma drawing_pen_some : forall w D n k, (k < n)%nat -> puts D (nth_pos w k) = true -> drawing_pen w D n = rend0.
Proof.
  intros w D n. induction n as [|n IH]; intros k Hk H; [lia|]. cbn [drawing_pen]. fold (puts D (nth_pos w n)).
  destruct (puts D (nth_pos w n)) eqn:E; [reflexivity|]. apply (IH k); [|exact H]. destruct (Nat.eq_dec k n) as [->|]; [congruence|lia].
Qed.
Lemma drawing_pen_none : forall w D n, (forall k, (k < n)%nat -> puts D (nth_pos w k) = false) -> drawing_pen w D n = d_pen D.
Proof.
  intros w D n. induction n as [|n IH]; intro H; [reflexivity|]. cbn [drawing_pen]. fold (puts D (nth_pos w n)). rewrite (H n) by lia.
  apply IH. intros k Hk. apply H. lia.
Qed.
Lemma above_no : forall w h p q, on_screen w h p -> on_screen w h q -> (above p q <-> (pos_no w p < pos_no w q)%nat).
Proof.
  intros w h [px py] [qx qy] [P1 P2] [Q1 Q2]. unfold above, pos_no. cbn [fst snd] in *.
  rewrite <- Z2Nat.inj_lt by nia. split; [intros [H|[H1 H2]]; nia|]. intro H.
  destruct (Z.lt_trichotomy py qy) as [L|[L|L]]; [left; exact L|right|exfalso; nia]. subst. nia.
Qed.

Section Run.
Variables (e : env) (sh : triple -> ecolor) (w h : Z) (origin : pos) (g0 : Z -> Z -> ecell) (W0 H0 : Z).
Hypothesis Hsh : shades e sh.
Hypothesis Hfit : 1 <= fst origin /\ 1 <= snd origin /\ fst origin - 1 + w <= W0 /\ snd origin - 1 + h <= H0.

Record dinv (k : world) (D : display) : Prop := {
  n_w : sc_w (fst (fst k)) = w;
  n_h : sc_h (fst (fst k)) = h;
  n_shaped : shaped (fst (fst k));
  n_off : sc_off (fst (fst k)) = 0;
  n_keyed : keyed (fst (fst k));
  n_cache : cache_ok e (snd (fst k));
  n_listening : listening (snd k);
  n_pen : e_rend (snd k) = d_pen D;
  n_size : e_w (snd k) = W0 /\ e_h (snd k) = H0;
  n_print : forall q, is_ctl (tile_char (ink_tile (d_ink D q))) = false;
  n_cell : forall q, on_screen w h q -> exists c, cell_at (fst (fst k)) q = Some c /\ has_ink c (d_ink D q);
  n_pending : forall q t, pending (fst (fst k)) q = Some t -> on_screen w h q /\ exists c, t = drawn e c /\ has_ink c (d_ink D q);
  n_due : forall q, on_screen w h q -> (d_due D q = true <-> pending (fst (fst k)) q <> None);
  n_seen : forall q, on_screen w h q -> seen origin (snd k) q = d_seen D q;
  n_outside : forall X Y, ~ on_screen w h (X - fst origin + 1, Y - snd origin + 1) -> e_grid (snd k) X Y = g0 X Y
}.

Lemma dinv_start : forall cursor fill m, is_ctl fill = false -> listening m -> e_w m = W0 -> e_h m = H0 -> e_grid m = g0 ->
  dinv (new_screen w h cursor [fill], [], m) (first_display fill origin m).
Proof.
  intros cursor fill m Hfill Hm HW HH HG. destruct (new_screen_shape w h cursor [fill]) as [S K].
  assert (C : forall q, on_screen w h q -> cell_at (new_screen w h cursor [fill]) q = Some ([fill], None, None)).
  { intros q Hq. unfold new_screen. rewrite resize_cell by exact Hq. unfold cell_at. cbn [sc_cells].
    replace (mget [] (fst q) (snd q)) with (@None cell); [now destruct (_ && _)|].
    unfold mget. now destruct (Z.to_nat (snd q)). }
  assert (Pn : forall q, pending (new_screen w h cursor [fill]) q = if (0 <=? fst q) && (fst q <? w) && (0 <=? snd q) && (snd q <? h) then Some [fill] else None).
  { intro q. unfold new_screen. rewrite resize_pending. reflexivity. }
  split; cbn [fst snd first_display d_ink d_due d_seen d_pen]; auto.
  - constructor.
  - intros q Hq. exists ([fill], None, None). split; [auto|now apply fill_ink].
  - intros q t E. rewrite Pn in E. destruct (_ && _) eqn:Eb; [|discriminate]. injection E as <-.
    rewrite !andb_true_iff, !Z.leb_le, !Z.ltb_lt in Eb. split; [unfold on_screen; lia|].
    exists ([fill], None, None). split; [reflexivity|now apply fill_ink].
  - intros q [Q1 Q2]. rewrite Pn. rewrite (proj2 (Z.leb_le 0 (fst q))), (proj2 (Z.leb_le 0 (snd q))), (proj2 (Z.ltb_lt (fst q) w)), (proj2 (Z.ltb_lt (snd q) h)) by lia.
    split; [discriminate|reflexivity].
  - intros X Y _. now rewrite HG.
Qed.

Lemma dinv_clear : forall k D fill, dinv k D -> is_ctl fill = false ->
  dinv (perform_event e origin k (EAct (AClear fill))) (show_event sh w h D (EAct (AClear fill))).
Proof.
  intros [[s c] m] D fill I Hfill. destruct I as [I1 I2 I3 I4 I5 I6 I7 I8 I9 I10 I11 I12 I13 I14 I15]. cbn [fst snd] in *.
  destruct (clear_all s [fill]) as [C1 [C2 [C3 [C4 [C5 C6]]]]]. rewrite I1, I2 in *.
  cbn [perform_event perform show_event]. split; cbn [fst snd d_ink d_due d_seen d_pen]; auto.
  - pose proof (resize_keyed s (sc_w s) (sc_h s) [fill] false I5) as K. exact K.
  - intros q Hq. destruct (C5 q Hq) as [A B]. eexists. split; [exact A|]. now apply fill_ink.
  - intros q t E. assert (Hq : on_screen w h q).
    { assert (X : on_screen w h q \/ ~ on_screen w h q) by (unfold on_screen; lia). destruct X as [X|X]; auto.
      rewrite C6 in E by exact X. now apply (I12 q t). }
    split; auto. destruct (C5 q Hq) as [A B]. rewrite B in E. injection E as <-.
    exists ([fill], None, None). split; [reflexivity|now apply fill_ink].
  - intros q Hq. destruct (C5 q Hq) as [A B]. rewrite B. split; [discriminate|reflexivity].
Qed.

Lemma ink_printable : forall data T, Forall (fun entry : pos * list span => Forall inkable (snd entry)) data ->
  (forall q : pos, is_ctl (tile_char (ink_tile (T q))) = false) ->
  forall q, is_ctl (tile_char (ink_tile (match rev (covering q (flat_map (ink_spots w h) data)) with [] => T q | i :: _ => i end))) = false.
Proof.
  intros data T Hs HT q. destruct (rev (covering q (flat_map (ink_spots w h) data))) as [|t l] eqn:E; [apply HT|].
  assert (Hin : In t (covering q (flat_map (ink_spots w h) data))) by (apply in_rev; rewrite E; now left).
  apply covering_in in Hin. destruct Hin as [p Hin]. apply in_flat_map in Hin. destruct Hin as [[[x y] line] [H1 H2]].
  unfold ink_spots in H2. destruct (_ && _); [|destruct H2]. apply number_in in H2. apply in_flat_map in H2. destruct H2 as [s [H3 H4]].
  rewrite Forall_forall in Hs. specialize (Hs _ H1). cbn [snd] in Hs. rewrite Forall_forall in Hs.
  destruct (Hs _ H3) as [D _]. unfold printable in D. rewrite Forall_forall in D. apply D.
  unfold span_inks in H4. apply in_map_iff in H4. destruct H4 as [t' [<- H4]]. cbn [ink_tile]. clear - H4.
  induction (s_text s) as [|c r IH]; [destruct H4|]. destruct r as [|c' r].
  - cbn [worn_tiles] in H4. destruct H4 as [<-|[]]. destruct (s_reset s); now left.
  - change (worn_tiles (s_flags s) (s_reset s) (c :: c' :: r)) with (mkTile c (s_flags s) false :: worn_tiles (s_flags s) (s_reset s) (c' :: r)) in H4.
    destruct H4 as [<-|H4]; [now left|right; auto].
Qed.

Lemma dinv_write : forall k D data tb force, dinv k D -> event_ok w h (EAct (AWrite data tb force)) ->
  dinv (perform_event e origin k (EAct (AWrite data tb force))) (show_event sh w h D (EAct (AWrite data tb force))).
Proof.
  intros [[s c] m] D data tb force I [Hd [Ht Hs]]. destruct I as [I1 I2 I3 I4 I5 I6 I7 I8 I9 I10 I11 I12 I13 I14 I15]. cbn [fst snd] in *.
  assert (Hfine : fine_data data).
  { unfold fine_data. revert Hs. apply Forall_impl. intros en. apply Forall_impl. apply inkable_fine. }
  assert (Hop : opaque_data data).
  { unfold opaque_data. revert Hs. apply Forall_impl. intros en. apply Forall_impl. apply inkable_opaque. }
  assert (Hcalm : calm_write s data) by (split; [exact I4|rewrite I1, I2; exact Hd]).
  destruct (write_bulk_effect e c s data tb force I6 I3 Hcalm Ht Hfine) as [s' [c' [n [E [Hc' WE]]]]].
  cbn [perform_event perform show_event]. rewrite E. destruct (we_size _ _ _ _ _ _ WE) as [S1 [S2 [S3 S4]]].
  set (ink' := fun q => match rev (covering q (flat_map (ink_spots w h) data)) with [] => d_ink D q | i :: _ => i end).
  assert (CELL : forall q, on_screen w h q -> exists new, cell_at s' q = Some new /\ has_ink new (ink' q) /\
     ((pending s' q = pending s q /\ ink' q = d_ink D q) \/ (pending s' q = Some (drawn e new) /\ ink' q <> d_ink D q))).
  { intros q Hq. destruct (I11 q Hq) as [old [Eold Sold]].
    assert (Hq' : on_screen (sc_w s) (sc_h s) q) by (rewrite I1, I2; exact Hq).
    pose proof (we_cell _ _ _ _ _ _ WE q old Hq' Eold) as G. rewrite I1, I2 in G. rewrite outcome_opaque in G by auto. unfold ink'.
    pose proof (Forall2_rev _ _ _ _ _ (covering_related _ _ _ q _ _ (data_inked e w h data Hs))) as CV.
    inversion CV as [E1 E2|i t l l' Hit Hl E1 E2]; rewrite <- E1 in G; cbn [okf] in G.
    - destruct G as [G1 G2]. exists old. auto.
    - destruct G as [G1 G2]. pose proof (has_ink_same _ _ _ _ Hit Sold) as HS. destruct (cell_eqb (plain_cell i) old) eqn:Eq.
      + apply same_cell_iff in Eq. destruct (G1 Eq) as [A B]. apply HS in Eq. exists old. rewrite Eq. auto.
      + assert (N : ~ same_cell (plain_cell i) old) by (intro Hsame; apply same_cell_iff in Hsame; congruence).
        destruct (G2 N) as [A B]. exists (plain_cell i). rewrite drawn_entry in B. split; [exact A|]. split; [exact Hit|]. right. split; [exact B|]. tauto. }
  split; cbn [fst snd d_ink d_due d_seen d_pen]; auto; try congruence.
  - apply WE.
  - apply (we_keyed _ _ _ _ _ _ WE). exact I5.
  - apply ink_printable; auto.
  - intros q Hq. destruct (CELL q Hq) as [new [A1 [A2 _]]]. exists new. auto.
  - intros q t Et.
    assert (X : on_screen w h q \/ ~ on_screen w h q) by (unfold on_screen; lia). destruct X as [Hq|Hq].
    + split; auto. destruct (CELL q Hq) as [new [A1 [A2 [[A5 A6]|[A5 _]]]]].
      * fold (ink' q). rewrite A6. apply (I12 q t). congruence.
      * exists new. split; [congruence|exact A2].
    + rewrite (we_off _ _ _ _ _ _ WE) in Et by (rewrite I1, I2; exact Hq). exfalso. apply Hq. apply (I12 q t Et).
  - intros q Hq. fold (ink' q). destruct (CELL q Hq) as [new [A1 [A2 [[A5 A6]|[A5 A6]]]]].
    + rewrite A6, (proj2 (same_ink_iff _ _) eq_refl), A5. cbn [negb]. rewrite orb_false_r. now apply I13.
    + rewrite A5. destruct (same_ink (ink' q) (d_ink D q)) eqn:Es; [apply same_ink_iff in Es; contradiction|].
      cbn [negb]. rewrite orb_true_r. split; [discriminate|reflexivity].
Qed.

Lemma split_in : forall (A : Type) (x : A) l, In x l -> exists a b, l = a ++ x :: b.
Proof. intros A x l H. apply in_split in H. exact H. Qed.
Lemma sorted_before : forall (l r : list (pos * str)) i, StronglySorted (fun a b => above (fst a) (fst b)) (l ++ i :: r) ->
  (forall j, In j l -> above (fst j) (fst i)) /\ (forall j, In j r -> above (fst i) (fst j)).
Proof.
  intros l r i. induction l as [|x l IH]; cbn [app]; intro H; inversion H as [|? ? S F]; subst.
  - split; [intros j []|]. rewrite Forall_forall in F. exact F.
  - destruct (IH S) as [A B]. split; [|exact B]. intros j [<-|Hj]; [|auto]. rewrite Forall_forall in F. apply F. apply in_or_app. right. now left.
Qed.

Lemma dinv_draw : forall k D, dinv k D -> dinv (perform_event e origin k (EAct ADraw)) (show_event sh w h D (EAct ADraw)).
Proof.
  intros [[s c] m] D I. destruct I as [I1 I2 I3 I4 I5 I6 I7 I8 I9 I10 I11 I12 I13 I14 I15]. cbn [fst snd] in *.
  destruct (render_spec s origin I5) as [items [Perm [Sorted R]]]. cbn [perform_event perform].
  destruct (render s origin false) as [out s']. destruct R as [[body Hbody] [Hout [-> _]]].
  assert (Nd : NoDup (map fst items)) by (apply (Permutation_NoDup (l := map fst (sc_buf s))); [apply Permutation_map, Permutation_sym, Perm|exact I5]).
  assert (Hin : forall q, In q (map fst items) <-> pending s q <> None).
  { intro q. rewrite in_map_iff. split.
    - intros [[q' t] [E Hi]]. cbn in E. subst q'. unfold pending. rewrite (in_buf_get w h origin g0 W0 H0 Hfit q t); [discriminate|exact I5|].
      eapply Permutation_in; eauto.
    - intro H. destruct (pending s q) as [t|] eqn:Ep; [|congruence]. apply buf_get_in in Ep. exists (q, t). split; auto.
      eapply Permutation_in; [apply Permutation_sym|]; eauto. }
  assert (Hi : Forall (ink_item e w h (d_ink D)) items).
  { apply Forall_forall. intros [q t] Hi. assert (Ep : pending s q = Some t).
    { unfold pending. apply (in_buf_get w h origin g0 W0 H0 Hfit); [exact I5|]. eapply Permutation_in; eauto. }
    destruct (I12 q t Ep) as [A [cl [B C]]]. split; [exact A|]. exists cl. auto. }
  assert (Hf : fits w h (fst origin, snd origin) m).
  { unfold fits. cbn [fst snd]. destruct I9 as [-> ->]. exact Hfit. }
  destruct (ink_items e sh w h (fst origin) (snd origin) Hsh (d_ink D) items None m Hi Nd I7 Hf) as [R1 [R2 [R3 [R4 R5]]]].
  { intros p Hp. discriminate. }
  pose proof (midway_emit e sh w h (fst origin) (snd origin) Hsh (d_ink D) items None ltac:(lia) ltac:(lia) Hi) as MW.
  assert (Em : emit (fst origin) (snd origin) None items = emitted origin items) by reflexivity.
  rewrite Em in *. set (m1 := vt (emitted origin items) m) in *.
  assert (V : exists pen, vt out m = set_rend pen m1 /\ pen = rend0).
  { destruct Hout as [Ho | Ho].
    - exists (e_rend m1). rewrite set_rend_id, Ho. split; [reflexivity|].
      apply (midway_reset (emitted origin items) body m MW); [rewrite <- Ho; exact Hbody|apply I7].
    - exists rend0. rewrite Ho, vt_app. fold m1. change [27; 91; 48; 109] with RESET. split; [|reflexivity].
      apply vt_reset. apply R1. }
  destruct V as [pen [-> ->]].
  assert (ON : forall i, In i items -> on_screen w h (fst i)) by (intros i Hx; rewrite Forall_forall in Hi; apply (Hi i Hx)).
  assert (SEEN : forall q, on_screen w h q -> seen origin m1 q =
     if d_due D q then inked sh (d_ink D q) (drawing_pen w D (pos_no w q)) else d_seen D q).
  { intros q Hq. destruct (d_due D q) eqn:Ed.
    - assert (Hq' : In q (map fst items)) by (apply Hin; now apply I13). apply in_map_iff in Hq'. destruct Hq' as [[q' t] [Eq Hq']]. cbn [fst] in Eq. subst q'.
      apply split_in in Hq'. destruct Hq' as [l [r Er]]. pose proof (R4 l q t r Er) as RR. replace (fst origin, snd origin) with origin in RR by now destruct origin.
      rewrite RR. f_equal. rewrite Er in Sorted. destruct (sorted_before _ _ _ Sorted) as [SB SA]. cbn [fst] in SB, SA.
      destruct (put_away (d_ink D) l) eqn:Ep.
      + unfold put_away in Ep. apply existsb_exists in Ep. destruct Ep as [[p tp] [P1 P2]]. cbn [fst] in P2. symmetry.
        assert (Pin : In (p, tp) items) by (rewrite Er; apply in_or_app; now left).
        pose proof (ON _ Pin) as Hp. cbn [fst] in Hp.
        apply (drawing_pen_some w D _ (pos_no w p)); [apply (above_no w h); auto; exact (SB _ P1)|].
        destruct (pos_no_nth w h p Hp) as [-> _]. unfold puts. rewrite P2, andb_true_r. apply I13; [exact Hp|]. apply Hin. apply in_map_iff. exists (p, tp). auto.
      + rewrite I8. symmetry. apply drawing_pen_none. intros j Hj. destruct (pos_no_nth w h q Hq) as [_ Hn].
        destruct (nth_no_pos w h j ltac:(lia)) as [Hp Ej]. set (p := nth_pos w j) in *. unfold puts.
        destruct (d_due D p) eqn:Edp; [|reflexivity]. cbn [andb].
        assert (Hp' : In p (map fst items)) by (apply Hin; now apply I13). apply in_map_iff in Hp'. destruct Hp' as [[p' tp] [Eq Hp']]. cbn [fst] in Eq. subst p'.
        rewrite Er in Hp'. apply in_app_iff in Hp'. destruct Hp' as [Hp'|[Hp'|Hp']].
        * destruct (written (d_ink D p)) eqn:Ew; [|reflexivity]. exfalso. unfold put_away in Ep.
          assert (X : existsb (fun i : pos * str => written (d_ink D (fst i))) l = true) by (apply existsb_exists; exists (p, tp); auto). congruence.
        * assert (p = q) by congruence. subst q. lia.
        * specialize (SA _ Hp'). cbn [fst] in SA. apply (above_no w h) in SA; auto. lia.
    - rewrite <- I14 by exact Hq. unfold seen. apply R5. intro Hq'. apply Hin in Hq'.
      replace (fst q + fst origin - 1 - fst origin + 1, snd q + snd origin - 1 - snd origin + 1) with q in Hq' by (destruct q; cbn; f_equal; lia).
      apply I13 in Hq'; auto. congruence. }
  cbn [show_event]. split; cbn [fst snd sc_w sc_h sc_off d_ink d_due d_seen d_pen set_rend e_rend e_w e_h e_grid]; auto.
  - constructor.
  - destruct I9. split; congruence.
  - intros q t E. discriminate E.
  - intros q Hq. split; [discriminate|]. intro N. exfalso. apply N. reflexivity.
  - intros X Y Ho. rewrite <- I15 by exact Ho. apply R5. intro Hq. apply Ho. apply Hin in Hq.
    destruct (pending s (X - fst origin + 1, Y - snd origin + 1)) as [t|] eqn:Ep; [|congruence]. apply (I12 _ _ Ep).
Qed.

Lemma dinv_redraw : forall k D, dinv k D -> dinv (perform_event e origin k ERedraw) (show_event sh w h D ERedraw).
Proof.
  intros [[s c] m] D I. destruct I as [I1 I2 I3 I4 I5 I6 I7 I8 I9 I10 I11 I12 I13 I14 I15]. cbn [fst snd] in *.
  assert (T1 : tiled w h s (tiles_of D)).
  { intros q Hq. destruct (I11 q Hq) as [[[t fg] bg] [A B]]. exists fg, bg. rewrite A. destruct B as [-> _]. reflexivity. }
  destruct origin as [ox oy] eqn:Eo. cbn [fst snd] in *.
  destruct (retyped w h ox oy s (tiles_of D) m I1 I2 I3 T1 I10) as [A [B [C1 [C2 C3]]]].
  { unfold fits. cbn [fst snd]. destruct I9 as [-> ->]. exact Hfit. }
  { exact I7. }
  assert (SZ : e_w (vt (redraw_rows ox oy (sc_cells s)) m) = e_w m /\ e_h (vt (redraw_rows ox oy (sc_cells s)) m) = e_h m).
  { destruct I3 as [L1 L2]. rewrite I1, I2 in *.
    assert (D0 : sc_cells s = [] \/ 0 < h) by (destruct (sc_cells s); [now left|right; rewrite zlen_cons in L1; unfold zlen in L1; lia]).
    destruct D0 as [E|Dh]; [rewrite E; split; reflexivity|].
    assert (Lr : forall j row, nth_error (sc_cells s) j = Some row -> List.length row = Z.to_nat w).
    { intros j row E. apply nth_error_In in E. rewrite Forall_forall in L2. specialize (L2 row E). cbv beta in L2. unfold zlen in L2. lia. }
    destruct (type_rows (Z.to_nat w) ox (sc_cells s) oy m (fun k => tiles_of D (nth_pos w k)) (pen_at w (tiles_of D) (e_rend m))) as [_ [_ [R3 [R4 _]]]];
      try lia; auto.
    - intros j k row c0 Er Ec. split; [|apply I10]. pose proof (Lr _ _ Er) as Lrow.
      assert (Hk : (k < List.length row)%nat) by (apply nth_error_Some; congruence).
      assert (Hj : (j < List.length (sc_cells s))%nat) by (apply nth_error_Some; intro Hx; pose proof (eq_trans (eq_sym Hx) Er); discriminate).
      assert (Hk' : (k < Z.to_nat w)%nat) by (rewrite <- Lrow; exact Hk). rewrite nth_pos_no by exact Hk'.
      assert (Hq : on_screen w h (Z.of_nat k, Z.of_nat j)) by (unfold on_screen, zlen, cell in *; cbn; lia).
      destruct (T1 _ Hq) as [fg [bg Ec1]]. unfold cell_at in Ec1. cbn [fst snd] in Ec1.
      rewrite (proj2 (Z.leb_le 0 (Z.of_nat k))), (proj2 (Z.leb_le 0 (Z.of_nat j))) in Ec1 by lia. cbn [andb] in Ec1. unfold mget in Ec1.
      rewrite !Nat2Z.id in Ec1. unfold cell in *. rewrite Er, Ec in Ec1. injection Ec1 as ->. reflexivity.
    - unfold zlen, cell in *. lia. }
  cbn [perform_event render show_event]. rewrite I8 in A, C1.
  split; cbn [fst snd sc_w sc_h sc_off d_ink d_due d_seen d_pen]; auto.
  - constructor.
  - split; auto.
  - destruct SZ as [-> ->]. exact I9.
  - intros q t E. discriminate E.
  - intros q Hq. split; [discriminate|]. intro N. exfalso. apply N. reflexivity.
  - intros q Hq. rewrite Eo. exact (A q Hq).
  - intros X Y Ho. rewrite Eo in Ho. cbn [fst snd] in Ho. rewrite B by exact Ho. apply I15. exact Ho.
Qed.

Lemma dinv_event : forall k D v, dinv k D -> event_ok w h v -> dinv (perform_event e origin k v) (show_event sh w h D v).
Proof.
  intros k D [[data tb force|fill|]| |pen] I Hv; [now apply dinv_write|now apply dinv_clear|now apply dinv_draw|now apply dinv_redraw|].
  destruct k as [[s c] m]. destruct I as [I1 I2 I3 I4 I5 I6 I7 I8 I9 I10 I11 I12 I13 I14 I15]. cbn [perform_event show_event].
  split; cbn [fst snd d_ink d_due d_seen d_pen] in *; auto.
Qed.
Lemma dinv_run : forall evs k D, dinv k D -> Forall (event_ok w h) evs ->
  dinv (fold_left (perform_event e origin) evs k) (fold_left (show_event sh w h) evs D).
Proof.
  intro evs. induction evs as [|v evs IH]; intros k D I Hv; [exact I|]. inversion Hv as [|? ? H1 H2]; subst.
  cbn [fold_left]. apply IH; [|exact H2]. now apply dinv_event.
Qed.
End Run.

(** * The theorem *)
Lemma shown_exactly : forall e sh w h cursor fill origin m evs, shades e sh -> is_ctl fill = false ->
  listening m -> fits w h origin m -> Forall (event_ok w h) evs ->
  let '(s, _, m') := fold_left (perform_event e origin) evs (new_screen w h cursor [fill], [], m) in
  let D := fold_left (show_event sh w h) evs (first_display fill origin m) in
  (forall q, on_screen w h q -> seen origin m' q = d_seen D q) /\
  (forall X Y, ~ on_screen w h (X - fst origin + 1, Y - snd origin + 1) -> e_grid m' X Y = e_grid m X Y) /\
  e_rend m' = d_pen D /\ listening m' /\
  (forall q, on_screen w h q -> (pending s q <> None <-> d_due D q = true)).
Proof.
  intros e sh w h cursor fill origin m evs Hsh Hfill Hm Hf Hv.
  pose proof (dinv_start e w h origin (e_grid m) (e_w m) (e_h m) cursor fill m Hfill Hm eq_refl eq_refl eq_refl) as I0.
  pose proof (dinv_run e sh w h origin (e_grid m) (e_w m) (e_h m) Hsh Hf evs _ _ I0 Hv) as I1.
  destruct (fold_left (perform_event e origin) evs _) as [[s c] m']. cbv zeta. set (D := fold_left _ evs _) in *.
  destruct I1 as [I1 I2 I3 I4 I5 I6 I7 I8 I9 I10 I11 I12 I13 I14 I15]. cbn [fst snd] in *.
  split; [exact I14|]. split; [exact I15|]. split; [exact I8|]. split; [exact I7|]. intros q Hq. symmetry. now apply I13.
Qed.
