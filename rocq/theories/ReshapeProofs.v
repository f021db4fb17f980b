(** Lemmas: what a terminal shows when windows and screens are resized between other events. *)
From Coq Require Import ZArith Reals List Bool Lia String Permutation Sorting.Sorted.
From Verif Require Import PyBase PyLemmas F64 SpaceModel ColorModel ColorSpec ColorProofs ColorProofs2 AnsiRe SpanModel Vt SpanSpec
  SpanProofs SpanProofs2 ScreenModel ScreenSpec ScreenProofs ScreenProofs2 ScreenProofs3 ScreenProofs4 ScreenProofs5 ScreenProofs6 ScreenProofs7 ScreenProofs8 DrawSpec
  DrawProofs DrawProofs2 DrawProofs3 CutProofs CutProofs2 TileSpec TileProofs PenSpec PenProofs PenProofs2 ReshapeSpec.
Import ListNotations.
Open Scope Z_scope.

Lemma inside_iff : forall w h q, inside w h q = true <-> on_screen w h q.
Proof. intros w h q. unfold inside, on_screen. rewrite !andb_true_iff, !Z.leb_le, !Z.ltb_lt. lia. Qed.
Lemma inside_not : forall w h q, inside w h q = false <-> ~ on_screen w h q.
Proof. intros w h q. rewrite <- inside_iff. destruct (inside w h q); split; intro H; congruence. Qed.

(** * The pen of a draw *)
Definition puts_due (due : pos -> option ink) (q : pos) : bool := match due q with Some i => written i | None => false end.
Lemma pen_due_some : forall w due pen n k, (k < n)%nat -> puts_due due (nth_pos w k) = true -> pen_due w due pen n = rend0.
Proof.
  intros w due pen n. induction n as [|n IH]; intros k Hk H; [lia|]. cbn [pen_due].
  assert (R : k <> n -> pen_due w due pen n = rend0) by (intro; apply (IH k); [lia|exact H]).
  unfold puts_due in *. destruct (Nat.eq_dec k n) as [->|N].
  - destruct (due (nth_pos w n)) as [i|]; [|discriminate]. now rewrite H.
  - rewrite (R N). destruct (due (nth_pos w n)) as [i|]; [destruct (written i)|]; reflexivity.
Qed.
Lemma pen_due_none : forall w due pen n, (forall k, (k < n)%nat -> puts_due due (nth_pos w k) = false) -> pen_due w due pen n = pen.
Proof.
  intros w due pen n. induction n as [|n IH]; intro H; [reflexivity|]. cbn [pen_due].
  rewrite IH by (intros k Hk; apply H; lia). pose proof (H n ltac:(lia)) as Hn. unfold puts_due in Hn.
  destruct (due (nth_pos w n)) as [i|]; [now rewrite Hn|reflexivity].
Qed.

Section Run.
Variables (e : env) (sh : triple -> ecolor) (origin : pos).
Hypothesis Hsh : shades e sh.

Record vinv (k : world) (V : view) : Prop := {
  w_w : sc_w (fst (fst k)) = v_w V;
  w_h : sc_h (fst (fst k)) = v_h V;
  w_shaped : shaped (fst (fst k));
  w_off : sc_off (fst (fst k)) = 0;
  w_keyed : keyed (fst (fst k));
  w_cache : cache_ok e (snd (fst k));
  w_listening : listening (snd k);
  w_pen : e_rend (snd k) = v_pen V;
  w_size : e_w (snd k) = v_tw V /\ e_h (snd k) = v_th V;
  w_print : forall q, is_ctl (tile_char (ink_tile (v_ink V q))) = false;
  w_cell : forall q, on_screen (v_w V) (v_h V) q -> exists c, cell_at (fst (fst k)) q = Some c /\ has_ink c (v_ink V q);
  w_pending : forall q, match v_due V q with
                        | None => pending (fst (fst k)) q = None
                        | Some i => exists c, pending (fst (fst k)) q = Some (drawn e c) /\ has_ink c i
                        end;
  w_seen : forall q, seen origin (snd k) q = v_seen V q
}.

Lemma vinv_start : forall w h cursor fill m, is_ctl fill = false -> listening m ->
  vinv (new_screen w h cursor [fill], [], m) (first_view w h fill origin m).
Proof.
  intros w h cursor fill m Hfill Hm. destruct (new_screen_shape w h cursor [fill]) as [S K].
  assert (C : forall q, on_screen w h q -> cell_at (new_screen w h cursor [fill]) q = Some ([fill], None, None)).
  { intros q Hq. unfold new_screen. rewrite resize_cell by exact Hq. unfold cell_at. cbn [sc_cells].
    replace (mget [] (fst q) (snd q)) with (@None cell); [now destruct (_ && _)|].
    unfold mget. now destruct (Z.to_nat (snd q)). }
  split; cbn [fst snd first_view v_w v_h v_tw v_th v_ink v_due v_seen v_pen]; auto.
  - constructor.
  - intros q Hq. exists ([fill], None, None). split; [auto|now apply fill_ink].
  - intro q. unfold new_screen. rewrite resize_pending. fold (inside w h q). destruct (inside w h q); [|reflexivity].
    exists ([fill], None, None). split; [reflexivity|now apply fill_ink].
Qed.

Lemma vinv_resize : forall k V w h fill keep, vinv k V -> is_ctl fill = false ->
  vinv (happen e origin k (HResize w h fill keep)) (show sh origin V (HResize w h fill keep)).
Proof.
  intros [[s c] m] [w0 h0 tw th ink due seen_ pen] w h fill keep I Hfill.
  destruct I as [I1 I2 I3 I4 I5 I6 I7 I8 I9 I10 I11 I12 I13]. cbn [fst snd v_w v_h v_tw v_th v_ink v_due v_seen v_pen] in *.
  cbn [happen show].
  assert (P : forall q, is_ctl (tile_char (ink_tile (if keep && inside w0 h0 q then ink q else bare_ink fill))) = false).
  { intro q. destruct (_ && _); [apply I10|exact Hfill]. }
  assert (C : forall q, on_screen w h q -> exists cl, cell_at (resize s (w, h) [fill] keep) q = Some cl /\ has_ink cl (if keep && inside w0 h0 q then ink q else bare_ink fill)).
  { intros q Hq. rewrite resize_cell by exact Hq. eexists. split; [reflexivity|]. destruct keep; cbn [andb]; [|now apply fill_ink].
    destruct (inside w0 h0 q) eqn:E.
    - apply inside_iff in E. destruct (I11 q E) as [cl [-> B]]. exact B.
    - apply inside_not in E. rewrite cell_at_off; [now apply fill_ink|exact I3|]. rewrite I1, I2. exact E. }
  assert (PD : forall q, match (if inside w h q then Some (bare_ink fill) else due q) with
                        | None => pending (resize s (w, h) [fill] keep) q = None
                        | Some i => exists c, pending (resize s (w, h) [fill] keep) q = Some (drawn e c) /\ has_ink c i
                        end).
  { intro q. rewrite resize_pending. fold (inside w h q). destruct (inside w h q); [|apply I12].
    exists ([fill], None, None). split; [reflexivity|now apply fill_ink]. }
  pose proof (resize_shape s w h [fill] keep) as Sh. pose proof (resize_keyed s w h [fill] keep I5) as Ky.
  split; cbn [fst snd v_w v_h v_tw v_th v_ink v_due v_seen v_pen]; auto.
Qed.

Lemma vinv_clear : forall k V fill, vinv k V -> is_ctl fill = false ->
  vinv (happen e origin k (HDo (EAct (AClear fill)))) (show sh origin V (HDo (EAct (AClear fill)))).
Proof.
  intros [[s c] m] [w h tw th ink due seen_ pen] fill I Hfill.
  destruct I as [I1 I2 I3 I4 I5 I6 I7 I8 I9 I10 I11 I12 I13]. cbn [fst snd v_w v_h v_tw v_th v_ink v_due v_seen v_pen] in *.
  destruct (clear_all s [fill]) as [C1 [C2 [C3 [C4 [C5 C6]]]]]. rewrite I1, I2 in *.
  cbn [happen perform_event perform show]. split; cbn [fst snd v_w v_h v_tw v_th v_ink v_due v_seen v_pen]; auto.
  - exact (resize_keyed s (sc_w s) (sc_h s) [fill] false I5).
  - intros q Hq. destruct (C5 q Hq) as [A B]. eexists. split; [exact A|]. now apply fill_ink.
  - intro q. destruct (inside w h q) eqn:E.
    + apply inside_iff in E. destruct (C5 q E) as [_ ->]. exists ([fill], None, None). split; [reflexivity|now apply fill_ink].
    + apply inside_not in E. rewrite C6 by exact E. apply I12.
Qed.

Lemma vinv_write : forall k V data tb force, vinv k V -> event_ok (v_w V) (v_h V) (EAct (AWrite data tb force)) ->
  vinv (happen e origin k (HDo (EAct (AWrite data tb force)))) (show sh origin V (HDo (EAct (AWrite data tb force)))).
Proof.
  intros [[s c] m] [w h tw th ink due seen_ pen] data tb force I [Hd [Ht Hs]].
  destruct I as [I1 I2 I3 I4 I5 I6 I7 I8 I9 I10 I11 I12 I13]. cbn [fst snd v_w v_h v_tw v_th v_ink v_due v_seen v_pen] in *.
  assert (Hfine : fine_data data).
  { unfold fine_data. revert Hs. apply Forall_impl. intros en. apply Forall_impl. apply inkable_fine. }
  assert (Hop : opaque_data data).
  { unfold opaque_data. revert Hs. apply Forall_impl. intros en. apply Forall_impl. apply inkable_opaque. }
  assert (Hcalm : calm_write s data) by (split; [exact I4|rewrite I1, I2; exact Hd]).
  destruct (write_bulk_effect e c s data tb force I6 I3 Hcalm Ht Hfine) as [s' [c' [n [E [Hc' WE]]]]].
  cbn [happen perform_event perform show]. rewrite E. destruct (we_size _ _ _ _ _ _ WE) as [S1 [S2 [S3 S4]]].
  set (ink' := fun q => match rev (covering q (flat_map (ink_spots w h) data)) with [] => ink q | i :: _ => i end).
  assert (CELL : forall q, on_screen w h q -> exists new, cell_at s' q = Some new /\ has_ink new (ink' q) /\
     ((pending s' q = pending s q /\ ink' q = ink q) \/ (pending s' q = Some (drawn e new) /\ ink' q <> ink q))).
  { intros q Hq. destruct (I11 q Hq) as [old [Eold Sold]].
    assert (Hq' : on_screen (sc_w s) (sc_h s) q) by (rewrite I1, I2; exact Hq).
    pose proof (we_cell _ _ _ _ _ _ WE q old Hq' Eold) as G. rewrite I1, I2 in G. rewrite outcome_opaque in G by auto. unfold ink'.
    pose proof (Forall2_rev _ _ _ _ _ (covering_related _ _ _ q _ _ (data_inked e w h data Hs))) as CV.
    inversion CV as [E1 E2|i t l l' Hit Hl E1 E2]; rewrite <- E1 in G; cbn [okf] in G.
    - destruct G as [G1 G2]. exists old. auto.
    - destruct G as [G1 G2]. pose proof (has_ink_same _ _ _ _ Hit Sold) as HS. destruct (cell_eqb (plain_cell i) old) eqn:Eq.
      + apply same_cell_iff in Eq. destruct (G1 Eq) as [A B]. apply HS in Eq. exists old. rewrite Eq. auto.
      + assert (N : ~ same_cell (plain_cell i) old) by (intro Hsame; apply same_cell_iff in Hsame; congruence).
        destruct (G2 N) as [A B]. exists (plain_cell i). rewrite drawn_entry in B. split; [exact A|]. split; [exact Hit|]. right. split; [exact B|]. tauto. }
  split; cbn [fst snd v_w v_h v_tw v_th v_ink v_due v_seen v_pen]; auto; try congruence.
  - apply WE.
  - apply (we_keyed _ _ _ _ _ _ WE). exact I5.
  - apply (ink_printable w h); auto.
  - intros q Hq. destruct (CELL q Hq) as [new [A1 [A2 _]]]. exists new. auto.
  - intro q. fold (ink' q). destruct (inside w h q) eqn:Ei; cbn [andb].
    + apply inside_iff in Ei. destruct (CELL q Ei) as [new [A1 [A2 [[A5 A6]|[A5 A6]]]]].
      * rewrite A6, (proj2 (same_ink_iff _ _) eq_refl), A5. cbn [negb]. apply I12.
      * destruct (same_ink (ink' q) (ink q)) eqn:Es; [apply same_ink_iff in Es; contradiction|]. cbn [negb]. exists new. auto.
    + apply inside_not in Ei. rewrite (we_off _ _ _ _ _ _ WE) by (rewrite I1, I2; exact Ei). apply I12.
Qed.

Lemma vinv_draw : forall k V, vinv k V -> roomy origin V -> due_inside V ->
  vinv (happen e origin k (HDo (EAct ADraw))) (show sh origin V (HDo (EAct ADraw))).
Proof.
  intros [[s c] m] [w h tw th ink due seen_ pen] I Hroom Hdue.
  destruct I as [I1 I2 I3 I4 I5 I6 I7 I8 I9 I10 I11 I12 I13].
  unfold roomy, due_inside in *. cbn [fst snd v_w v_h v_tw v_th v_ink v_due v_seen v_pen] in *.
  destruct (render_spec s origin I5) as [items [Perm [Sorted R]]]. cbn [happen perform_event perform].
  destruct (render s origin false) as [out s']. destruct R as [[body Hbody] [Hout [-> _]]].
  assert (Nd : NoDup (map fst items)) by (apply (Permutation_NoDup (l := map fst (sc_buf s))); [apply Permutation_map, Permutation_sym, Perm|exact I5]).
  assert (Hget : forall q t, In (q, t) items -> pending s q = Some t).
  { intros q t Hi. unfold pending. apply (in_buf_get w h origin (e_grid m) tw th Hroom q t); [exact I5|]. eapply Permutation_in; eauto. }
  assert (Hin : forall q, In q (map fst items) <-> due q <> None).
  { intro q. rewrite in_map_iff. specialize (I12 q). split.
    - intros [[q' t] [E Hi]]. cbn in E. subst q'. apply Hget in Hi. intro N. rewrite N in I12. congruence.
    - intro H. destruct (due q) as [i|]; [|congruence]. destruct I12 as [cl [Ep _]]. apply buf_get_in in Ep. exists (q, drawn e cl). split; auto.
      eapply Permutation_in; [apply Permutation_sym|]; eauto. }
  set (G := fun q => match due q with Some i => i | None => bare_ink 32 end).
  assert (Hi : Forall (ink_item e w h G) items).
  { apply Forall_forall. intros [q t] Hi. pose proof (Hget q t Hi) as Ep. specialize (I12 q). unfold ink_item, G. cbn [fst snd].
    assert (N : due q <> None) by (apply Hin, in_map_iff; exists (q, t); auto).
    split; [now apply Hdue|]. destruct (due q) as [i|]; [|congruence]. destruct I12 as [cl [E1 E2]]. exists cl. split; [congruence|exact E2]. }
  assert (Hf : fits w h (fst origin, snd origin) m).
  { unfold fits. cbn [fst snd]. destruct I9 as [-> ->]. exact Hroom. }
  destruct (ink_items e sh w h (fst origin) (snd origin) Hsh G items None m Hi Nd I7 Hf) as [R1 [R2 [R3 [R4 R5]]]].
  { intros p Hp. discriminate. }
  pose proof (midway_emit e sh w h (fst origin) (snd origin) Hsh G items None ltac:(lia) ltac:(lia) Hi) as MW.
  assert (Em : emit (fst origin) (snd origin) None items = emitted origin items) by reflexivity.
  rewrite Em in *. set (m1 := vt (emitted origin items) m) in *.
  assert (V : exists p, vt out m = set_rend p m1 /\ p = rend0).
  { destruct Hout as [Ho | Ho].
    - exists (e_rend m1). rewrite set_rend_id, Ho. split; [reflexivity|].
      apply (midway_reset (emitted origin items) body m MW); [rewrite <- Ho; exact Hbody|apply I7].
    - exists rend0. rewrite Ho, vt_app. fold m1. change [27; 91; 48; 109] with RESET. split; [|reflexivity].
      apply vt_reset. apply R1. }
  destruct V as [p0 [-> ->]].
  assert (ON : forall i, In i items -> on_screen w h (fst i)) by (intros i Hx; rewrite Forall_forall in Hi; apply (Hi i Hx)).
  assert (SEEN : forall q, seen origin m1 q =
     match due q with Some i => inked sh i (pen_due w due pen (pos_no w q)) | None => seen_ q end).
  { intros q. destruct (due q) as [i|] eqn:Ed.
    - assert (N : due q <> None) by congruence. pose proof (Hdue q N) as Hq.
      assert (Hq' : In q (map fst items)) by (now apply Hin). apply in_map_iff in Hq'. destruct Hq' as [[q' t] [Eq Hq']]. cbn [fst] in Eq. subst q'.
      apply split_in in Hq'. destruct Hq' as [l [r Er]]. pose proof (R4 l q t r Er) as RR. replace (fst origin, snd origin) with origin in RR by now destruct origin.
      rewrite RR. assert (Gq : G q = i) by (unfold G; now rewrite Ed). rewrite Gq. f_equal.
      rewrite Er in Sorted. destruct (sorted_before _ _ _ Sorted) as [SB SA]. cbn [fst] in SB, SA.
      destruct (put_away G l) eqn:Ep.
      + unfold put_away in Ep. apply existsb_exists in Ep. destruct Ep as [[p tp] [P1 P2]]. cbn [fst] in P2. symmetry.
        assert (Pin : In (p, tp) items) by (rewrite Er; apply in_or_app; now left).
        pose proof (ON _ Pin) as Hp. cbn [fst] in Hp.
        apply (pen_due_some w due pen _ (pos_no w p)); [apply (above_no w h); auto; exact (SB _ P1)|].
        destruct (pos_no_nth w h p Hp) as [-> _]. unfold puts_due. unfold G in P2.
        assert (Np : due p <> None) by (apply Hin, in_map_iff; exists (p, tp); auto). destruct (due p); [exact P2|congruence].
      + rewrite I8. symmetry. apply pen_due_none. intros j Hj. destruct (pos_no_nth w h q Hq) as [_ Hn].
        destruct (nth_no_pos w h j ltac:(lia)) as [Hp Ej]. set (p := nth_pos w j) in *. unfold puts_due.
        destruct (due p) as [ip|] eqn:Edp; [|reflexivity].
        assert (Gp : G p = ip) by (unfold G; now rewrite Edp).
        assert (Hp' : In p (map fst items)) by (apply Hin; congruence). apply in_map_iff in Hp'. destruct Hp' as [[p' tp] [Eq Hp']]. cbn [fst] in Eq. subst p'.
        rewrite Er in Hp'. apply in_app_iff in Hp'. destruct Hp' as [Hp'|[Hp'|Hp']].
        * destruct (written ip) eqn:Ew; [|reflexivity]. exfalso. unfold put_away in Ep.
          assert (X : existsb (fun i : pos * str => written (G (fst i))) l = true).
          { apply existsb_exists. exists (p, tp). cbn [fst]. rewrite Gp. auto. }
          congruence.
        * assert (p = q) by congruence. subst q. lia.
        * specialize (SA _ Hp'). cbn [fst] in SA. apply (above_no w h) in SA; auto. lia.
    - rewrite <- I13. unfold seen. apply R5. intro Hq'. apply Hin in Hq'.
      replace (fst q + fst origin - 1 - fst origin + 1, snd q + snd origin - 1 - snd origin + 1) with q in Hq' by (destruct q; cbn; f_equal; lia).
      congruence. }
  cbn [show]. split; cbn [fst snd sc_w sc_h sc_off v_w v_h v_tw v_th v_ink v_due v_seen v_pen set_rend e_rend e_w e_h e_grid]; auto.
  - constructor.
  - destruct I9. split; congruence.
  - intro q. reflexivity.
Qed.

Lemma vinv_redraw : forall k V, vinv k V -> roomy origin V ->
  vinv (happen e origin k (HDo ERedraw)) (show sh origin V (HDo ERedraw)).
Proof.
  intros k V I Hroom.
  destruct k as [[s c] m]. destruct V as [w h tw th ink due seen_ pen].
  destruct I as [I1 I2 I3 I4 I5 I6 I7 I8 I9 I10 I11 I12 I13].
  unfold roomy in Hroom. cbn [fst snd v_w v_h v_tw v_th v_ink v_due v_seen v_pen] in *.
  set (s0 := mkScreen (sc_w s) (sc_h s) (sc_cells s) [] (sc_cursor s) (sc_off s)).
  set (D := mkDisplay ink none_due seen_ pen).
  assert (I0 : dinv e w h origin (e_grid m) tw th (s0, c, m) D).
  { split; cbn [fst snd s0 sc_w sc_h sc_off D d_ink d_due d_seen d_pen]; auto.
    - constructor.
    - intros q t E. discriminate E.
    - intros q _. split; [discriminate|]. intro N. exfalso. apply N. reflexivity. }
  pose proof (dinv_redraw e sh w h origin (e_grid m) tw th Hroom _ _ I0) as I.
  change (perform_event e origin (s0, c, m) ERedraw) with (perform_event e origin (s, c, m) ERedraw) in I.
  cbn [happen]. destruct (perform_event e origin (s, c, m) ERedraw) as [[s' c'] m'] eqn:EK.
  destruct I as [J1 J2 J3 J4 J5 J6 J7 J8 J9 J10 J11 J12 J13 J14 J15].
  cbn [fst snd show_event D d_ink d_due d_seen d_pen v_w v_h v_tw v_th v_ink v_due v_seen v_pen show] in *.
  split; cbn [fst snd v_w v_h v_tw v_th v_ink v_due v_seen v_pen]; auto.
  - intro q. cbn [perform_event render] in EK. destruct origin as [ox oy]. injection EK as <- _ _. reflexivity.
  - intro q. destruct (inside w h q) eqn:E.
    + apply inside_iff in E. exact (J14 q E).
    + apply inside_not in E. rewrite <- I13. apply J15.
      replace (fst q + fst origin - 1 - fst origin + 1, snd q + snd origin - 1 - snd origin + 1) with q by (destruct q; cbn; f_equal; lia).
      exact E.
Qed.

Lemma vinv_happen : forall k V v, vinv k V -> happening_ok origin V v -> vinv (happen e origin k v) (show sh origin V v).
Proof.
  intros k V [[[data tb force|fill|]| |pen]|w h fill keep|m'] I Hv; cbn [happening_ok] in Hv.
  - apply vinv_write; tauto.
  - apply vinv_clear; tauto.
  - apply vinv_draw; tauto.
  - apply vinv_redraw; tauto.
  - destruct k as [[s c] m]. destruct V as [w h tw th ink due seen_ pen0]. destruct I as [I1 I2 I3 I4 I5 I6 I7 I8 I9 I10 I11 I12 I13].
    cbn [happen perform_event show]. split; cbn [fst snd v_w v_h v_tw v_th v_ink v_due v_seen v_pen] in *; auto.
  - now apply vinv_resize.
  - destruct k as [[s c] m]. destruct V as [w h tw th ink due seen_ pen0]. destruct I as [I1 I2 I3 I4 I5 I6 I7 I8 I9 I10 I11 I12 I13].
    cbn [happen perform_event show]. split; cbn [fst snd v_w v_h v_tw v_th v_ink v_due v_seen v_pen] in *; auto.
Qed.
Lemma vinv_run : forall l k V, vinv k V -> happenings_ok sh origin V l ->
  vinv (fold_left (happen e origin) l k) (shows sh origin V l).
Proof.
  intro l. induction l as [|v l IH]; intros k V I Hv; [exact I|]. destruct Hv as [H1 H2].
  cbn [fold_left]. apply IH; [|exact H2]. now apply vinv_happen.
Qed.
End Run.

(** * The theorem *)
Lemma reshaped_exactly : forall e sh w h cursor fill origin m l, shades e sh -> is_ctl fill = false -> listening m ->
  happenings_ok sh origin (first_view w h fill origin m) l ->
  let '(s, _, m') := fold_left (happen e origin) l (new_screen w h cursor [fill], [], m) in
  let V := shows sh origin (first_view w h fill origin m) l in
  (forall q, seen origin m' q = v_seen V q) /\ e_rend m' = v_pen V /\ listening m' /\
  sc_w s = v_w V /\ sc_h s = v_h V /\ (forall q, pending s q <> None <-> v_due V q <> None).
Proof.
  intros e sh w h cursor fill origin m l Hsh Hfill Hm Hl.
  pose proof (vinv_run e sh origin Hsh l _ _ (vinv_start e origin w h cursor fill m Hfill Hm) Hl) as I.
  destruct (fold_left (happen e origin) l _) as [[s c] m']. cbv zeta. set (V := shows sh origin _ l) in *.
  destruct I as [I1 I2 I3 I4 I5 I6 I7 I8 I9 I10 I11 I12 I13]. cbn [fst snd] in *.
  split; [exact I13|]. split; [exact I8|]. split; [exact I7|]. split; [exact I1|]. split; [exact I2|].
  intro q. specialize (I12 q). destruct (v_due V q); [|rewrite I12; split; congruence].
  destruct I12 as [c0 [-> _]]. split; discriminate.
Qed.
