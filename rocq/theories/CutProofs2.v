(** Every instant of a draw, and what a full redraw repairs. *)
From Coq Require Import ZArith Reals List Bool Lia String Permutation Sorting.Sorted.
From Verif Require Import PyBase PyLemmas F64 SpaceModel ColorModel ColorSpec ColorProofs AnsiRe SpanModel Vt SpanSpec
  SpanProofs SpanProofs2 ScreenModel ScreenSpec ScreenProofs ScreenProofs3 ScreenProofs4 ScreenProofs5 ScreenProofs6 ScreenProofs7 ScreenProofs8 DrawSpec
  DrawProofs DrawProofs2 DrawProofs3 CutProofs.
Import ListNotations.
Open Scope Z_scope.

Lemma above_dec : forall a b, above a b \/ ~ above a b.
Proof. intros a b. unfold above. lia. Qed.

Section Cut.
Variables (e : env) (sh : triple -> ecolor) (w h : Z) (origin : pos) (g0 : Z -> Z -> ecell) (W0 H0 : Z).
Hypothesis Hsh : shades e sh.
Hypothesis Hfit : 1 <= fst origin /\ 1 <= snd origin /\ fst origin - 1 + w <= W0 /\ snd origin - 1 + h <= H0.

Lemma draw_parts : forall st s c m P, inv e sh w h origin g0 W0 H0 st (s, c, m) P ->
  exists items, StronglySorted (fun a b => above (fst a) (fst b)) items /\ NoDup (map fst items) /\
    (forall q, In q (map fst items) <-> pending s q <> None) /\ Forall (shows_item e sh w h P) items /\
    (fst (render s origin false) = emit (fst origin) (snd origin) None items \/
     fst (render s origin false) = emit (fst origin) (snd origin) None items ++ RESET).
Proof.
  intros st s c m P I. destruct I as [I1 I2 I3 I4 I5 I6 I7 I8 I9 I10 I11 I12]. cbn [fst snd] in *.
  destruct (render_spec s origin I5) as [items [Perm [Sorted R]]]. exists items.
  destruct (render s origin false) as [out s']. destruct R as [_ [Hout _]].
  split; [exact Sorted|]. split; [|split; [|split]].
  - apply (Permutation_NoDup (l := map fst (sc_buf s))); [apply Permutation_map, Permutation_sym, Perm|exact I5].
  - intro q. rewrite in_map_iff. split.
    + intros [[q' t] [E Hi]]. cbn in E. subst q'. unfold pending. rewrite (in_buf_get w h origin g0 W0 H0 Hfit q t); [discriminate|exact I5|].
      eapply Permutation_in; eauto.
    + intro H. destruct (pending s q) as [t|] eqn:Ep; [|congruence]. apply buf_get_in in Ep. exists (q, t). split; auto.
      eapply Permutation_in; [apply Permutation_sym|]; eauto.
  - apply Forall_forall. intros [q t] Hi. assert (Ep : pending s q = Some t).
    { unfold pending. apply (in_buf_get w h origin g0 W0 H0 Hfit); [exact I5|]. eapply Permutation_in; eauto. }
    destruct (I10 q t Ep) as [A [cl [B C]]]. split; [exact A|]. exists cl. auto.
  - exact Hout.
Qed.

(** a whole number of cells *)
Lemma cut_items : forall st s c m P a b, inv e sh w h origin g0 W0 H0 st (s, c, m) P -> fst (render s origin false) = a ++ b ->
  exists i1 i2 : list (pos * str), StronglySorted (fun a b => above (fst a) (fst b)) (i1 ++ i2) /\
    (forall q, In q (map fst (i1 ++ i2)) <-> pending s q <> None) /\
    (forall q, In q (map fst i1) -> seen origin (vt a m) q = (fst (P q), snd (P q), [])) /\
    (forall X Y, ~ In (X - fst origin + 1, Y - snd origin + 1) (map fst i1) -> e_grid (vt a m) X Y = e_grid m X Y) /\
    e_w (vt a m) = W0 /\ e_h (vt a m) = H0 /\ e_link (vt a m) = [] /\ mid (e_parse (vt a m)).
Proof.
  intros st s c m P a b I E. destruct (draw_parts st s c m P I) as [items [Srt [Nd [Hin [Hi Ho]]]]].
  destruct I as [I1 I2 I3 I4 I5 I6 I7 I8 I9 I10 I11 I12]. cbn [fst snd] in *.
  assert (Hf : fits w h (fst origin, snd origin) m) by (unfold fits; cbn [fst snd]; destruct I8 as [-> ->]; exact Hfit).
  assert (Hp : after_prev w (fst origin) (snd origin) m None) by (intros p Hp; discriminate).
  set (em := emit (fst origin) (snd origin) None) in *.
  assert (T : exists i1 i2, items = i1 ++ i2 /\ like (vt (em i1) m) (vt a m) /\ mid (e_parse (vt a m))).
  { assert (D : (exists l, em items = a ++ l) \/ (exists l, a = em items ++ l /\ RESET = l ++ b)).
    { destruct Ho as [Ho|Ho]; rewrite Ho in E; [left; eauto|]. destruct (cut_app _ _ _ _ E) as [D|D]; auto. }
    destruct D as [[l L]|[l [-> L]]]; [exact (torn e sh w h (fst origin) (snd origin) Hsh P items None m Hi I7 Hf Hp a l L)|].
    destruct (draw_items e sh w h (fst origin) (snd origin) Hsh P items None m Hi Nd I7 Hf Hp) as [[R1 _] _]. fold em in R1.
    destruct (quiet_reset _ R1) as [_ Q]. destruct (Q l b L) as [Q1 Q2]. exists items, []. rewrite app_nil_r, vt_app. auto. }
  destruct T as [i1 [i2 [-> [[L1 L2 L3 L4] L5]]]]. exists i1, i2. split; [exact Srt|]. split; [exact Hin|].
  apply Forall_app in Hi. destruct Hi as [Hi _]. rewrite map_app in Nd.
  assert (Nd1 : NoDup (map fst i1)) by (clear -Nd; induction (map fst i1) as [|x l IH]; [constructor|]; cbn in Nd; inversion Nd; subst; constructor; [intro; apply H1; apply in_or_app; auto|auto]).
  destruct (draw_items e sh w h (fst origin) (snd origin) Hsh P i1 None m Hi Nd1 I7 Hf Hp) as [[R1 [R6 R7]] [R2 [R3 [_ [R4 R5]]]]]. fold em in R1, R2, R3, R4, R5, R6, R7.
  split; [|split; [|split; [|split; [|split]]]]; auto.
  - intros q Hq. specialize (R4 q Hq). unfold seen in *. cbn [fst snd] in R4. rewrite L1. exact R4.
  - intros X Y Hq. rewrite L1. now apply R5.
  - destruct I8. congruence.
  - destruct I8. congruence.
  - congruence.
Qed.

Lemma instant : forall s c m P a b, inv e sh w h origin g0 W0 H0 never (s, c, m) P -> fst (render s origin false) = a ++ b ->
  exists cut : pos,
    (forall q, on_screen w h q -> above q cut -> seen origin (vt a m) q = (fst (P q), snd (P q), [])) /\
    (forall q, on_screen w h q -> ~ above q cut -> seen origin (vt a m) q = seen origin m q) /\
    (forall X Y, ~ on_screen w h (X - fst origin + 1, Y - snd origin + 1) -> e_grid (vt a m) X Y = g0 X Y).
Proof.
  intros s c m P a b I E. destruct (cut_items never s c m P a b I E) as [i1 [i2 [Srt [Hin [Hnew [Hold _]]]]]].
  destruct I as [I1 I2 I3 I4 I5 I6 I7 I8 I9 I10 I11 I12]. cbn [fst snd] in *.
  assert (Key : forall q, (fst q + fst origin - 1 - fst origin + 1, snd q + snd origin - 1 - snd origin + 1) = q) by (intros [x y]; cbn; f_equal; lia).
  assert (Hold' : forall q, ~ In q (map fst i1) -> seen origin (vt a m) q = seen origin m q).
  { intros q Hq. unfold seen. apply Hold. now rewrite Key. }
  exists (match i2 with [] => (0, h) | (q, _) :: _ => q end). split; [|split].
  - intros q Hq Ha. destruct (pending s q) as [t|] eqn:Ep.
    + assert (In q (map fst (i1 ++ i2))) as K by (apply Hin; congruence). rewrite map_app in K. apply in_app_iff in K. destruct K as [K|K]; [now apply Hnew|].
      exfalso. destruct i2 as [|[q0 t0] i2]; [destruct K|]. cbn [map fst] in K. destruct K as [<-|K]; [unfold above in Ha; lia|].
      assert (S2 : StronglySorted (fun a b : pos * str => above (fst a) (fst b)) ((q0, t0) :: i2)).
      { clear -Srt. induction i1 as [|x l IH]; [exact Srt|]. cbn in Srt. inversion Srt; subst. auto. }
      inversion S2 as [|? ? _ F]; subst. rewrite Forall_forall in F. apply in_map_iff in K. destruct K as [[q' t'] [Eq K]]. cbn in Eq. subst q'.
      specialize (F _ K). cbn in F. unfold above in *. lia.
    + rewrite Hold'; [destruct (I11 q Hq Ep) as [A|[[] _]]; exact A|]. intro K. assert (In q (map fst (i1 ++ i2))) as K2 by (rewrite map_app; apply in_or_app; auto).
      apply Hin in K2. congruence.
  - intros q Hq Ha. apply Hold'. intro K. apply Ha. destruct i2 as [|[q0 t0] i2]; [unfold above, on_screen in *; cbn in *; lia|].
    apply in_map_iff in K. destruct K as [[q' t'] [Eq K]]. cbn in Eq. subst q'.
    clear -Srt K. induction i1 as [|x l IH]; [destruct K|]. cbn in Srt. inversion Srt as [|? ? S1 F]; subst. destruct K as [->|K]; [|auto].
    rewrite Forall_forall in F. apply (F (q0, t0)). apply in_or_app. right. now left.
  - intros X Y Ho. rewrite Hold; [now apply I12|]. intro K. apply Ho.
    assert (K2 : In (X - fst origin + 1, Y - snd origin + 1) (map fst (i1 ++ i2))) by (rewrite map_app; apply in_or_app; auto).
    apply Hin in K2. destruct (pending s (X - fst origin + 1, Y - snd origin + 1)) as [t|] eqn:Ep; [|congruence]. apply (I10 _ _ Ep).
Qed.

(** * What a full redraw makes of any state of the terminal *)
Lemma esc_resets : forall s m, mid (e_parse m) -> vt (27 :: s) m = vt (27 :: s) (set_parse PGround m).
Proof.
  intros s m H. change (27 :: s) with ([27] ++ s). rewrite !vt_app. f_equal. cbn [vt fold_left]. unfold feed1.
  destruct m as [a1 a2 a3 a4 a5 a6 a7 a8 p a10 a11 a12]. cbn [e_parse set_parse e_w e_h e_grid e_x e_y e_wrap e_rend e_link e_modes e_title e_titles] in *.
  destruct p; try contradiction; reflexivity.
Qed.
Lemma cells_typed : forall s (P : picture) m1, sc_w s = w -> sc_h s = h -> shaped s ->
  (forall q, on_screen w h q -> exists c, cell_at s q = Some c /\ shows sh c (P q)) ->
  e_parse m1 = PGround -> e_link m1 = [] -> e_w m1 = W0 -> e_h m1 = H0 ->
  let m' := vt (redraw_rows (fst origin) (snd origin) (sc_cells s)) m1 in
  (forall q, on_screen w h q -> exists rd, at_least (snd (P q)) rd /\ seen origin m' q = (fst (P q), rd, [])) /\
  (forall X Y, ~ on_screen w h (X - fst origin + 1, Y - snd origin + 1) -> e_grid m' X Y = e_grid m1 X Y).
Proof.
  intros s P m1 I1 I2 [L1 L2] I9 Cp Cl E1 E2. cbv zeta. destruct origin as [ox oy]. cbn [fst snd] in *. destruct Hfit as [F1 [F2 [F3 F4]]].
  rewrite I1, I2 in *.
  assert (C1 : calm_term (fun _ => True) m1) by (split; auto).
  assert (D : w <= 0 \/ 0 < w) by lia. destruct D as [D|D].
  { assert (Vm : forall rows y m0, calm_term (fun _ => True) m0 -> 0 <= y -> Forall (fun row : list cell => zlen row = Z.max 0 w) rows ->
       e_grid (vt (redraw_rows ox y rows) m0) = e_grid m0).
    { intro rows. induction rows as [|row rows IH]; intros y m0 K1 K2 K3; [reflexivity|]. inversion K3 as [|? ? R1 R2]; subst.
      assert (row = []) as -> by (destruct row; [reflexivity|rewrite zlen_cons in R1; unfold zlen in R1; lia]).
      cbn [redraw_rows map List.concat app]. rewrite vt_app. change (cup ox y) with (move_to ox y). destruct K1 as [A [B C]]. rewrite vt_move by (auto; lia).
      rewrite IH; auto; try lia; try (split; [exact A|split; [exact B|exact C]]). }
    rewrite Vm; auto; try lia. split; [intros q [Q1 Q2]; lia|]. reflexivity. }
  assert (D2 : h <= 0 \/ 0 < h) by lia. destruct D2 as [D2|D2].
  { assert (En : sc_cells s = []) by (destruct (sc_cells s); [reflexivity|rewrite zlen_cons in L1; unfold zlen in L1; lia]).
    rewrite En. cbn [redraw_rows]. change (vt [] m1) with m1. split; [intros q [Q1 Q2]; lia|]. reflexivity. }
  assert (Z0 : 0 <= zlen (sc_cells s)) by (unfold zlen; lia).
  assert (Lrow : forall j row, nth_error (sc_cells s) j = Some row -> zlen row = w).
  { intros j row E. apply nth_error_In in E. rewrite Forall_forall in L2. rewrite (L2 row E). lia. }
  destruct (typed_rows (fun _ => True) (fun _ => True) at_least I (fun f fg bg pen _ _ => conj I (at_least_styled f fg bg pen))
    sh w ox (sc_cells s) oy m1 (fun X Y => P (X - ox + 1, Y - oy + 1))) as [R1 [R2 [R3 [R4 R5]]]]; try lia; auto.
  { intros j k row c0 Er Ec. assert (Hk : (k < List.length row)%nat) by (apply nth_error_Some; congruence).
    assert (Hj : (j < List.length (sc_cells s))%nat) by (apply nth_error_Some; congruence).
    pose proof (Lrow _ _ Er) as Lr. unfold zlen in Lr, L1.
    assert (Hq : on_screen w h (Z.of_nat k, Z.of_nat j)) by (unfold on_screen; cbn; lia).
    destruct (I9 _ Hq) as [c1 [Ec1 Hc1]]. unfold cell_at in Ec1. cbn [fst snd] in Ec1.
    rewrite (proj2 (Z.leb_le 0 (Z.of_nat k))), (proj2 (Z.leb_le 0 (Z.of_nat j))) in Ec1 by lia. cbn [andb] in Ec1. unfold mget in Ec1.
    rewrite !Nat2Z.id, Er in Ec1. unfold cell in *. rewrite Ec in Ec1. injection Ec1 as <-.
    replace (ox - 1 + Z.of_nat k - ox + 1) with (Z.of_nat k) by lia. replace (oy - 1 + Z.of_nat j - oy + 1) with (Z.of_nat j) by lia.
    split; [exact Hc1|exact I]. }
  split.
  - intros q [Q1 Q2]. destruct (R4 (fst q + ox - 1) (snd q + oy - 1)) as [rd [U E]]; try lia.
    replace (fst q + ox - 1 - ox + 1, snd q + oy - 1 - oy + 1) with q in U, E by (destruct q; cbn; f_equal; lia).
    exists rd. split; [exact U|]. unfold seen. cbn [fst snd]. exact E.
  - intros X Y Ho. rewrite R5; [reflexivity|]. intro K. apply Ho. unfold on_screen. cbn [fst snd]. lia.
Qed.
Lemma repaired : forall s c m P a b, inv e sh w h origin g0 W0 H0 never (s, c, m) P -> fst (render s origin false) = a ++ b ->
  let m' := vt (fst (render (snd (render s origin false)) origin true)) (vt a m) in
  (forall q, on_screen w h q -> exists rd, at_least (snd (P q)) rd /\ seen origin m' q = (fst (P q), rd, [])) /\
  (forall X Y, ~ on_screen w h (X - fst origin + 1, Y - snd origin + 1) -> e_grid m' X Y = g0 X Y).
Proof.
  intros s c m P a b I E. pose proof (instant s c m P a b I E) as [cut [_ [_ Hout]]].
  destruct (cut_items never s c m P a b I E) as [_ [_ [_ [_ [_ [_ [Ew [Eh [El Em]]]]]]]]].
  destruct I as [I1 I2 I3 I4 I5 I6 I7 I8 I9 I10 I11 I12]. cbn [fst snd] in *. cbv zeta.
  assert (Er : fst (render (snd (render s origin false)) origin true) = redraw_rows (fst origin) (snd origin) (sc_cells s))
    by (unfold render; destruct origin; reflexivity).
  rewrite Er. set (m1 := vt a m) in *.
  assert (Es : vt (redraw_rows (fst origin) (snd origin) (sc_cells s)) m1 = vt (redraw_rows (fst origin) (snd origin) (sc_cells s)) (set_parse PGround m1) \/ sc_cells s = []).
  { destruct (sc_cells s) as [|row rows]; [auto|left]. cbn [redraw_rows]. unfold cup. cbn [app]. now apply esc_resets. }
  destruct Es as [Es|Es].
  - rewrite Es. destruct (cells_typed s P (set_parse PGround m1) I1 I2 I3 I9) as [A B]; auto.
    split; [exact A|]. intros X Y Ho. rewrite B by exact Ho. exact (Hout X Y Ho).
  - rewrite Es. cbn [redraw_rows]. change (vt [] m1) with m1. split; [|exact Hout].
    intros q [Q1 Q2]. destruct I3 as [L1 _]. rewrite Es in L1. unfold zlen in L1. cbn in L1. lia.
Qed.
(** Drawing again adds nothing, however often. *)
Lemma not_repaired : forall s c m P a b n, inv e sh w h origin g0 W0 H0 never (s, c, m) P -> fst (render s origin false) = a ++ b ->
  let '(s', c', m') := fold_left (perform e origin) (repeat ADraw n) (snd (render s origin false), c, vt a m) in
  e_grid m' = e_grid (vt a m).
Proof.
  intros s c m P a b n I E. destruct (cut_items never s c m P a b I E) as [_ [_ [_ [_ [_ [_ [_ [_ [_ Em]]]]]]]]].
  set (s1 := snd (render s origin false)). set (m1 := vt a m) in *.
  assert (R : render s1 origin false = (RESET, s1)) by (unfold s1, render; destruct origin; reflexivity).
  assert (K : forall k m', mid (e_parse m') -> exists m'', fold_left (perform e origin) (repeat ADraw k) (s1, c, m') = (s1, c, m'') /\ e_grid m'' = e_grid m').
  { induction k as [|k IH]; intros m' K3; [exists m'; auto|]. cbn [repeat fold_left perform]. rewrite R.
    destruct (quiet_reset (set_parse PGround m') eq_refl) as [Q1 Q2]. destruct (Q2 RESET [] ltac:(now rewrite app_nil_r)) as [[Q3 _ _ _] _].
    assert (Er : vt RESET m' = vt RESET (set_parse PGround m')) by (apply (esc_resets (91 :: lit "0"%string ++ [109]) m' K3)).
    rewrite <- Er in Q1, Q3. destruct (IH (vt RESET m')) as [m'' [A B]]; [rewrite Q1; exact Logic.I|]. exists m''. split; [exact A|]. rewrite B, Q3. reflexivity. }
  destruct (K n m1 Em) as [m' [-> K']]. exact K'.
Qed.
End Cut.

(** * The theorems *)
Section Histories.
Variables (e : env) (sh : triple -> ecolor) (w h : Z) (cursor : pos) (fill : Z) (origin : pos) (m : emu) (acts : list act).
Hypothesis Hsh : shades e sh.
Hypothesis Hfill : is_ctl fill = false.
Hypothesis Hm : at_rest m.
Hypothesis Hf : fits w h origin m.
Hypothesis Ha : Forall (act_ok w h) acts.
Lemma history_inv : inv e sh w h origin (e_grid m) (e_w m) (e_h m) never (fold_left (perform e origin) acts (new_screen w h cursor [fill], [], m))
  (fold_left (paint_act sh w h) acts (blank fill)).
Proof. apply inv_run; auto. apply inv_start; auto. Qed.
End Histories.

Theorem every_instant : forall e sh w h cursor fill origin m acts, shades e sh -> is_ctl fill = false ->
  at_rest m -> fits w h origin m -> Forall (act_ok w h) acts ->
  let '(s, _, m1) := fold_left (perform e origin) acts (new_screen w h cursor [fill], [], m) in
  let p := fold_left (paint_act sh w h) acts (blank fill) in
  forall a b, fst (render s origin false) = a ++ b ->
  exists cut : pos,
    (forall q, on_screen w h q -> above q cut -> seen origin (vt a m1) q = (fst (p q), snd (p q), [])) /\
    (forall q, on_screen w h q -> ~ above q cut -> seen origin (vt a m1) q = seen origin m1 q) /\
    (forall X Y, ~ on_screen w h (X - fst origin + 1, Y - snd origin + 1) -> e_grid (vt a m1) X Y = e_grid m X Y).
Proof.
  intros e sh w h cursor fill origin m acts Hsh Hfill Hm Hf Ha.
  pose proof (history_inv e sh w h cursor fill origin m acts Hsh Hfill Hm Hf Ha) as I.
  destruct (fold_left (perform e origin) acts _) as [[s c] m1]. cbv zeta. intros a b E.
  exact (instant e sh w h origin (e_grid m) (e_w m) (e_h m) Hsh Hf s c m1 _ a b I E).
Qed.
Theorem redraw_repairs : forall e sh w h cursor fill origin m acts, shades e sh -> is_ctl fill = false ->
  at_rest m -> fits w h origin m -> Forall (act_ok w h) acts ->
  let '(s, _, m1) := fold_left (perform e origin) acts (new_screen w h cursor [fill], [], m) in
  let p := fold_left (paint_act sh w h) acts (blank fill) in
  forall a b, fst (render s origin false) = a ++ b ->
  let m' := vt (fst (render (snd (render s origin false)) origin true)) (vt a m1) in
  (forall q, on_screen w h q -> exists rd, at_least (snd (p q)) rd /\ seen origin m' q = (fst (p q), rd, [])) /\
  (forall X Y, ~ on_screen w h (X - fst origin + 1, Y - snd origin + 1) -> e_grid m' X Y = e_grid m X Y).
Proof.
  intros e sh w h cursor fill origin m acts Hsh Hfill Hm Hf Ha.
  pose proof (history_inv e sh w h cursor fill origin m acts Hsh Hfill Hm Hf Ha) as I.
  destruct (fold_left (perform e origin) acts _) as [[s c] m1]. cbv zeta. intros a b E.
  exact (repaired e sh w h origin (e_grid m) (e_w m) (e_h m) Hsh Hf s c m1 _ a b I E).
Qed.
Theorem draw_repairs_nothing : forall e sh w h cursor fill origin m acts n, shades e sh -> is_ctl fill = false ->
  at_rest m -> fits w h origin m -> Forall (act_ok w h) acts ->
  let '(s, c, m1) := fold_left (perform e origin) acts (new_screen w h cursor [fill], [], m) in
  forall a b, fst (render s origin false) = a ++ b ->
  let '(_, _, m') := fold_left (perform e origin) (repeat ADraw n) (snd (render s origin false), c, vt a m1) in
  e_grid m' = e_grid (vt a m1).
Proof.
  intros e sh w h cursor fill origin m acts n Hsh Hfill Hm Hf Ha.
  pose proof (history_inv e sh w h cursor fill origin m acts Hsh Hfill Hm Hf Ha) as I.
  destruct (fold_left (perform e origin) acts _) as [[s c] m1]. intros a b E.
  exact (not_repaired e sh w h origin (e_grid m) (e_w m) (e_h m) Hsh Hf s c m1 _ a b n I E).
Qed.
