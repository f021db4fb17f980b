(** Consequences for hue_shift: totality, bounds, greys, whole and third turns, complement. *)
From Coq Require Import ZArith Reals List Bool Lia Lra.
From Flocq Require Import Core.
From Flocq Require Import IEEE754.BinarySingleNaN.
From Verif Require Import PyBase F64 ColorTab SpaceModel ColorModel ColorSpec ColorProofs FloatLemmas BlendProofs PaletteProofs
  HueSpec HueProofs HueProofs2.
Open Scope R_scope.

(** * Truncation of 255/256 of a channel *)
Definition near_trunc (z : Z) (y : R) : Prop := IZR z - / 1000 <= y < IZR z + 1 + / 1000.
Lemma truncated_near : forall z y y', truncated_to z y -> Rabs (y - y') <= / 2000 -> near_trunc z y'.
Proof.
  intros z y y' [H1 H2] H. apply Rabs_le_inv in H. unfold near_trunc, tiny in *. lra.
Qed.
Lemma near_le : forall z m y, near_trunc z y -> (0 <= z)%Z -> channel_ok m -> 255 * (IZR m / 256) <= y -> (dimmed m <= z)%Z.
Proof.
  intros z m y [_ H2] Hz Hm H. unfold dimmed. unfold channel_ok in Hm. apply Z.max_lub; [lia|].
  assert (IZR m <= 255) by (apply IZR_le; lia).
  assert (G : IZR (m - 2) < IZR z) by (rewrite minus_IZR; lra). apply lt_IZR in G. lia.
Qed.
Lemma near_ge : forall z m y, near_trunc z y -> channel_ok m -> y <= 255 * (IZR m / 256) -> (z <= dimmed m)%Z.
Proof.
  intros z m y [H1 _] Hm H. unfold dimmed. unfold channel_ok in Hm. destruct (Z.eq_dec m 0) as [->|N].
  - assert (G : IZR z < 1) by lra. apply lt_IZR in G. lia.
  - assert (1 <= IZR m) by (apply IZR_le; lia).
    assert (G : IZR z < IZR m) by lra. apply lt_IZR in G. lia.
Qed.
Lemma near_dimmed : forall z m, near_trunc z (255 * (IZR m / 256)) -> (0 <= z)%Z -> channel_ok m -> z = dimmed m.
Proof.
  intros z m H Hz Hm. apply Z.le_antisymm; [eapply near_ge|eapply near_le]; eauto; lra.
Qed.

(** * The channels at their own hue *)
Lemma at_own_hue : forall r g b, channel_ok r -> channel_ok g -> channel_ok b -> bot r g b <> top r g b ->
  let at_ := at_hue (lo_of r g b) (hi_of r g b) in let H := true_hue r g b in
  at_ (H + / 3) = IZR r / 256 /\ at_ H = IZR g / 256 /\ at_ (H - / 3) = IZR b / 256.
Proof.
  intros r g b Hr Hg Hb NE. cbv zeta. unfold at_hue, lo_of, hi_of, true_hue.
  fold (top r g b) (bot r g b). set (M := top r g b) in *. set (m := bot r g b) in *.
  assert (Hmm : (m < M)%Z) by (unfold m, M, top, bot in *; lia).
  assert (W : forall x w c, weight (frac x) = w -> (IZR M - IZR m) * w = IZR c - IZR m ->
     IZR m / 256 + (IZR M / 256 - IZR m / 256) * weight (frac x) = IZR c / 256).
  { intros x w c E1 E2. rewrite E1. lra. }
  assert (P : 0 < IZR M - IZR m) by (apply IZR_lt in Hmm; lra).
  assert (Q : forall n, (0 <= n <= M - m)%Z -> 0 <= IZR n / IZR (M - m) <= 1 /\ (IZR M - IZR m) * (IZR n / IZR (M - m)) = IZR n).
  { intros n Hn. rewrite minus_IZR. assert (0 <= IZR n) by (apply IZR_le; lia).
    assert (IZR n <= IZR M - IZR m) by (rewrite <- minus_IZR; apply IZR_le; lia). split.
    - split; [apply Rmult_le_pos; [lra|left; apply Rinv_0_lt_compat; lra]|].
      apply Rmult_le_reg_r with (IZR M - IZR m); [lra|]. field_simplify; lra.
    - field. lra. }
  assert (FR : forall x k w, 0 <= x + IZR k < 1 -> weight (x + IZR k) = w -> weight (frac x) = w).
  { intros x k w H <-. now rewrite (frac_unique x k H). }
  assert (FR1 : forall x k w, 0 <= x + IZR k <= 1 -> (x + IZR k = 1 -> w = 0) -> weight (x + IZR k) = w -> weight (frac x) = w).
  { intros x k w H H1 H2. destruct (Req_dec (x + IZR k) 1) as [E|E].
    - rewrite H1 by assumption. rewrite (frac_unique x (k - 1)) by (rewrite minus_IZR; lra).
      rewrite minus_IZR. wcases (x + (IZR k - 1)); lra.
    - apply (FR x k); [lra|assumption]. }
  destruct (Z.eqb_spec r M) as [ER|ER]; [|destruct (Z.eqb_spec g M) as [EG|EG]].
  - (* red brightest *)
    rewrite <- minus_IZR. destruct (Z.le_gt_cases b g) as [L|L].
    + assert (EB : b = m) by (unfold m, M, bot, top in *; lia).
      destruct (Q (g - b)%Z ltac:(unfold m, M, bot, top in *; lia)) as [R1 R2].
      set (t := IZR (g - b) / IZR (M - m)) in *. rewrite minus_IZR in R2.
      split; [|split].
      * apply (W _ 1); [apply (FR _ 0%Z); simpl; [lra|wcases (t / 6 + / 3 + 0); lra]|rewrite ER; lra].
      * apply (W _ t); [apply (FR _ 0%Z); simpl; [lra|wcases (t / 6 + 0); lra]|rewrite <- EB at 2; lra].
      * apply (W _ 0); [apply (FR _ 1%Z); simpl; [lra|wcases (t / 6 - / 3 + 1); lra]|rewrite <- EB; lra].
    + assert (EB : g = m) by (unfold m, M, bot, top in *; lia).
      destruct (Q (b - g)%Z ltac:(unfold m, M, bot, top in *; lia)) as [R1 R2].
      replace (IZR (g - b) / IZR (M - m)) with (- (IZR (b - g) / IZR (M - m))) by (rewrite !minus_IZR; field; lra).
      set (t := IZR (b - g) / IZR (M - m)) in *. rewrite minus_IZR in R2.
      split; [|split].
      * apply (W _ 1); [apply (FR _ 0%Z); simpl; [lra|wcases (- t / 6 + / 3 + 0); lra]|rewrite ER; lra].
      * apply (W _ 0); [apply (FR1 _ 1%Z); simpl; [lra|lra|wcases (- t / 6 + 1); lra]|rewrite <- EB; lra].
      * apply (W _ t); [apply (FR _ 1%Z); simpl; [lra|wcases (- t / 6 - / 3 + 1); lra]|rewrite <- EB at 2; lra].
  - rewrite <- minus_IZR. destruct (Z.le_gt_cases r b) as [L|L].
    + assert (EB : r = m) by (unfold m, M, bot, top in *; lia).
      destruct (Q (b - r)%Z ltac:(unfold m, M, bot, top in *; lia)) as [R1 R2].
      set (t := IZR (b - r) / IZR (M - m)) in *. rewrite minus_IZR in R2.
      split; [|split].
      * apply (W _ 0); [apply (FR _ 0%Z); simpl; [lra|wcases ((2 + t) / 6 + / 3 + 0); lra]|rewrite <- EB; lra].
      * apply (W _ 1); [apply (FR _ 0%Z); simpl; [lra|wcases ((2 + t) / 6 + 0); lra]|rewrite EG; lra].
      * apply (W _ t); [apply (FR _ 0%Z); simpl; [lra|wcases ((2 + t) / 6 - / 3 + 0); lra]|rewrite <- EB at 2; lra].
    + assert (EB : b = m) by (unfold m, M, bot, top in *; lia).
      destruct (Q (r - b)%Z ltac:(unfold m, M, bot, top in *; lia)) as [R1 R2].
      replace (IZR (b - r) / IZR (M - m)) with (- (IZR (r - b) / IZR (M - m))) by (rewrite !minus_IZR; field; lra).
      set (t := IZR (r - b) / IZR (M - m)) in *. rewrite minus_IZR in R2.
      split; [|split].
      * apply (W _ t); [apply (FR _ 0%Z); simpl; [lra|wcases ((2 + - t) / 6 + / 3 + 0); lra]|rewrite <- EB at 2; lra].
      * apply (W _ 1); [apply (FR _ 0%Z); simpl; [lra|wcases ((2 + - t) / 6 + 0); lra]|rewrite EG; lra].
      * apply (W _ 0); [destruct (Req_dec t 0) as [T0|T0];
          [apply (FR _ 0%Z); simpl; [lra|wcases ((2 + - t) / 6 - / 3 + 0); lra]
          |apply (FR _ 1%Z); simpl; [lra|wcases ((2 + - t) / 6 - / 3 + 1); lra]]|rewrite <- EB; lra].
  - assert (EBB : b = M) by (unfold m, M, bot, top in *; lia).
    rewrite <- minus_IZR. destruct (Z.le_gt_cases g r) as [L|L].
    + assert (EB : g = m) by (unfold m, M, bot, top in *; lia).
      destruct (Q (r - g)%Z ltac:(unfold m, M, bot, top in *; lia)) as [R1 R2].
      set (t := IZR (r - g) / IZR (M - m)) in *. rewrite minus_IZR in R2.
      split; [|split].
      * apply (W _ t); [|rewrite <- EB at 2; lra].
        apply (FR _ (-1)%Z); simpl; [lra|wcases ((4 + t) / 6 + / 3 + -1); lra].
      * apply (W _ 0); [apply (FR _ 0%Z); simpl; [lra|wcases ((4 + t) / 6 + 0); lra]|rewrite <- EB; lra].
      * apply (W _ 1); [apply (FR _ 0%Z); simpl; [lra|wcases ((4 + t) / 6 - / 3 + 0); lra]|rewrite EBB; lra].
    + assert (EB : r = m) by (unfold m, M, bot, top in *; lia).
      destruct (Q (g - r)%Z ltac:(unfold m, M, bot, top in *; lia)) as [R1 R2].
      replace (IZR (r - g) / IZR (M - m)) with (- (IZR (g - r) / IZR (M - m))) by (rewrite !minus_IZR; field; lra).
      set (t := IZR (g - r) / IZR (M - m)) in *. rewrite minus_IZR in R2.
      split; [|split].
      * apply (W _ 0); [apply (FR1 _ 0%Z); simpl; [lra|lra|wcases ((4 + - t) / 6 + / 3 + 0); lra]|rewrite <- EB; lra].
      * apply (W _ t); [apply (FR _ 0%Z); simpl; [lra|wcases ((4 + - t) / 6 + 0); lra]|rewrite <- EB at 2; lra].
      * apply (W _ 1); [apply (FR _ 0%Z); simpl; [lra|wcases ((4 + - t) / 6 - / 3 + 0); lra]|rewrite EBB; lra].
Qed.

(** * Greys *)
Lemma hue_shift_grey : forall c a v, channel_ok v -> c_rgb c = (v, v, v) ->
  hue_shift c a = Ok (mkColor (dimmed v, dimmed v, dimmed v) (c_bg c) fone TRUE_COLOR None).
Proof.
  intros c a v Hv E. unfold hue_shift. rewrite E. destruct (hls_grey v Hv) as [l [EH Fl]]. rewrite EH.
  unfold hls_to_rgb. change (feqb fzero fzero) with true. cbv iota.
  assert (V01 : 0 <= IZR v / 256 <= 1).
  { unfold channel_ok in Hv. assert (0 <= IZR v) by (apply IZR_le; lia). assert (IZR v <= 255) by (apply IZR_le; lia). lra. }
  destruct (fmul255 l _ 0 (ap_fin _ _ Fl) V01 ltac:(lra)) as [z [Ez [Tz Rz]]].
  rewrite Ez. cbn [bindr]. unfold plain_color.
  assert (D : z = dimmed v).
  { apply near_dimmed; [|lia|assumption]. eapply truncated_near; [exact Tz|]. rewrite Rminus_eq_0, Rabs_R0. lra. }
  rewrite new_color_ok by (unfold channel_ok; lia). now rewrite D.
Qed.

(** * Any amount *)
Lemma hue_shift_total : forall c a, color_ok c ->
  exists k, hue_shift c a = Ok k /\ c_bg k = c_bg c /\ c_alpha k = fone /\ within c k.
Proof.
  intros c a [Hr [Hg Hb]]. 
  assert (EC : c_rgb c = (red c, green c, blue c)) by (unfold red, green, blue; destruct (c_rgb c) as [[? ?] ?]; reflexivity).
  destruct (Z.eq_dec (bot (red c) (green c) (blue c)) (top (red c) (green c) (blue c))) as [G|NE].
  { assert (G1 : green c = red c) by (unfold top, bot in G; lia). assert (G2 : blue c = red c) by (unfold top, bot in G; lia).
    rewrite G1, G2 in EC. rewrite (hue_shift_grey c a (red c) Hr EC).
    eexists. split; [reflexivity|]. split; [reflexivity|]. split; [reflexivity|].
    unfold within. cbv zeta. rewrite G1, G2. unfold red at 4 8 12. unfold green, blue. simpl. unfold top, bot.
    rewrite !Z.max_id, !Z.min_id. lia. }
  unfold hue_shift, within. rewrite EC. pose proof u_pos as U.
  set (r := red c) in *. set (g := green c) in *. set (b := blue c) in *. clearbody r g b.
  destruct (hls_spec r g b Hr Hg Hb NE) as [h [l [s [hv [E [Fh [_ SO]]]]]]]. rewrite E.
  destruct (lohi r g b Hr Hg Hb) as [L1 [L2 L3]].
  assert (OKm : channel_ok (bot r g b)) by (unfold bot, channel_ok in *; lia).
  assert (OKM : channel_ok (top r g b)) by (unfold top, channel_ok in *; lia).
  assert (C : exists vr vg vb, hls_to_rgb (fmodpy1 (fadd h a)) l s = (vr, vg, vb) /\
     exists tr tg tb, (lo_of r g b <= tr <= hi_of r g b /\ lo_of r g b <= tg <= hi_of r g b /\ lo_of r g b <= tb <= hi_of r g b) /\
       ap vr tr (8000 * u) /\ ap vg tg (8000 * u) /\ ap vb tb (8000 * u)).
  { destruct (is_finite (fadd h a)) eqn:Fin.
    - destruct (fmodpy1_spec (fadd h a) _ (conj Fin eq_refl)) as [v [Fv [Rv _]]].
      assert (HU : hue_of v v 0).
      { split; auto. exists 0%Z. simpl. rewrite Rminus_0_r, Rminus_eq_0, Rabs_R0. lra. }
      destruct (hls_to_rgb_spec r g b l s _ v v 0 Hr Hg Hb SO Fv HU ltac:(lra)) as [vr [vg [vb [EV A]]]].
      exists vr, vg, vb. split; auto. eexists _, _, _. split; [|exact A].
      repeat match goal with |- _ /\ _ => split end; try apply at_hue_range; lra.
    - rewrite (fmodpy1_nan _ Fin). destruct SO as [m2 [E2 [A2 [A1 Es]]]].
      unfold hls_to_rgb. rewrite Es. cbv zeta. rewrite <- E2. rewrite !hls_v_nan by reflexivity.
      eexists _, _, _. split; [reflexivity|]. exists (lo_of r g b), (lo_of r g b), (lo_of r g b).
      split; [lra|]. assert (A : ap (fsub (fmul (fofZ 2) l) m2) (lo_of r g b) (8000 * u)) by (eapply ap_weak; [exact A1|lra]).
      auto. }
  destruct C as [vr [vg [vb [EV [tr [tg [tb [[Tr [Tg Tb]] [Ar [Ag Ab]]]]]]]]]]. rewrite EV.
  assert (T : 0 <= 8000 * u <= / 500000000000) by (unfold u in *; lra).
  destruct (fmul255 _ _ _ Ar ltac:(lra) T) as [zr [Er [Ur Zr]]].
  destruct (fmul255 _ _ _ Ag ltac:(lra) T) as [zg [Eg [Ug Zg]]].
  destruct (fmul255 _ _ _ Ab ltac:(lra) T) as [zb [Eb [Ub Zb]]].
  rewrite Er, Eg, Eb. cbn [bindr]. unfold plain_color.
  rewrite new_color_ok by (unfold channel_ok; lia).
  eexists. split; [reflexivity|]. split; [reflexivity|]. split; [reflexivity|].
  cbv zeta. unfold red, green, blue. simpl.
  assert (B : forall z t, truncated_to z (255 * t) -> (0 <= z <= 255)%Z -> lo_of r g b <= t <= hi_of r g b ->
     (dimmed (bot r g b) <= z <= dimmed (top r g b))%Z).
  { intros z t Hz Rz Ht. assert (N : near_trunc z (255 * t)).
    { eapply truncated_near; [exact Hz|]. rewrite Rminus_eq_0, Rabs_R0. lra. }
    unfold lo_of, hi_of in Ht. split; [eapply near_le|eapply near_ge]; eauto; try lia; lra. }
  split; [|split]; eapply B; eauto.
Qed.

(** * Whole and third turns *)
Lemma at_hue_near : forall lo hi a b k, 0 <= lo -> lo <= hi -> hi <= 1 -> Rabs (a - b - IZR k) <= / 10000000 ->
  Rabs (255 * at_hue lo hi a - 255 * at_hue lo hi b) <= / 2000.
Proof.
  intros lo hi a b k H1 H2 H3 H.
  pose proof (at_hue_close lo hi a b _ H1 H2 H3 (ex_intro _ k H) ltac:(lra)) as C.
  apply Rabs_le_inv in C. apply Rabs_le. lra.
Qed.

Lemma hue_shift_turn : forall c a x n j, color_ok c -> bot (red c) (green c) (blue c) <> top (red c) (green c) (blue c) ->
  fin a x -> Rabs x <= 1000 -> Rabs (x - (IZR n + IZR j / 3)) <= / 10000000 ->
  (j = 0 \/ j = 1 \/ j = 2)%Z ->
  exists k, hue_shift c a = Ok k /\ c_bg k = c_bg c /\ c_alpha k = fone /\
    c_rgb k = if (j =? 0)%Z then (dimmed (red c), dimmed (green c), dimmed (blue c))
              else if (j =? 1)%Z then (dimmed (blue c), dimmed (red c), dimmed (green c))
              else (dimmed (green c), dimmed (blue c), dimmed (red c)).
Proof.
  intros c a x n j OK NE Fa Hx Hn Hj. pose proof OK as [Hr [Hg Hb]].
  destruct (hue_shift_accurate c a x OK NE Fa Hx) as [k [E [Ebg [Ea [Tr [Tg Tb]]]]]].
  destruct (at_own_hue _ _ _ Hr Hg Hb NE) as [Or [Og Ob]].
  destruct (lohi _ _ _ Hr Hg Hb) as [L1 [L2 L3]].
  exists k. split; [exact E|]. split; [exact Ebg|]. split; [exact Ea|].
  assert (OKk : color_ok k) by (eapply hue_shift_ok; eauto).
  destruct OKk as [Kr [Kg Kb]].
  assert (EK : c_rgb k = (red k, green k, blue k)) by (unfold red, green, blue; destruct (c_rgb k) as [[? ?] ?]; reflexivity).
  rewrite EK. apply Rabs_le_inv in Hn.
  set (lo := lo_of (red c) (green c) (blue c)) in *. set (hi := hi_of (red c) (green c) (blue c)) in *.
  set (H := true_hue (red c) (green c) (blue c)) in *.
  assert (B : forall z y y' m i, truncated_to z (255 * at_hue lo hi y) -> channel_ok z -> channel_ok m ->
      at_hue lo hi y' = IZR m / 256 -> Rabs (y - y' - IZR i) <= / 10000000 -> z = dimmed m).
  { intros z y y' m i Hz Rz Rm Ey Hi. apply near_dimmed; [|unfold channel_ok in Rz; lia|assumption].
    rewrite <- Ey. eapply truncated_near; [exact Hz|]. eapply at_hue_near; eauto; lra. }
  destruct Hj as [->|[->| ->]]; simpl.
  - rewrite (B _ _ _ _ n Tr Kr Hr Or), (B _ _ _ _ n Tg Kg Hg Og), (B _ _ _ _ n Tb Kb Hb Ob); auto; apply Rabs_le; lra.
  - rewrite (B _ _ _ _ (n + 1)%Z Tr Kr Hb Ob), (B _ _ _ _ n Tg Kg Hr Or), (B _ _ _ _ n Tb Kb Hg Og); auto;
      rewrite ?plus_IZR; apply Rabs_le; lra.
  - rewrite (B _ _ _ _ (n + 1)%Z Tr Kr Hg Og), (B _ _ _ _ (n + 1)%Z Tg Kg Hb Ob), (B _ _ _ _ n Tb Kb Hr Or); auto;
      rewrite ?plus_IZR; apply Rabs_le; lra.
Qed.
