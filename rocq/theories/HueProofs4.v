(** complement and the color groups *)
From Coq Require Import ZArith Reals List Bool Lia Lra.
From Flocq Require Import Core.
From Flocq Require Import IEEE754.BinarySingleNaN.
From Verif Require Import PyBase F64 ColorTab SpaceModel ColorModel ColorSpec ColorProofs FloatLemmas BlendProofs PaletteProofs
  HueSpec HueProofs HueProofs2 HueProofs3.
Import ListNotations.
Open Scope R_scope.

Lemma fmodpy1_zero : forall x, fin x 0 -> fin (fmodpy1 x) 0.
Proof.
  intros x H. unfold fmodpy1. pose proof (fmod1_spec x 0 H) as F. rewrite Ztrunc_IZR in F.
  replace (0 - 0) with 0 in F by lra.
  cbv zeta. rewrite (proj2 (feqb_spec _ _ _ _ F fin_fzero) eq_refl). exact fin_fzero.
Qed.

(** Red above two equal channels: hue exactly zero *)
Lemma hls_red : forall r g, channel_ok r -> channel_ok g -> (g < r)%Z ->
  exists h l s, color_hls (r, g, g) = (h, l, s) /\ feqb h fzero = true /\ feqb l fzero = false.
Proof.
  intros r g Hr Hg L. unfold channel_ok in *. unfold color_hls, rgb_to_hls.
  pose proof (fdiv256 r ltac:(lia)) as Fr. pose proof (fdiv256 g ltac:(lia)) as Fg.
  set (xr := fdiv (fofZ r) (fofZ 256)) in *. set (xg := fdiv (fofZ g) (fofZ 256)) in *. clearbody xr xg.
  pose proof (fmax_q _ _ _ _ (fmax_q _ _ _ _ Fr Fg) Fg) as FM.
  pose proof (fmin_q _ _ _ _ (fmin_q _ _ _ _ Fr Fg) Fg) as Fm.
  replace (Z.max (Z.max r g) g) with r in FM by lia. replace (Z.min (Z.min r g) g) with g in Fm by lia.
  set (mx := fmax (fmax xr xg) xg) in *. set (mn := fmin (fmin xr xg) xg) in *. clearbody mx mn. cbv zeta.
  rewrite (feqb_q _ _ _ _ Fm FM), (proj2 (Z.eqb_neq g r)) by lia.
  rewrite (feqb_q _ _ _ _ Fr FM), Z.eqb_refl.
  eexists _, _, _. split; [reflexivity|]. split.
  - pose proof (fsub_q _ _ _ _ FM Fm ltac:(lia)) as FR. pose proof (fsub_q _ _ _ _ FM Fg ltac:(lia)) as DG.
    destruct (fdiv_ap _ _ _ _ DG FR ltac:(lia) ltac:(lia)) as [w [Fw _]].
    set (gc := fdiv (fsub mx xg) (fsub mx mn)) in *.
    assert (F0 : fin (fsub gc gc) 0).
    { pose proof (fsub_spec _ _ _ _ Fw Fw) as S. rewrite Rminus_eq_0, rnd_0 in S. apply S. rewrite Rabs_R0.
      apply bpow_ge_0. }
    assert (F6 : fin (fdiv (fsub gc gc) (fofZ 6)) 0).
    { pose proof (fdiv_spec _ _ 0 6 F0 (fofZ_spec 6 ltac:(lia)) ltac:(lra)) as S.
      replace (0 / 6) with 0 in S by lra. rewrite rnd_0 in S. apply S. rewrite Rabs_R0. apply bpow_ge_0. }
    apply (feqb_spec _ _ _ _ (fmodpy1_zero _ F6) fin_fzero). reflexivity.
  - pose proof (half_q _ _ (fadd_q _ _ _ _ FM Fm ltac:(lia)) ltac:(lia)) as Fl.
    destruct (feqb _ fzero) eqn:E; auto. apply (feqb_spec _ _ _ _ Fl fin_fzero) in E.
    assert (0 < IZR (r + g)) by (apply IZR_lt; lia). lra.
Qed.

(** Any other color that is not grey: hue not zero *)
Lemma hls_nonred : forall r g b, channel_ok r -> channel_ok g -> channel_ok b -> bot r g b <> top r g b ->
  ~ (r = top r g b /\ g = b) -> let '(h, _, _) := color_hls (r, g, b) in feqb h fzero = false.
Proof.
  intros r g b Hr Hg Hb NE NR. destruct (hls_spec r g b Hr Hg Hb NE) as [h [l [s [hv [E [Fh [[R [k Hk]] _]]]]]]].
  rewrite E. destruct (feqb h fzero) eqn:F; auto. apply (feqb_spec _ _ _ _ Fh fin_fzero) in F. subst hv.
  exfalso. pose proof u_pos as U. apply Rabs_le_inv in Hk. unfold true_hue in Hk.
  fold (top r g b) (bot r g b) in Hk. unfold channel_ok in *.
  assert (TR : (bot r g b < top r g b /\ 0 <= bot r g b /\ top r g b <= 255 /\
     bot r g b <= r <= top r g b /\ bot r g b <= g <= top r g b /\ bot r g b <= b <= top r g b)%Z)
    by (unfold top, bot in *; lia).
  set (M := top r g b) in *. set (m := bot r g b) in *.
  assert (Q : forall n, (Z.abs n <= M - m)%Z -> -1 <= IZR n / IZR (M - m) <= 1 /\
     ((0 < n)%Z -> / 255 <= IZR n / IZR (M - m)) /\ ((n < 0)%Z -> IZR n / IZR (M - m) <= - / 255)).
  { intros n Hn. assert (P : 0 < IZR (M - m) <= 255) by (split; [apply IZR_lt|apply IZR_le]; lia).
    assert (0 < / IZR (M - m)) by (apply Rinv_0_lt_compat; lra).
    assert (I : / 255 <= / IZR (M - m)) by (apply Rinv_le_contravar; lra).
    assert (J : IZR (M - m) * / IZR (M - m) = 1) by (apply Rinv_r; lra).
    assert (IZR n <= IZR (M - m)) by (apply IZR_le; lia). assert (- IZR (M - m) <= IZR n) by (rewrite <- opp_IZR; apply IZR_le; lia).
    unfold Rdiv. split; [split; nra|]. split; intro N.
    - assert (1 <= IZR n) by (apply IZR_le; lia). nra.
    - assert (IZR n <= -1) by (apply IZR_le; lia). nra. }
  rewrite <- !minus_IZR in Hk.
  assert (K : forall y, 0 < y < 1 -> 20 * u < y -> y < 1 - 20 * u -> - (20 * u) <= 0 - y - IZR k <= 20 * u -> False).
  { intros y Y1 Y2 Y3 HH. assert (-2 < IZR k < 1) by lra. destruct H as [K1 K2]. apply lt_IZR in K1, K2.
    assert (KK : (k = 0 \/ k = -1)%Z) by lia. destruct KK as [-> | ->]; simpl in HH; lra. }
  destruct (Z.eqb_spec r M) as [E1|E1]; [|destruct (Z.eqb_spec g M) as [E2|E2]].
  - destruct (Q (g - b)%Z ltac:(lia)) as [Q1 [Q2 Q3]].
    destruct (Z.lt_trichotomy g b) as [L|[L|L]]; [|tauto|].
    + specialize (Q3 ltac:(lia)). assert (-1 < IZR k < 1) by lra. destruct H as [K1 K2]. apply lt_IZR in K1, K2.
      assert (KK : (k = 0)%Z) by lia. rewrite KK in Hk. lra.
    + specialize (Q2 ltac:(lia)). apply (K (IZR (g - b) / IZR (M - m) / 6)); lra.
  - destruct (Q (b - r)%Z ltac:(lia)) as [Q1 _]. apply (K ((2 + IZR (b - r) / IZR (M - m)) / 6)); lra.
  - destruct (Q (r - g)%Z ltac:(lia)) as [Q1 _]. apply (K ((4 + IZR (r - g) / IZR (M - m)) / 6)); lra.
Qed.

Lemma weight_half : forall x, weight (frac (x + / 2)) = 1 - weight (frac x).
Proof.
  intro x. destruct (frac_spec x) as [j [E R]]. destruct (Rlt_le_dec (frac x) (/ 2)) as [L|L].
  - rewrite (frac_unique (x + / 2) j) by lra. replace (x + / 2 + IZR j) with (frac x + / 2) by lra.
    wcases (frac x); wcases (frac x + / 2); lra.
  - rewrite (frac_unique (x + / 2) (j - 1)) by (rewrite minus_IZR; lra). rewrite minus_IZR.
    replace (x + / 2 + (IZR j - 1)) with (frac x - / 2) by lra.
    wcases (frac x); wcases (frac x - / 2); lra.
Qed.
Lemma at_hue_half : forall lo hi x, at_hue lo hi (x + / 2) = lo + hi - at_hue lo hi x.
Proof. intros. unfold at_hue. rewrite weight_half. lra. Qed.

Lemma hue_shift_half : forall c, color_ok c -> bot (red c) (green c) (blue c) <> top (red c) (green c) (blue c) ->
  let s := (bot (red c) (green c) (blue c) + top (red c) (green c) (blue c))%Z in
  exists k, hue_shift c (flit 1 2) = Ok k /\ c_bg k = c_bg c /\ c_alpha k = fone /\
    c_rgb k = (dimmed (s - red c), dimmed (s - green c), dimmed (s - blue c)).
Proof.
  intros c OK NE s. pose proof OK as [Hr [Hg Hb]].
  destruct (hue_shift_accurate c _ _ OK NE half_exact ltac:(apply Rabs_le; lra)) as [k [E [Ebg [Ea [Tr [Tg Tb]]]]]].
  destruct (at_own_hue _ _ _ Hr Hg Hb NE) as [Or [Og Ob]].
  exists k. split; [exact E|]. split; [exact Ebg|]. split; [exact Ea|].
  assert (OKk : color_ok k) by (eapply hue_shift_ok; eauto). destruct OKk as [Kr [Kg Kb]].
  assert (EK : c_rgb k = (red k, green k, blue k)) by (unfold red, green, blue; destruct (c_rgb k) as [[? ?] ?]; reflexivity).
  rewrite EK.
  set (lo := lo_of (red c) (green c) (blue c)) in *. set (hi := hi_of (red c) (green c) (blue c)) in *.
  set (H := true_hue (red c) (green c) (blue c)) in *.
  assert (S : lo + hi = IZR s / 256) by (unfold lo, hi, lo_of, hi_of, s; rewrite plus_IZR; lra).
  assert (B : forall z y m, truncated_to z (255 * at_hue lo hi (y + / 2)) -> channel_ok z -> channel_ok (s - m) ->
      at_hue lo hi y = IZR m / 256 -> z = dimmed (s - m)).
  { intros z y m Hz Rz Rm Ey. apply near_dimmed; [|unfold channel_ok in Rz; lia|assumption].
    rewrite at_hue_half, S, Ey in Hz. eapply truncated_near; [exact Hz|].
    rewrite minus_IZR. apply Rabs_le. lra. }
  replace (H + / 2 + / 3) with (H + / 3 + / 2) in Tr by lra. replace (H + / 2 - / 3) with (H - / 3 + / 2) in Tb by lra.
  rewrite (B _ _ (red c) Tr), (B _ _ (green c) Tg), (B _ _ (blue c) Tb); auto;
    unfold s, bot, top, channel_ok in *; lia.
Qed.

Lemma complement_spec : forall c, color_ok c ->
  let M := top (red c) (green c) (blue c) in let m := bot (red c) (green c) (blue c) in
  exists k, complement c = Ok k /\ c_alpha k = fone /\
    ((c_rgb c = (0, 0, 0)%Z /\ c_rgb k = (255, 255, 255)%Z /\ c_bg k = false) \/
     (M <> 0%Z /\ red c = M /\ green c = blue c /\ c_rgb k = (0, 0, 0)%Z /\ c_bg k = false) \/
     (~ (red c = M /\ green c = blue c) /\ c_bg k = c_bg c /\
      c_rgb k = (dimmed (M + m - red c), dimmed (M + m - green c), dimmed (M + m - blue c)))).
Proof.
  intros c OK M m. pose proof OK as [Hr [Hg Hb]].
  assert (EC : c_rgb c = (red c, green c, blue c)) by (unfold red, green, blue; destruct (c_rgb c) as [[? ?] ?]; reflexivity).
  destruct (Z.eq_dec m M) as [G|NE].
  - assert (G1 : green c = red c) by (unfold M, m, top, bot in G; lia). assert (G2 : blue c = red c) by (unfold M, m, top, bot in G; lia).
    unfold complement. rewrite EC, G1, G2. destruct (hls_grey (red c) Hr) as [l [EH Fl]]. rewrite EH.
    change (feqb fzero fzero) with true. cbv iota.
    destruct (feqb l fzero) eqn:El.
    + apply (feqb_spec _ _ _ _ Fl fin_fzero) in El. assert (Z0 : red c = 0%Z) by (apply eq_IZR; lra).
      unfold plain_color. rewrite new_color_ok by (unfold channel_ok; lia).
      eexists. split; [reflexivity|]. split; [reflexivity|]. left. rewrite Z0. auto.
    + unfold plain_color. rewrite new_color_ok by (unfold channel_ok; lia).
      eexists. split; [reflexivity|]. split; [reflexivity|]. right. left.
      assert (EM : M = red c) by (unfold M, top; lia). rewrite EM.
      repeat match goal with |- _ /\ _ => split end; auto.
      intro Z0. rewrite Z0 in Fl.
      assert (true = false); [|discriminate]. rewrite <- El. symmetry. apply (feqb_spec _ _ _ _ Fl fin_fzero). lra.
  - destruct (Z.eq_dec (red c) M) as [R1|R1]; [destruct (Z.eq_dec (green c) (blue c)) as [R2|R2]|].
    + assert (L : (blue c < red c)%Z) by (unfold M, m, top, bot in *; lia).
      destruct (hls_red (red c) (blue c) Hr Hb L) as [h [l [s [E [E1 E2]]]]].
      unfold complement. rewrite EC, R2, E, E1, E2.
      unfold plain_color. rewrite new_color_ok by (unfold channel_ok; lia).
      eexists. split; [reflexivity|]. split; [reflexivity|]. right. left.
      repeat match goal with |- _ /\ _ => split end; auto. unfold channel_ok in *. lia.
    + pose proof (hls_nonred _ _ _ Hr Hg Hb NE ltac:(tauto)) as NZ.
      destruct (hue_shift_half c OK NE) as [k [E [Ebg [Ea Ek]]]].
      exists k. split.
      { unfold complement. replace (color_hls (c_rgb c)) with (color_hls (red c, green c, blue c)) by now rewrite <- EC.
        destruct (color_hls (red c, green c, blue c)) as [[h l] s]. now rewrite NZ. } split; [exact Ea|]. right. right. split; [tauto|]. split; [exact Ebg|].
      rewrite Ek. fold M m. now rewrite (Z.add_comm m M).
    + pose proof (hls_nonred _ _ _ Hr Hg Hb NE ltac:(tauto)) as NZ.
      destruct (hue_shift_half c OK NE) as [k [E [Ebg [Ea Ek]]]].
      exists k. split.
      { unfold complement. replace (color_hls (c_rgb c)) with (color_hls (red c, green c, blue c)) by now rewrite <- EC.
        destruct (color_hls (red c, green c, blue c)) as [[h l] s]. now rewrite NZ. } split; [exact Ea|]. right. right. split; [tauto|]. split; [exact Ebg|].
      rewrite Ek. fold M m. now rewrite (Z.add_comm m M).
Qed.

Lemma ap_third : forall n, (n = 1 \/ n = 2)%Z -> exists x, fin (flit n 3) x /\ Rabs (x - IZR n / 3) <= u.
Proof.
  intros n [-> | ->]; [destruct third as [w [F H]]|destruct two_thirds as [w [F H]]]; exists w; split; auto.
  now replace (1 / 3) with (/ 3) by lra.
Qed.

(** turns by zero, a third, two thirds; greys included *)
Lemma turn_any : forall c n, color_ok c -> (n = 0 \/ n = 1 \/ n = 2)%Z ->
  exists k, hue_shift c (flit n 3) = Ok k /\ c_bg k = c_bg c /\ c_alpha k = fone /\
    c_rgb k = if (n =? 0)%Z then (dimmed (red c), dimmed (green c), dimmed (blue c))
              else if (n =? 1)%Z then (dimmed (blue c), dimmed (red c), dimmed (green c))
              else (dimmed (green c), dimmed (blue c), dimmed (red c)).
Proof.
  intros c n OK Hn. pose proof OK as [Hr [Hg Hb]].
  assert (EC : c_rgb c = (red c, green c, blue c)) by (unfold red, green, blue; destruct (c_rgb c) as [[? ?] ?]; reflexivity).
  destruct (Z.eq_dec (bot (red c) (green c) (blue c)) (top (red c) (green c) (blue c))) as [G|NE].
  - assert (G1 : green c = red c) by (unfold top, bot in G; lia). assert (G2 : blue c = red c) by (unfold top, bot in G; lia).
    rewrite G1, G2 in EC. rewrite (hue_shift_grey c _ (red c) Hr EC).
    eexists. split; [reflexivity|]. split; [reflexivity|]. split; [reflexivity|].
    rewrite G1, G2. simpl. destruct (n =? 0)%Z; [|destruct (n =? 1)%Z]; reflexivity.
  - assert (F : exists x, fin (flit n 3) x /\ Rabs (x - IZR n / 3) <= u).
    { destruct Hn as [->|Hn]; [|now apply ap_third]. exists 0. split.
      - assert (E : flit 0 3 = fzero) by (apply B2SF_inj; vm_compute; reflexivity). rewrite E. exact fin_fzero.
      - unfold Rdiv. rewrite Rmult_0_l, Rminus_0_r, Rabs_R0. pose proof u_pos; lra. }
    destruct F as [x [Fx Hx]]. pose proof u_pos. apply Rabs_le_inv in Hx.
    assert (R3 : 0 <= IZR n <= 2) by (split; apply IZR_le; lia).
    apply (hue_shift_turn c _ x 0 n OK NE Fx); auto; apply Rabs_le; lra.
Qed.

Lemma triadic_spec : forall c, color_ok c ->
  exists k1 k2, triadic_group c = Ok [c; k1; k2] /\ c_bg k1 = c_bg c /\ c_bg k2 = c_bg c /\
    c_rgb k1 = (dimmed (blue c), dimmed (red c), dimmed (green c)) /\
    c_rgb k2 = (dimmed (green c), dimmed (blue c), dimmed (red c)).
Proof.
  intros c OK. destruct (turn_any c 1 OK ltac:(auto)) as [k1 [E1 [B1 [_ R1]]]].
  destruct (turn_any c 2 OK ltac:(auto)) as [k2 [E2 [B2 [_ R2]]]].
  exists k1, k2. unfold triadic_group. rewrite E1, E2. cbn [bindr]. auto.
Qed.

Lemma analogous_spec : forall c, color_ok c -> exists k1 k2, analogous_group c = Ok [c; k1; k2] /\
  hue_shift c (flit 1 12) = Ok k1 /\ hue_shift c (flit 2 12) = Ok k2 /\
  c_bg k1 = c_bg c /\ c_bg k2 = c_bg c /\ within c k1 /\ within c k2.
Proof.
  intros c OK. destruct (hue_shift_total c (flit 1 12) OK) as [k1 [E1 [B1 [_ W1]]]].
  destruct (hue_shift_total c (flit 2 12) OK) as [k2 [E2 [B2 [_ W2]]]].
  exists k1, k2. unfold analogous_group. rewrite E1, E2. cbn [bindr]. auto 10.
Qed.
Lemma tetradic_spec : forall c, color_ok c -> exists k1 k2 k3, tetradic_group c = Ok [c; k1; k2; k3] /\
  hue_shift c (flit 1 4) = Ok k1 /\ complement c = Ok k2 /\ hue_shift c (flit 3 4) = Ok k3 /\
  c_bg k1 = c_bg c /\ c_bg k3 = c_bg c /\ within c k1 /\ within c k3.
Proof.
  intros c OK. destruct (hue_shift_total c (flit 1 4) OK) as [k1 [E1 [B1 [_ W1]]]].
  destruct (hue_shift_total c (flit 3 4) OK) as [k3 [E3 [B3 [_ W3]]]].
  destruct (complement_spec c OK) as [k2 [E2 _]].
  exists k1, k2, k3. unfold tetradic_group. rewrite E1, E2, E3. cbn [bindr]. auto 10.
Qed.
