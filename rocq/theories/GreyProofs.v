(** Luminance, lightness, contrast: accuracy of the binary64 computations. *)
From Coq Require Import ZArith List Bool Lia Reals Lra Psatz String.
From Flocq Require Import Core IEEE754.BinarySingleNaN.
From Verif Require Import PyBase PyLemmas F64 SpaceModel SpaceSpec SpaceProofs ColorTab ColorModel ColorSpec ColorProofs ColorProofs2
  Vt FloatLemmas BlendProofs PaletteSpec PaletteProofs HueSpec HueProofs GreySpec.
Open Scope R_scope.

(** * Deciding closeness of a concrete float to a rational *)
Definition near_rat (x : f64) (n d k : Z) : bool :=
  let '(m, e) := fexact x in
  is_finite x && (e <=? 0)%Z && (0 <? d)%Z &&
  (Z.abs (m * d - n * 2 ^ (- e)) * 2 ^ k <=? d * 2 ^ (- e))%Z.

Lemma fexact_B2R : forall x m e, fexact x = (m, e) -> is_finite x = true -> B2R x = IZR m * bpow radix2 e.
Proof.
  intros [s|s| |s p k B] m e H F; try discriminate; cbn in H; inversion H; subst.
  - cbn. lra.
  - cbn [B2R]. unfold F2R. cbn [Fnum Fexp]. now destruct s.
Qed.

Lemma near_ap : forall x n d k, (0 <= k)%Z -> near_rat x n d k = true -> ap x (IZR n / IZR d) (/ IZR (2 ^ k)).
Proof.
  intros x n d k Hk H. unfold near_rat in H. destruct (fexact x) as [m e] eqn:E.
  rewrite !andb_true_iff in H. destruct H as [[[F He] Hd] H].
  apply Z.ltb_lt in Hd. apply Z.leb_le in H, He.
  exists (B2R x). split; [split; auto|]. rewrite (fexact_B2R _ _ _ E F).
  assert (P : bpow radix2 e = / IZR (2 ^ (- e))).
  { replace e with (- (- e))%Z at 1 by lia. rewrite bpow_opp. f_equal. rewrite <- IZR_Zpower by lia. reflexivity. }
  rewrite P. set (D := (2 ^ (- e))%Z) in *. assert (0 < D)%Z by (apply Z.pow_pos_nonneg; lia).
  assert (0 < 2 ^ k)%Z by (apply Z.pow_pos_nonneg; lia). set (K := (2 ^ k)%Z) in *.
  apply IZR_le in H. rewrite !mult_IZR, abs_IZR, minus_IZR, !mult_IZR in H.
  assert (0 < IZR D) by now apply IZR_lt. assert (0 < IZR d) by now apply IZR_lt.
  assert (0 < IZR K) by now apply IZR_lt.
  replace (IZR m * / IZR D - IZR n / IZR d) with ((IZR m * IZR d - IZR n * IZR D) * / (IZR D * IZR d)) by (field; lra).
  rewrite Rabs_mult, (Rabs_pos_eq (/ (IZR D * IZR d))) by (left; apply Rinv_0_lt_compat, Rmult_lt_0_compat; assumption).
  apply Rmult_le_reg_r with (IZR K * (IZR D * IZR d)); [repeat apply Rmult_lt_0_compat; assumption|].
  replace (Rabs (IZR m * IZR d - IZR n * IZR D) * / (IZR D * IZR d) * (IZR K * (IZR D * IZR d)))
    with (Rabs (IZR m * IZR d - IZR n * IZR D) * IZR K) by (field; lra).
  replace (/ IZR K * (IZR K * (IZR D * IZR d))) with (IZR d * IZR D) by (field; lra). exact H.
Qed.

(** * Real powers *)
Lemma Rpower_pos : forall x y, 0 < Rpower x y.
Proof. intros. apply exp_pos. Qed.

Lemma ln_le : forall x y, 0 < x -> x <= y -> ln x <= ln y.
Proof. intros x y H [L| ->]; [left; now apply ln_increasing|right; reflexivity]. Qed.

Lemma power_lower : forall x y, 0 < x -> 0 < y -> y ^ 5 <= x ^ 12 -> y <= Rpower x (24 / 10).
Proof.
  intros x y Hx Hy H. unfold Rpower. rewrite <- (exp_ln y) by assumption.
  assert (L : ln (y ^ 5) <= ln (x ^ 12)) by (apply ln_le; [now apply pow_lt|exact H]).
  rewrite !ln_pow in L by assumption. cbn [INR] in L.
  destruct (Rle_lt_or_eq_dec _ _ (ltac:(lra) : ln y <= 24 / 10 * ln x)) as [K|K].
  - left. now apply exp_increasing.
  - rewrite K. lra.
Qed.
Lemma power_upper : forall x y, 0 < x -> 0 < y -> x ^ 12 <= y ^ 5 -> Rpower x (24 / 10) <= y.
Proof.
  intros x y Hx Hy H. unfold Rpower. rewrite <- (exp_ln y) by assumption.
  assert (L : ln (x ^ 12) <= ln (y ^ 5)) by (apply ln_le; [now apply pow_lt|exact H]).
  rewrite !ln_pow in L by assumption. cbn [INR] in L.
  destruct (Rle_lt_or_eq_dec _ _ (ltac:(lra) : 24 / 10 * ln x <= ln y)) as [K|K].
  - left. now apply exp_increasing.
  - rewrite K. lra.
Qed.

Lemma power_le : forall x y z, 0 < x <= y -> 0 < z -> Rpower x z <= Rpower y z.
Proof. intros x y z H Hz. apply Rle_Rpower_l; lra. Qed.

Lemma cube_of : forall x, 0 < x -> Rpower x (1 / 3) ^ 3 = x.
Proof.
  intros x H. rewrite <- Rpower_pow by apply Rpower_pos. rewrite Rpower_mult.
  replace (1 / 3 * INR 3) with 1 by (cbn [INR]; lra). now apply Rpower_1.
Qed.

Lemma power_lip : forall a b, 0 < a <= 1 + / 100 -> 0 < b <= 1 + / 100 ->
  Rabs (Rpower a (24 / 10) - Rpower b (24 / 10)) <= 3 * Rabs (a - b).
Proof.
  assert (W : forall a b, 0 < a -> a < b -> b <= 1 + / 100 ->
    0 <= Rpower b (24 / 10) - Rpower a (24 / 10) <= 3 * (b - a)).
  { intros a b Ha Hab Hb.
    destruct (MVT_cor2 (fun x => Rpower x (24 / 10)) (fun x => 24 / 10 * Rpower x (24 / 10 - 1)) a b Hab) as [c [E Hc]].
    { intros c Hc. apply derivable_pt_lim_power. lra. }
    rewrite E.
    assert (P1 : 0 < Rpower c (24 / 10 - 1)) by apply Rpower_pos.
    assert (P2 : Rpower c (24 / 10 - 1) <= 12 / 10).
    { apply Rle_trans with (Rpower (1 + / 100) (24 / 10 - 1)); [apply power_le; lra|].
      apply Rle_trans with (Rpower (1 + / 100) (INR 2)).
      - apply Rle_Rpower; cbn [INR]; lra.
      - rewrite Rpower_pow by lra. lra. }
    nra. }
  intros a b Ha Hb. destruct (Rtotal_order a b) as [L|[->|L]].
  - pose proof (W a b ltac:(lra) L ltac:(lra)).
    rewrite (Rabs_minus_sym a b), (Rabs_pos_eq (b - a)) by lra.
    rewrite Rabs_minus_sym, Rabs_pos_eq by lra. lra.
  - rewrite !Rminus_eq_0, Rabs_R0. lra.
  - pose proof (W b a ltac:(lra) L ltac:(lra)). rewrite !Rabs_pos_eq by lra. lra.
Qed.

Lemma exp_near_1 : forall t, Rabs t <= / 2 -> Rabs (exp t - 1) <= 2 * Rabs t.
Proof.
  intros t H. assert (I : forall s, 1 + s <= exp s).
  { intro s. destruct (Req_dec s 0) as [->|N]; [rewrite exp_0; lra|]. left. now apply exp_ineq1. }
  pose proof (I t) as L. pose proof (I (- t)) as M. rewrite exp_Ropp in M. pose proof (exp_pos t) as P.
  assert (U : (1 - t) * exp t <= 1).
  { apply Rmult_le_reg_r with (/ exp t); [now apply Rinv_0_lt_compat|].
    rewrite Rmult_assoc, Rinv_r by lra. lra. }
  apply Rabs_le_inv in H. unfold Rabs. destruct (Rcase_abs t), (Rcase_abs (exp t - 1)); try lra; nra.
Qed.

Lemma ln_bound : forall a, / 128 <= a <= 2 -> Rabs (ln a) <= 128.
Proof.
  intros a H. assert (I : forall s, 1 + s <= exp s).
  { intro s. destruct (Req_dec s 0) as [->|N]; [rewrite exp_0; lra|]. left. now apply exp_ineq1. }
  pose proof (I (ln a)) as A. rewrite exp_ln in A by lra.
  pose proof (I (- ln a)) as B. rewrite exp_Ropp, exp_ln in B by lra.
  assert (/ a <= 128) by (rewrite <- (Rinv_inv 128); apply Rinv_le_contravar; lra).
  apply Rabs_le. lra.
Qed.

Lemma power_exp_err : forall a b c, / 128 <= a <= 1 + / 100 -> 0 < b <= 3 -> Rabs (c - b) <= u ->
  Rabs (Rpower a c - Rpower a b) <= 300 * u.
Proof.
  intros a b c Ha Hb Hc. pose proof u_pos. unfold Rpower.
  replace (c * ln a) with (b * ln a + (c - b) * ln a) by lra. rewrite exp_plus.
  replace (exp (b * ln a) * exp ((c - b) * ln a) - exp (b * ln a)) with (exp (b * ln a) * (exp ((c - b) * ln a) - 1)) by lra.
  rewrite Rabs_mult. pose proof (ln_bound a ltac:(lra)) as L. 
  assert (T : Rabs ((c - b) * ln a) <= 128 * u).
  { rewrite Rabs_mult. pose proof (Rabs_pos (c - b)). pose proof (Rabs_pos (ln a)). nra. }
  pose proof (exp_near_1 ((c - b) * ln a) ltac:(lra)) as X.
  assert (P : Rabs (exp (b * ln a)) <= 11 / 10).
  { rewrite Rabs_pos_eq by (left; apply exp_pos). change (exp (b * ln a)) with (Rpower a b).
    apply Rle_trans with (Rpower (1 + / 100) b); [apply power_le; lra|].
    apply Rle_trans with (Rpower (1 + / 100) (INR 3)); [apply Rle_Rpower; cbn [INR]; lra|].
    rewrite Rpower_pow by lra. lra. }
  pose proof (Rabs_pos (exp (b * ln a))). pose proof (Rabs_pos (exp ((c - b) * ln a) - 1)). nra.
Qed.

(** * Linear channels *)
Definition chan (v : Z) : f64 := fdiv (fofZ v) (fofZ 255).
Definition lin_arg (v : Z) : f64 := fdiv (fadd (chan v) (flit 55 1000)) (flit 1055 1000).
Definition lin_base (v : Z) : R := (IZR v / 255 + 55 / 1000) / (1055 / 1000).
Definition channels : list Z := map Z.of_nat (seq 0 256).

Lemma in_channels : forall v, channel_ok v -> In v channels.
Proof.
  intros v H. unfold channel_ok in H. unfold channels. apply in_map_iff. exists (Z.to_nat v). split; [lia|].
  apply in_seq. lia.
Qed.
Lemma channel_check : forall f : Z -> bool, forallb f channels = true -> forall v, channel_ok v -> f v = true.
Proof. intros f H v Hv. rewrite forallb_forall in H. apply H, in_channels, Hv. Qed.

Lemma lin_arg_ap : forall v, channel_ok v -> ap (lin_arg v) (lin_base v) (/ IZR (2 ^ 48)).
Proof.
  intros v H. eapply ap_eq; [apply near_ap with (n := (1000 * v + 14025)%Z) (d := 269025%Z); [lia|]|].
  - revert v H. apply channel_check. vm_compute. reflexivity.
  - unfold lin_base. rewrite plus_IZR, mult_IZR. lra.
Qed.
Lemma lin_low_ap : forall v, channel_ok v -> ap (fdiv (chan v) (flit 1292 100)) (IZR v / 255 / (1292 / 100)) (/ IZR (2 ^ 48)).
Proof.
  intros v H. eapply ap_eq; [apply near_ap with (n := (100 * v)%Z) (d := 329460%Z); [lia|]|].
  - revert v H. apply channel_check. vm_compute. reflexivity.
  - rewrite mult_IZR. lra.
Qed.
Lemma lin_branch : forall v, channel_ok v -> fleb (chan v) (flit 4045 100000) = (v <=? 10)%Z.
Proof.
  intros v H. apply Bool.eqb_prop. revert v H. apply channel_check. vm_compute. reflexivity.
Qed.
Lemma lin_arg_mono : forall v w, channel_ok v -> channel_ok w -> (v <= w)%Z ->
  B2R (lin_arg v) <= B2R (lin_arg w).
Proof.
  intros v w Hv Hw L. destruct (lin_arg_ap v Hv) as [a [[F E] A]]. destruct (lin_arg_ap w Hw) as [b [[F' E'] B]].
  rewrite E, E'. apply Rabs_le_inv in A, B. destruct (Z.eq_dec v w) as [->|N]; [rewrite <- E, <- E'; lra|].
  assert (IZR v + 1 <= IZR w) by (rewrite <- plus_IZR; apply IZR_le; lia).
  unfold lin_base in *. change (IZR (2 ^ 48)) with 281474976710656 in *. lra.
Qed.

Lemma lin_base_range : forall v, channel_ok v -> / 20 <= lin_base v <= 1.
Proof.
  intros v [A B]. apply IZR_le in A, B. unfold lin_base. lra.
Qed.

Definition eps : R := / IZR (2 ^ 40).
Lemma eps_val : eps = / 1099511627776. Proof. reflexivity. Qed.

(** the exponents as floats *)
Lemma e24 : ap (flit 24 10) (24 / 10) u.
Proof. apply (ap_lit 24 10); try lia. apply Rabs_le. lra. Qed.

Lemma srgb_low : forall v, channel_ok v -> (v <= 10)%Z -> srgb_linear v = IZR v / 255 / (1292 / 100).
Proof.
  intros v H L. unfold srgb_linear. apply IZR_le in L. destruct (Rle_dec _ _) as [|N]; [reflexivity|]. exfalso. lra.
Qed.
Lemma srgb_high : forall v, channel_ok v -> (10 < v)%Z -> srgb_linear v = Rpower (lin_base v) (24 / 10).
Proof.
  intros v H L. assert (I : (11 <= v)%Z) by lia. apply IZR_le in I. unfold srgb_linear, lin_base.
  destruct (Rle_dec _ _) as [N|]; [exfalso; lra|reflexivity].
Qed.

Lemma pow24 : forall p v, pow_accurate p -> channel_ok v ->
  ap (p (lin_arg v) (flit 24 10)) (Rpower (lin_base v) (24 / 10)) (2 * eps).
Proof.
  intros p v P H. destruct (lin_arg_ap v H) as [a [[F E] A]]. destruct e24 as [y [[Fy Ey] Y]].
  pose proof (lin_base_range v H) as R. pose proof u_pos as U. rewrite eps_val.
  change (IZR (2 ^ 48)) with 281474976710656 in A.
  assert (Ra : / 21 <= a <= 1 + / 100) by (apply Rabs_le_inv in A; lra).
  assert (Ry : 0 < y <= 3) by (apply Rabs_le_inv in Y; lra).
  destruct (P (lin_arg v) (flit 24 10) F Fy) as [Fp Q]; [rewrite E; lra|rewrite Ey; lra|].
  rewrite E, Ey in Q. exists (B2R (p (lin_arg v) (flit 24 10))). split; [split; auto|].
  pose proof (power_exp_err a (24 / 10) y ltac:(lra) ltac:(lra) Y) as X1.
  pose proof (power_lip a (lin_base v) ltac:(lra) ltac:(lra)) as X2.
  unfold u in *. apply Rabs_le_inv in Q, X1, A. apply Rabs_le_inv in X2.
  apply Rabs_le.
  assert (Rabs (a - lin_base v) <= / 281474976710656) by (apply Rabs_le; lra). lra.
Qed.

Lemma linearize_ap : forall e v, pow_accurate (env_pow e) -> channel_ok v ->
  ap (linearize e (chan v)) (srgb_linear v) (2 * eps).
Proof.
  intros e v P H. unfold linearize. rewrite lin_branch by assumption. destruct (Z.leb_spec v 10) as [L|L].
  - rewrite srgb_low by assumption. eapply ap_weak; [now apply lin_low_ap|].
    rewrite eps_val. change (IZR (2 ^ 48)) with 281474976710656. lra.
  - rewrite srgb_high by assumption. now apply pow24.
Qed.

Lemma srgb_range : forall v, channel_ok v -> 0 <= srgb_linear v <= 1.
Proof.
  intros v H. destruct (Z_le_gt_dec v 10) as [L|L].
  - rewrite srgb_low by assumption. destruct H as [A B]. apply IZR_le in A, L. lra.
  - rewrite srgb_high by (assumption || lia). pose proof (lin_base_range v H). split; [left; apply Rpower_pos|].
    apply power_upper; try lra. apply Rle_trans with (1 ^ 12); [apply pow_incr; lra|lra].
Qed.

Lemma linearize_mono : forall e v w, pow_accurate (env_pow e) -> pow_monotone (env_pow e) ->
  channel_ok v -> channel_ok w -> (v <= w)%Z ->
  B2R (linearize e (chan v)) <= B2R (linearize e (chan w)).
Proof.
  intros e v w P M Hv Hw L. destruct (Z.eq_dec v w) as [->|N]; [lra|].
  assert (S : IZR v + 1 <= IZR w) by (rewrite <- plus_IZR; apply IZR_le; lia).
  destruct (linearize_ap e v P Hv) as [a [[F E] A]]. destruct (linearize_ap e w P Hw) as [b [[F' E'] B]].
  destruct (Z_le_gt_dec v 10) as [Lv|Lv].
  - rewrite E, E'. apply Rabs_le_inv in A, B. rewrite eps_val in *.
    rewrite srgb_low in A by assumption. destruct (Z_le_gt_dec w 10) as [Lw|Lw].
    + rewrite srgb_low in B by assumption. lra.
    + rewrite srgb_high in B by (assumption || lia).
      assert (Q : 33 / 10000 <= Rpower (lin_base w) (24 / 10)).
      { apply power_lower; [pose proof (lin_base_range w Hw); lra|lra|].
        assert (11 <= IZR w) by (apply IZR_le; lia). apply Rle_trans with ((93 / 1000) ^ 12); [lra|].
        apply pow_incr. unfold lin_base. lra. }
      apply IZR_le in Lv. lra.
  - clear A B E E' F F'. unfold linearize. rewrite !lin_branch by assumption.
    destruct (Z.leb_spec v 10); [lia|]. destruct (Z.leb_spec w 10); [lia|].
    destruct (lin_arg_ap v Hv) as [a' [[F E] A]]. destruct (lin_arg_ap w Hw) as [b' [[F' E'] B]].
    destruct e24 as [y [[Fy Ey] Y]]. pose proof u_pos. apply Rabs_le_inv in Y, A, B.
    pose proof (lin_base_range v Hv). pose proof (lin_base_range w Hw). change (IZR (2 ^ 48)) with 281474976710656 in *.
    apply (M (lin_arg v) (lin_arg w) (flit 24 10)); auto.
    + rewrite E. lra.
    + now apply lin_arg_mono.
    + rewrite E'. lra.
    + rewrite Ey. lra.
Qed.
