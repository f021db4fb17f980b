(** IEEE binary64 facts: what each operation computes, as a rounded real. *)
From Coq Require Import ZArith List Bool Lia Reals Lra Psatz.
From Flocq Require Import Core Plus_error IEEE754.BinarySingleNaN.
From Verif Require Export BlendSpec.
From Verif Require Import PyBase PyLemmas F64.
Open Scope R_scope.

Definition fmt : R -> Prop := generic_format radix2 (SpecFloat.fexp fprec femax).
Definition rnd (x : R) : R := round radix2 (SpecFloat.fexp fprec femax) ZnearestE x.
Definition big : R := bpow radix2 1023.

Lemma fexp_FLT : SpecFloat.fexp fprec femax = FLT_exp (-1074) 53.
Proof. reflexivity. Qed.

#[global] Instance fprec_pos : Prec_gt_0 fprec := eq_refl.
#[global] Instance valid_fexp : Valid_exp (SpecFloat.fexp fprec femax).
Proof. apply (@fexp_correct fprec femax fprec_pos). Qed.

Lemma rnd_le : forall x y, x <= y -> rnd x <= rnd y.
Proof. intros x y H. unfold rnd. apply round_le; auto with typeclass_instances. Qed.
Lemma rnd_id : forall x, fmt x -> rnd x = x.
Proof. intros x H. unfold rnd. apply round_generic; auto with typeclass_instances. Qed.
Lemma rnd_fmt : forall x, fmt (rnd x).
Proof. intro x. unfold rnd, fmt. apply generic_format_round; auto with typeclass_instances. Qed.
Lemma rnd_ge : forall x y, fmt x -> x <= y -> x <= rnd y.
Proof. intros x y Hx H. rewrite <- (rnd_id x Hx). now apply rnd_le. Qed.
Lemma rnd_le_fmt : forall x y, fmt y -> x <= y -> rnd x <= y.
Proof. intros x y Hy H. rewrite <- (rnd_id y Hy). now apply rnd_le. Qed.
Lemma rnd_0 : rnd 0 = 0.
Proof. unfold rnd. apply round_0; auto with typeclass_instances. Qed.
Lemma rnd_opp : forall x, rnd (- x) = - rnd x.
Proof. intro x. unfold rnd. apply round_NE_opp. Qed.

Lemma fmt_F2R : forall m e, (Z.abs m < 2 ^ 53)%Z -> (-1074 <= e)%Z -> fmt (F2R (Float radix2 m e)).
Proof.
  intros m e Hm He. unfold fmt. rewrite fexp_FLT. apply generic_format_FLT.
  exists (Float radix2 m e); [reflexivity|exact Hm|exact He].
Qed.
Lemma fmt_IZR : forall z, (Z.abs z < 2 ^ 53)%Z -> fmt (IZR z).
Proof.
  intros z H. replace (IZR z) with (F2R (Float radix2 z 0)).
  - apply fmt_F2R; lia.
  - unfold F2R. simpl. lra.
Qed.
(** dyadic rationals *)
Lemma fmt_dyad : forall z (k : positive), (Z.abs z < 2 ^ 53)%Z -> (Z.pos k <= 1074)%Z ->
  fmt (IZR z / IZR (2 ^ Z.pos k)).
Proof.
  intros z k H Hk. replace (IZR z / IZR (2 ^ Z.pos k)) with (F2R (Float radix2 z (Z.neg k))).
  - apply fmt_F2R; lia.
  - unfold F2R. simpl Fnum. simpl Fexp. unfold Rdiv. f_equal.
Qed.
Lemma fmt_bpow : forall e, (-1074 <= e <= 1023)%Z -> fmt (bpow radix2 e).
Proof.
  intros e H. replace (bpow radix2 e) with (F2R (Float radix2 1 e)); [|unfold F2R; simpl; lra].
  apply fmt_F2R; [reflexivity|lia].
Qed.
Lemma fmt_opp : forall x, fmt x -> fmt (- x).
Proof. intros x H. now apply generic_format_opp. Qed.
Lemma fmt_B2R : forall x : f64, fmt (B2R x).
Proof. intro x. apply generic_format_B2R. Qed.
Lemma fmt_0 : fmt 0.
Proof. apply generic_format_0. Qed.

Lemma big_fmt : fmt big. Proof. apply fmt_bpow. lia. Qed.
Lemma rnd_big : forall x, Rabs x <= big -> Rabs (rnd x) <= big.
Proof.
  intros x H. apply Rabs_le_inv in H. apply Rabs_le. split.
  - apply rnd_ge; [apply fmt_opp, big_fmt|lra].
  - apply rnd_le_fmt; [apply big_fmt|lra].
Qed.
Lemma big_lt : forall x, Rabs x <= big -> Rlt_bool (Rabs x) (bpow radix2 femax) = true.
Proof.
  intros x H. apply Rlt_bool_true. eapply Rle_lt_trans; [exact H|]. apply bpow_lt. reflexivity.
Qed.


Lemma fin_fmt : forall x v, fin x v -> fmt v.
Proof. intros x v [_ <-]. apply fmt_B2R. Qed.

Lemma fofZ_spec : forall z, (Z.abs z < 2 ^ 53)%Z -> fin (fofZ z) (IZR z).
Proof.
  intros z H. unfold fofZ, fin.
  pose proof (binary_normalize_correct fprec femax fprec_gt_0 fprec_lt_emax mode_NE z 0 false) as C.
  assert (E : F2R (Float radix2 z 0) = IZR z) by (unfold F2R; simpl; lra).
  cbv zeta in C. rewrite E in C. simpl round_mode in C. fold (rnd (IZR z)) in C.
  rewrite (rnd_id _ (fmt_IZR z H)) in C.
  rewrite big_lt in C.
  - destruct C as [C1 [C2 _]]. split; assumption.
  - rewrite <- abs_IZR. apply Rle_trans with (IZR (2 ^ 53)).
    + apply IZR_le. lia.
    + unfold big. rewrite (IZR_Zpower radix2) by lia. apply bpow_le. lia.
Qed.

Lemma fadd_spec : forall x y a b, fin x a -> fin y b -> Rabs (a + b) <= big ->
  fin (fadd x y) (rnd (a + b)).
Proof.
  intros x y a b [Fx <-] [Fy <-] H. unfold fadd.
  pose proof (Bplus_correct fprec femax fprec_gt_0 fprec_lt_emax mode_NE x y Fx Fy) as C.
  simpl round_mode in C. fold (rnd (B2R x + B2R y)) in C.
  rewrite big_lt in C by now apply rnd_big. destruct C as [C1 [C2 _]]. split; assumption.
Qed.
Lemma fsub_spec : forall x y a b, fin x a -> fin y b -> Rabs (a - b) <= big ->
  fin (fsub x y) (rnd (a - b)).
Proof.
  intros x y a b [Fx <-] [Fy <-] H. unfold fsub.
  pose proof (Bminus_correct fprec femax fprec_gt_0 fprec_lt_emax mode_NE x y Fx Fy) as C.
  simpl round_mode in C. fold (rnd (B2R x - B2R y)) in C.
  rewrite big_lt in C by now apply rnd_big. destruct C as [C1 [C2 _]]. split; assumption.
Qed.
Lemma fmul_spec : forall x y a b, fin x a -> fin y b -> Rabs (a * b) <= big ->
  fin (fmul x y) (rnd (a * b)).
Proof.
  intros x y a b [Fx <-] [Fy <-] H. unfold fmul.
  pose proof (Bmult_correct fprec femax fprec_gt_0 fprec_lt_emax mode_NE x y) as C.
  simpl round_mode in C. fold (rnd (B2R x * B2R y)) in C.
  rewrite big_lt in C by now apply rnd_big. destruct C as [C1 [C2 _]].
  rewrite Fx, Fy in C2. split; assumption.
Qed.
Lemma fdiv_spec : forall x y a b, fin x a -> fin y b -> b <> 0 -> Rabs (a / b) <= big ->
  fin (fdiv x y) (rnd (a / b)).
Proof.
  intros x y a b [Fx <-] [Fy <-] Hb H. unfold fdiv.
  pose proof (Bdiv_correct fprec femax fprec_gt_0 fprec_lt_emax mode_NE x y Hb) as C.
  simpl round_mode in C. fold (rnd (B2R x / B2R y)) in C.
  rewrite big_lt in C by now apply rnd_big. destruct C as [C1 [C2 _]].
  rewrite Fx in C2. split; assumption.
Qed.
Lemma fsqrt_spec : forall x a, fin x a -> 0 <= a ->
  fin (@Bsqrt fprec femax fprec_gt_0 fprec_lt_emax mode_NE x) (rnd (sqrt a)).
Proof.
  intros x a [Fx <-] H.
  pose proof (Bsqrt_correct fprec femax fprec_gt_0 fprec_lt_emax mode_NE x) as C.
  simpl round_mode in C. fold (rnd (sqrt (B2R x))) in C. destruct C as [C1 [C2 _]].
  split; [|exact C1]. rewrite C2. destruct x as [s|s| |s m e B]; try discriminate; auto.
  destruct s; auto. exfalso.
  assert (B2R (B754_finite true m e B) < 0).
  { unfold B2R. apply F2R_lt_0. simpl. lia. }
  lra.
Qed.

Lemma fltb_spec : forall x y a b, fin x a -> fin y b -> (fltb x y = true <-> a < b).
Proof.
  intros x y a b [Fx <-] [Fy <-]. unfold fltb. rewrite Bltb_correct by assumption.
  destruct (Rlt_bool_spec (B2R x) (B2R y)); split; intro; auto; try discriminate; try lra.
Qed.
Lemma fleb_spec : forall x y a b, fin x a -> fin y b -> (fleb x y = true <-> a <= b).
Proof.
  intros x y a b [Fx <-] [Fy <-]. unfold fleb. rewrite Bleb_correct by assumption.
  destruct (Rle_bool_spec (B2R x) (B2R y)); split; intro; auto; try discriminate; try lra.
Qed.
Lemma feqb_spec : forall x y a b, fin x a -> fin y b -> (feqb x y = true <-> a = b).
Proof.
  intros x y a b [Fx <-] [Fy <-]. unfold feqb. rewrite Beqb_correct by assumption.
  destruct (Req_bool_spec (B2R x) (B2R y)); split; intro; auto; try discriminate; try lra.
Qed.
Lemma fltb_false : forall x y a b, fin x a -> fin y b -> (fltb x y = false <-> b <= a).
Proof.
  intros x y a b Hx Hy. pose proof (fltb_spec x y a b Hx Hy) as [H1 H2].
  split.
  - intro E. apply Rnot_lt_le; intro L. rewrite (H2 L) in E. discriminate.
  - intro L. destruct (fltb x y); [|reflexivity]. specialize (H1 eq_refl). lra.
Qed.
Lemma fleb_false : forall x y a b, fin x a -> fin y b -> (fleb x y = false <-> b < a).
Proof.
  intros x y a b Hx Hy. pose proof (fleb_spec x y a b Hx Hy) as [H1 H2].
  split.
  - intro E. apply Rnot_le_lt. intro L. rewrite (H2 L) in E. discriminate.
  - intro L. destruct (fleb x y); [|reflexivity]. specialize (H1 eq_refl). lra.
Qed.

Lemma Btrunc_Ztrunc : forall x : f64, Btrunc x = Ztrunc (B2R x).
Proof.
  intro x. pose proof (Btrunc_correct fprec femax fprec_lt_emax x) as H.
  apply eq_IZR. rewrite H. unfold round, scaled_mantissa, cexp, FIX_exp. simpl.
  unfold F2R. simpl. rewrite !Rmult_1_r. reflexivity.
Qed.

Lemma finite_not_nan : forall x : f64, is_finite x = true -> is_nan x = false.
Proof. now intros [| | |]. Qed.

Lemma py_int_spec : forall x a, fin x a -> py_int_of_float x = Ok (Ztrunc a).
Proof.
  intros x a [Fx <-]. unfold py_int_of_float, f_nan, f_finite.
  rewrite finite_not_nan, Fx by assumption. now rewrite Btrunc_Ztrunc.
Qed.

(** Rounding error: half an ulp *)
Lemma rnd_error : forall x (e : Z), (-1021 <= e)%Z -> Rabs x < bpow radix2 e ->
  Rabs (rnd x - x) <= bpow radix2 (e - 54).
Proof.
  intros x e He Hx. destruct (Req_dec x 0) as [->|H0].
  { rewrite rnd_0, Rminus_0_r, Rabs_R0. apply bpow_ge_0. }
  unfold rnd. eapply Rle_trans; [apply error_le_half_ulp; auto with typeclass_instances|].
  rewrite ulp_neq_0 by assumption. unfold cexp.
  assert (M : (mag radix2 x <= e)%Z) by now apply mag_le_bpow.
  replace (/ 2) with (bpow radix2 (-1)) by reflexivity. rewrite <- bpow_plus. apply bpow_le.
  rewrite fexp_FLT. unfold FLT_exp. lia.
Qed.

Lemma Ztrunc_IZR_le : forall n x, IZR n <= x -> (n <= Ztrunc x)%Z.
Proof. intros n x H. rewrite <- (Ztrunc_IZR n). now apply Ztrunc_le. Qed.
Lemma Ztrunc_le_IZR : forall n x, x <= IZR n -> (Ztrunc x <= n)%Z.
Proof. intros n x H. rewrite <- (Ztrunc_IZR n). now apply Ztrunc_le. Qed.
Lemma Ztrunc_lt_IZR : forall n x, 0 <= x -> x < IZR n -> (Ztrunc x < n)%Z.
Proof.
  intros n x H0 H. rewrite Ztrunc_floor by assumption. apply lt_IZR.
  eapply Rle_lt_trans; [apply Zfloor_lb|exact H].
Qed.
Lemma Ztrunc_error : forall x, Rabs (IZR (Ztrunc x) - x) < 1.
Proof.
  intro x. destruct (Rle_lt_dec 0 x) as [H|H].
  - rewrite Ztrunc_floor by assumption. pose proof (Zfloor_lb x). pose proof (Zfloor_ub x).
    apply Rabs_lt. lra.
  - rewrite Ztrunc_ceil by lra. pose proof (Zceil_ub x).
    assert (IZR (Zceil x) - 1 < x).
    { pose proof (Zfloor_ub (- x)). unfold Zceil. rewrite opp_IZR. lra. }
    apply Rabs_lt. lra.
Qed.

Lemma fin_unique : forall x a b, fin x a -> fin x b -> a = b.
Proof. intros x a b [_ <-] [_ <-]. reflexivity. Qed.
Lemma fin_B2R : forall x : f64, is_finite x = true -> fin x (B2R x).
Proof. intros x H. split; auto. Qed.
