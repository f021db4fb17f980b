(** hue_shift: the floating point code stays within 2^-40 of the textbook rotation. *)
From Coq Require Import ZArith List Bool Lia Reals Lra Psatz.
From Flocq Require Import Core IEEE754.BinarySingleNaN.
From Verif Require Import PyBase PyLemmas F64 SpaceModel ColorModel ColorSpec ColorProofs FloatLemmas BlendProofs
  PaletteProofs HueSpec.
Open Scope R_scope.

(** * Approximation *)
Definition u : R := / 4503599627370496.      (* 2^-52 *)
Lemma u_bpow : bpow radix2 (-52) = u. Proof. unfold u. simpl. lra. Qed.
Lemma u_pos : 0 < u < / 1000000000000. Proof. unfold u. lra. Qed.

Definition ap (x : f64) (v d : R) : Prop := exists w, fin x w /\ Rabs (w - v) <= d.

Lemma big_1000 : 1000 <= big.
Proof. unfold big. apply Rle_trans with (bpow radix2 10); [simpl; lra|]. apply bpow_le. lia. Qed.

Lemma rnd_u : forall x, Rabs x < 4 -> Rabs (rnd x - x) <= u.
Proof. intros x H. rewrite <- u_bpow. exact (rnd_error x 2 ltac:(lia) H). Qed.

Lemma ap_fin : forall x v, fin x v -> ap x v 0.
Proof. intros x v H. exists v. split; auto. rewrite Rminus_eq_0, Rabs_R0. lra. Qed.
Lemma ap_weak : forall x v d d', ap x v d -> d <= d' -> ap x v d'.
Proof. intros x v d d' [w [F H]] L. exists w. split; auto. lra. Qed.
Lemma ap_eq : forall x v v' d, ap x v d -> v = v' -> ap x v' d.
Proof. now intros x v v' d H <-. Qed.

Lemma ap_add : forall x y a b d e, ap x a d -> ap y b e -> Rabs (a + b) <= 3 -> d + e < 1 ->
  ap (fadd x y) (a + b) (d + e + u).
Proof.
  intros x y a b d e [v [Fv Hv]] [w [Fw Hw]] H L. exists (rnd (v + w)).
  apply Rabs_le_inv in H, Hv, Hw. pose proof big_1000. split.
  - apply fadd_spec; auto. apply Rabs_le. lra.
  - pose proof (rnd_u (v + w) ltac:(apply Rabs_lt; lra)) as R. apply Rabs_le_inv in R. apply Rabs_le. lra.
Qed.
Lemma ap_sub : forall x y a b d e, ap x a d -> ap y b e -> Rabs (a - b) <= 3 -> d + e < 1 ->
  ap (fsub x y) (a - b) (d + e + u).
Proof.
  intros x y a b d e [v [Fv Hv]] [w [Fw Hw]] H L. exists (rnd (v - w)).
  apply Rabs_le_inv in H, Hv, Hw. pose proof big_1000. split.
  - apply fsub_spec; auto. apply Rabs_le. lra.
  - pose proof (rnd_u (v - w) ltac:(apply Rabs_lt; lra)) as R. apply Rabs_le_inv in R. apply Rabs_le. lra.
Qed.
Lemma ap_mul : forall x y a b d e A B, ap x a d -> ap y b e -> Rabs a <= A -> Rabs b <= B ->
  (A + d) * (B + e) < 4 ->
  ap (fmul x y) (a * b) (A * e + (B + e) * d + u).
Proof.
  intros x y a b d e A B [v [Fv Hv]] [w [Fw Hw]] HA HB H. exists (rnd (v * w)).
  assert (Va : Rabs v <= A + d).
  { replace v with ((v - a) + a) by lra. eapply Rle_trans; [apply Rabs_triang|]. lra. }
  assert (Wb : Rabs w <= B + e).
  { replace w with ((w - b) + b) by lra. eapply Rle_trans; [apply Rabs_triang|]. lra. }
  assert (P : Rabs (v * w) < 4).
  { rewrite Rabs_mult. eapply Rle_lt_trans; [|exact H]. apply Rmult_le_compat; auto using Rabs_pos. }
  pose proof big_1000. split.
  - apply fmul_spec; auto. lra.
  - pose proof (rnd_u _ P) as R.
    replace (rnd (v * w) - a * b) with ((rnd (v * w) - v * w) + ((w - b) * a + (v - a) * w)) by lra.
    eapply Rle_trans; [apply Rabs_triang|].
    assert (Q : Rabs ((w - b) * a + (v - a) * w) <= A * e + (B + e) * d).
    { eapply Rle_trans; [apply Rabs_triang|]. rewrite !Rabs_mult.
      apply Rplus_le_compat.
      - rewrite Rmult_comm. apply Rmult_le_compat; auto using Rabs_pos.
      - rewrite Rmult_comm. apply Rmult_le_compat; auto using Rabs_pos. }
    lra.
Qed.

(** * frac and weight *)
Lemma frac_spec : forall x, exists k, frac x = x + IZR k /\ 0 <= frac x < 1.
Proof.
  intro x. unfold frac. destruct (archimed x) as [A B]. exists (- (up x - 1))%Z.
  rewrite opp_IZR, minus_IZR. lra.
Qed.
Lemma frac_unique : forall x k, 0 <= x + IZR k < 1 -> frac x = x + IZR k.
Proof.
  intros x k H. destruct (frac_spec x) as [j [E R]]. rewrite E in *.
  assert (J : (j = k)%Z).
  { assert (IZR (j - k) < 1 /\ -1 < IZR (j - k)) by (rewrite minus_IZR; lra).
    destruct H0 as [H1 H2]. apply lt_IZR in H1, H2. lia. }
  now rewrite J.
Qed.
Lemma frac_shift : forall x k, frac (x + IZR k) = frac x.
Proof.
  intros x k. destruct (frac_spec x) as [j [E R]]. rewrite E. rewrite (frac_unique (x + IZR k) (j - k)).
  - rewrite minus_IZR. lra.
  - rewrite minus_IZR. lra.
Qed.

Lemma weight_cases : forall x,
  (x <= 0 /\ weight x = 0) \/ (0 <= x <= / 6 /\ weight x = 6 * x) \/ (/ 6 <= x <= / 2 /\ weight x = 1) \/
  (/ 2 <= x <= 2 / 3 /\ weight x = 4 - 6 * x) \/ (2 / 3 <= x /\ weight x = 0).
Proof.
  intro x. unfold weight. destruct (Rle_lt_dec x (/ 3)) as [H|H].
  - rewrite (Rmin_left (6 * x)) by lra. destruct (Rle_lt_dec x 0) as [H0|H0].
    + left. rewrite Rmin_right, Rmax_left by lra. lra.
    + destruct (Rle_lt_dec x (/ 6)) as [H1|H1].
      * right; left. rewrite Rmin_right, Rmax_right by lra. lra.
      * right; right; left. rewrite Rmin_left, Rmax_right by lra. lra.
  - rewrite (Rmin_right (6 * x)) by lra. destruct (Rle_lt_dec x (/ 2)) as [H0|H0].
    + right; right; left. rewrite Rmin_left, Rmax_right by lra. lra.
    + destruct (Rle_lt_dec x (2 / 3)) as [H1|H1].
      * right; right; right; left. rewrite Rmin_right, Rmax_right by lra. lra.
      * right; right; right; right. rewrite Rmin_right, Rmax_left by lra. lra.
Qed.
Ltac wcases x :=
  let H := fresh "W" in pose proof (weight_cases x) as H;
  destruct H as [[? H]|[[? H]|[[? H]|[[? H]|[? H]]]]]; rewrite H in *.
Lemma weight_range : forall x, 0 <= weight x <= 1.
Proof. intro x. wcases x; lra. Qed.
Lemma weight_lip : forall x y d, Rabs (x - y) <= d -> Rabs (weight x - weight y) <= 6 * d.
Proof.
  intros x y d H. apply Rabs_le_inv in H. apply Rabs_le. wcases x; wcases y; lra.
Qed.

Definition hue_of (v x d : R) : Prop := 0 <= v <= 1 /\ exists k, Rabs (v - x - IZR k) <= d.

Lemma weight_frac : forall v x d, hue_of v x d -> d < / 12 -> Rabs (weight v - weight (frac x)) <= 6 * d.
Proof.
  intros v x d [Hv [k Hk]] Hd. destruct (frac_spec x) as [j [E R]]. apply Rabs_le_inv in Hk.
  assert (Cj : (k - j = 0 \/ k - j = 1 \/ k - j = -1)%Z).
  { assert (-2 < IZR (k - j) < 2) by (rewrite minus_IZR; lra). destruct H as [H1 H2]. apply lt_IZR in H1, H2. lia. }
  assert (Ek : IZR k = IZR j + IZR (k - j)) by (rewrite minus_IZR; lra).
  apply Rabs_le. destruct Cj as [C|[C|C]]; rewrite C in Ek; wcases v; wcases (frac x); lra.
Qed.

(** * x % 1 *)
Lemma fmod1_spec : forall x a, fin x a -> fin (fmod1 x) (a - IZR (Ztrunc a)).
Proof.
  intros x a [F <-]. destruct x as [s|s| |s m e B]; try discriminate.
  - simpl. split; [reflexivity|]. simpl. change 0 with (IZR 0) at 2. rewrite Ztrunc_IZR. simpl. lra.
  - unfold fmod1. destruct (Z.leb_spec 0 e) as [L|L].
    + split; [reflexivity|]. simpl (B2R (B754_zero s)). unfold B2R.
      assert (E : exists z, F2R (Float radix2 (cond_Zopp s (Z.pos m)) e) = IZR z).
      { exists (cond_Zopp s (Z.pos m) * 2 ^ e)%Z. unfold F2R. simpl Fnum. simpl Fexp.
        rewrite mult_IZR. f_equal. rewrite <- IZR_Zpower by assumption. reflexivity. }
      destruct E as [z ->]. rewrite Ztrunc_IZR. lra.
    + set (r := (Z.pos m mod 2 ^ (- e))%Z).
      assert (P : (0 < 2 ^ (- e))%Z) by (apply Z.pow_pos_nonneg; lia).
      assert (R : (0 <= r < 2 ^ (- e))%Z) by (apply Z.mod_pos_bound; assumption).
      assert (Rm : (r <= Z.pos m)%Z) by (apply Z.mod_le; lia).
      assert (Bm : (Z.pos m < 2 ^ 53)%Z /\ (-1074 <= e)%Z).
      { pose proof B as B'. unfold SpecFloat.bounded in B'. apply andb_true_iff in B'. destruct B' as [B1 B2].
        unfold SpecFloat.canonical_mantissa in B1. apply Zeq_bool_eq in B1.
        unfold SpecFloat.fexp, SpecFloat.emin in B1. rewrite Digits.Zpos_digits2_pos in B1.
        change (fprec) with 53%Z in B1. change femax with 1024%Z in B1. split; [|lia].
        pose proof (Digits.Zdigits_correct radix2 (Z.pos m)) as D. 
        assert (DD : (Digits.Zdigits radix2 (Z.pos m) <= 53)%Z) by lia.
        destruct D as [_ D]. rewrite Z.abs_eq in D by lia.
        eapply Z.lt_le_trans; [exact D|]. change (2 ^ 53)%Z with (radix2 ^ 53)%Z. apply Zpower_le; lia. }
      set (z := if s then (- r)%Z else r).
      assert (Fz : fmt (F2R (Float radix2 z e))).
      { apply fmt_F2R; [unfold z; destruct s; lia|lia]. }
      assert (V : F2R (Float radix2 z e) =
                  B2R (B754_finite s m e B) - IZR (Ztrunc (B2R (B754_finite s m e B)))).
      { unfold B2R. assert (X : F2R (Float radix2 (Z.pos m) e) = IZR (Z.pos m) / IZR (2 ^ (- e))).
        { unfold F2R. simpl Fnum. simpl Fexp. unfold Rdiv. f_equal. destruct e as [|p|p]; try lia.
          simpl. now rewrite Z.pow_pos_fold. }
        assert (X' : F2R (Float radix2 r e) = IZR r / IZR (2 ^ (- e))).
        { unfold F2R. simpl Fnum. simpl Fexp. unfold Rdiv. f_equal. destruct e as [|p|p]; try lia.
          simpl. now rewrite Z.pow_pos_fold. }
        assert (Pr : 0 < IZR (2 ^ (- e))) by (apply IZR_lt; assumption).
        assert (T : Ztrunc (F2R (Float radix2 (Z.pos m) e)) = (Z.pos m / 2 ^ (- e))%Z).
        { rewrite X. rewrite Ztrunc_div by lia. rewrite Z.quot_div_nonneg by lia. reflexivity. }
        assert (G : F2R (Float radix2 r e) = F2R (Float radix2 (Z.pos m) e) - IZR (Z.pos m / 2 ^ (- e))).
        { rewrite X, X'. unfold r. rewrite Z.mod_eq by lia. rewrite minus_IZR, mult_IZR. field. lra. }
        unfold z. destruct s; cbn [cond_Zopp].
        - rewrite F2R_Zopp. change (-Z.pos m)%Z with (- (Z.pos m))%Z. rewrite F2R_Zopp, Ztrunc_opp, T, opp_IZR. lra.
        - rewrite T. lra. }
      rewrite <- V.
      pose proof (binary_normalize_correct fprec femax fprec_gt_0 fprec_lt_emax mode_NE z e s) as C.
      cbv zeta in C. fold (rnd (F2R (Float radix2 z e))) in C.
      change (round radix2 (SpecFloat.fexp fprec femax) (round_mode mode_NE) (F2R (Float radix2 z e)))
        with (rnd (F2R (Float radix2 z e))) in C.
      rewrite rnd_id in C by assumption.
      rewrite big_lt in C.
      * destruct C as [C1 [C2 _]]. split; assumption.
      * rewrite V. pose proof (Ztrunc_error (B2R (B754_finite s m e B))) as T. apply Rabs_lt_inv in T.
        pose proof big_1. apply Rabs_le. lra.
Qed.

Lemma Ztrunc_sub_sign : forall a, (0 <= a -> 0 <= a - IZR (Ztrunc a) < 1) /\ (a <= 0 -> -1 < a - IZR (Ztrunc a) <= 0).
Proof.
  intro a. pose proof (Ztrunc_error a) as T. apply Rabs_lt_inv in T. split; intro H.
  - rewrite Ztrunc_floor in * by assumption. pose proof (Zfloor_lb a). lra.
  - rewrite Ztrunc_ceil in * by assumption. pose proof (Zceil_ub a). lra.
Qed.

Lemma fin_fzero : fin fzero 0. Proof. split; reflexivity. Qed.

Lemma fmodpy1_spec : forall x a, fin x a -> exists v, fin (fmodpy1 x) v /\ hue_of v a u.
Proof.
  intros x a H. unfold fmodpy1. pose proof (fmod1_spec x a H) as F. set (m := fmod1 x) in *. clearbody m.
  pose proof u_pos. set (t := a - IZR (Ztrunc a)) in *.
  assert (Ht : -1 < t < 1).
  { pose proof (Ztrunc_error a) as T. apply Rabs_lt_inv in T. unfold t. lra. }
  cbv zeta. destruct (feqb m fzero) eqn:E.
  - apply (feqb_spec _ _ _ _ F fin_fzero) in E. exists 0. split; [split; reflexivity|].
    split; [lra|]. exists (- Ztrunc a)%Z. rewrite opp_IZR. unfold t in E. apply Rabs_le. lra.
  - destruct (fltb m fzero) eqn:L.
    + apply (fltb_spec _ _ _ _ F fin_fzero) in L. exists (rnd (t + 1)). split.
      * apply fadd_spec; auto using fone_1. pose proof big_1. apply Rabs_le. lra.
      * pose proof (rnd_u (t + 1) ltac:(apply Rabs_lt; lra)) as R. split.
        -- split; [apply rnd_ge; [apply fmt_0|lra]|apply rnd_le_fmt; [apply (fmt_small 1); lia|lra]].
        -- exists (1 - Ztrunc a)%Z. rewrite minus_IZR. unfold t in *. apply Rabs_le_inv in R. apply Rabs_le. lra.
    + apply (fltb_false _ _ _ _ F fin_fzero) in L. exists t. split; auto. split; [lra|].
      exists (- Ztrunc a)%Z. rewrite opp_IZR. unfold t. apply Rabs_le. lra.
Qed.

Lemma fmodpy1_nan : forall x, is_finite x = false -> fmodpy1 x = B754_nan.
Proof. intros [s|s| |s m e B] H; try discriminate; reflexivity. Qed.

(** * The hue to channel function *)
Lemma ap_hue : forall y x e, ap y x e -> exists v, fin (fmodpy1 y) v /\ hue_of v x (e + u).
Proof.
  intros y x e [w [F H]]. destruct (fmodpy1_spec y w F) as [v [Fv [Rv [k Hk]]]]. exists v. split; auto. split; auto.
  exists k. apply Rabs_le_inv in H, Hk. apply Rabs_le. lra.
Qed.

Lemma ap_lit : forall n d, (Z.abs n < 2 ^ 53)%Z -> (0 < d < 2 ^ 53)%Z -> Rabs (IZR n / IZR d) <= 3 ->
  ap (flit n d) (IZR n / IZR d) u.
Proof.
  intros n d Hn Hd H. pose proof big_1000. exists (rnd (IZR n / IZR d)). split.
  - apply flit_spec; auto. lra.
  - apply rnd_u. lra.
Qed.
Lemma ap_Z : forall z, (Z.abs z < 2 ^ 53)%Z -> ap (fofZ z) (IZR z) 0.
Proof. intros z H. apply ap_fin, fofZ_spec, H. Qed.

Lemma sixth : ap ONE_SIXTH (/ 6) u.
Proof. eapply ap_eq; [apply (ap_lit 1 6); try lia; apply Rabs_le; lra|lra]. Qed.
Lemma third : ap ONE_THIRD (/ 3) u.
Proof. eapply ap_eq; [apply (ap_lit 1 3); try lia; apply Rabs_le; lra|lra]. Qed.
Lemma two_thirds : ap TWO_THIRD (2 / 3) u.
Proof. eapply ap_eq; [apply (ap_lit 2 3); try lia; apply Rabs_le; lra|lra]. Qed.
Lemma half_exact : fin (flit 1 2) (/ 2).
Proof.
  pose proof half_fin as H. replace (/ 2) with (rnd (1 / 2)); auto. rewrite rnd_id; [lra|].
  change 2 with (IZR (2 ^ 1)). apply fmt_dyad; lia.
Qed.

Lemma mul_le_1 : forall a b, 0 <= a <= 1 -> Rabs b <= 1 -> Rabs (a * b) <= Rabs b.
Proof. intros a b Ha Hb. rewrite Rabs_mult, (Rabs_pos_eq a) by lra. pose proof (Rabs_pos b). nra. Qed.

Lemma scale_err : forall a x y d, 0 <= a <= 1 -> Rabs (x - y) <= d -> Rabs (a * x - a * y) <= d.
Proof.
  intros a x y d Ha H. replace (a * x - a * y) with (a * (x - y)) by lra.
  rewrite Rabs_mult, (Rabs_pos_eq a) by lra. pose proof (Rabs_pos (x - y)). nra.
Qed.

Definition D (d e : R) : R := 13 * d + 40 * u + 6 * e.

Lemma hls_v_spec : forall m1 m2 y lo hi x d e,
  ap m1 lo d -> ap m2 hi d -> 0 <= lo -> lo <= hi -> hi <= 1 -> ap y x e ->
  0 <= d <= / 1000000 -> 0 <= e <= / 100 ->
  ap (hls_v m1 m2 y) (at_hue lo hi x) (D d e).
Proof.
  intros m1 m2 y lo hi x d e H1 H2 L0 L1 L2 Hy Hd He. pose proof u_pos as U.
  destruct (ap_hue y x e Hy) as [v [Fv Hv]].
  pose proof (weight_frac v x (e + u) Hv ltac:(lra)) as WF.
  assert (R : Rabs ((hi - lo) * weight v - (hi - lo) * weight (frac x)) <= 6 * (e + u))
    by (apply scale_err; [lra|exact WF]).
  destruct Hv as [Rv _].
  assert (G : forall z dd w, ap z (lo + w) dd -> Rabs (w - (hi - lo) * weight v) <= 7 * u -> dd <= 13 * d + 26 * u ->
     ap z (at_hue lo hi x) (D d e)).
  { intros z dd w [t [Ft Ht]] Hw Hdd. exists t. split; auto. unfold at_hue, D.
    apply Rabs_le_inv in Ht, Hw, R. apply Rabs_le. lra. }
  unfold hls_v. cbv zeta. set (h := fmodpy1 y) in *. clearbody h.
  pose proof (ap_sub _ _ _ _ _ _ H2 H1 ltac:(apply Rabs_le; lra) ltac:(lra)) as S.
  assert (A6 : ap (fofZ 6) 6 0) by (apply (ap_Z 6); lia).
  destruct sixth as [s6 [F6 E6]]. destruct two_thirds as [s23 [F23 E23]].
  apply Rabs_le_inv in E6, E23.
  destruct (fltb h ONE_SIXTH) eqn:B1.
  { apply (fltb_spec _ _ _ _ Fv F6) in B1.
    assert (P1 : ap (fmul (fsub m2 m1) h) ((hi - lo) * v) (2 * d + 2 * u)).
    { eapply ap_weak; [apply (ap_mul _ _ _ _ _ _ 1 (/ 3) S (ap_fin _ _ Fv))|]; try (apply Rabs_le; lra); lra. }
    assert (P2 : ap (fmul (fmul (fsub m2 m1) h) (fofZ 6)) ((hi - lo) * v * 6) (12 * d + 13 * u)).
    { eapply ap_weak; [apply (ap_mul _ _ _ _ _ _ (/ 3) 6 P1 A6)|]; try (apply Rabs_le); try lra.
      split; nra. }
    eapply (G _ _ ((hi - lo) * v * 6)).
    - apply (ap_add _ _ _ _ _ _ H1 P2); [|lra]. apply Rabs_le. split; nra.
    - replace ((hi - lo) * v * 6) with ((hi - lo) * (6 * v)) by lra. apply scale_err; [lra|].
      apply Rabs_le. wcases v; lra.
    - lra. }
  apply (fltb_false _ _ _ _ Fv F6) in B1.
  destruct (fltb h (flit 1 2)) eqn:B2.
  { apply (fltb_spec _ _ _ _ Fv half_exact) in B2.
    eapply (G _ d ((hi - lo) * 1)).
    - eapply ap_eq; [exact H2|lra].
    - apply scale_err; [lra|]. apply Rabs_le. wcases v; lra.
    - lra. }
  apply (fltb_false _ _ _ _ Fv half_exact) in B2.
  destruct (fltb h TWO_THIRD) eqn:B3.
  { apply (fltb_spec _ _ _ _ Fv F23) in B3.
    assert (A23 : ap (fsub TWO_THIRD h) (2 / 3 - v) (2 * u)).
    { eapply ap_weak; [apply (ap_sub _ _ _ _ u 0)|].
      - exists s23. split; auto. apply Rabs_le. lra.
      - apply ap_fin; exact Fv.
      - apply Rabs_le. lra.
      - lra.
      - lra. }
    assert (P1 : ap (fmul (fsub m2 m1) (fsub TWO_THIRD h)) ((hi - lo) * (2 / 3 - v)) (2 * d + 4 * u)).
    { eapply ap_weak; [apply (ap_mul _ _ _ _ _ _ 1 (/ 3) S A23)|]; try (apply Rabs_le; lra); try lra; nra. }
    assert (P2 : ap (fmul (fmul (fsub m2 m1) (fsub TWO_THIRD h)) (fofZ 6)) ((hi - lo) * (2 / 3 - v) * 6) (12 * d + 25 * u)).
    { eapply ap_weak; [apply (ap_mul _ _ _ _ _ _ (/ 3) 6 P1 A6)|]; try (apply Rabs_le); try lra.
      split; nra. }
    eapply (G _ _ ((hi - lo) * (2 / 3 - v) * 6)).
    - apply (ap_add _ _ _ _ _ _ H1 P2); [|lra]. apply Rabs_le. split; nra.
    - replace ((hi - lo) * (2 / 3 - v) * 6) with ((hi - lo) * (6 * (2 / 3 - v))) by lra. apply scale_err; [lra|].
      apply Rabs_le. wcases v; lra.
    - lra. }
  apply (fltb_false _ _ _ _ Fv F23) in B3.
  eapply (G _ d ((hi - lo) * 0)).
  - eapply ap_eq; [exact H1|lra].
  - apply scale_err; [lra|]. apply Rabs_le. wcases v; lra.
  - lra.
Qed.

Lemma hls_v_nan : forall m1 m2 y, is_finite y = false -> hls_v m1 m2 y = m1.
Proof. intros m1 m2 y H. unfold hls_v. rewrite fmodpy1_nan by assumption. reflexivity. Qed.

(** * From channels to hue, lightness, saturation *)
Lemma fmax_q : forall x y a b, fin x (q a) -> fin y (q b) -> fin (fmax x y) (q (Z.max a b)).
Proof.
  intros x y a b Hx Hy. unfold fmax. pose proof (fltb_spec _ _ _ _ Hx Hy) as F. destruct (fltb x y).
  - assert (L : q a < q b) by now apply F. unfold q in L. assert (IZR a < IZR b) by lra. apply lt_IZR in H.
    now rewrite Z.max_r by lia.
  - assert (L : ~ q a < q b) by (intro L; apply F in L; discriminate).
    rewrite Z.max_l; auto. destruct (Z.le_gt_cases b a); auto. exfalso. apply L. unfold q. apply IZR_lt in H. lra.
Qed.
Lemma fmin_q : forall x y a b, fin x (q a) -> fin y (q b) -> fin (fmin x y) (q (Z.min a b)).
Proof.
  intros x y a b Hx Hy. unfold fmin. pose proof (fltb_spec _ _ _ _ Hy Hx) as F. destruct (fltb y x).
  - assert (L : q b < q a) by now apply F. unfold q in L. assert (IZR b < IZR a) by lra. apply lt_IZR in H.
    now rewrite Z.min_r by lia.
  - assert (L : ~ q b < q a) by (intro L; apply F in L; discriminate).
    rewrite Z.min_l; auto. destruct (Z.le_gt_cases a b); auto. exfalso. apply L. unfold q. apply IZR_lt in H. lra.
Qed.
Lemma fsub_q : forall x y a b, fin x (q a) -> fin y (q b) -> (Z.abs (a - b) < 2 ^ 53)%Z ->
  fin (fsub x y) (q (a - b)).
Proof.
  intros x y a b Hx Hy H. assert (E : q a - q b = q (a - b)) by (unfold q; rewrite minus_IZR; lra).
  eapply fin_q; [apply fsub_spec; [exact Hx|exact Hy|]|exact E|exact H]. rewrite E. now apply q_abs.
Qed.
Lemma q_inj : forall a b, q a = q b <-> a = b.
Proof. intros a b. unfold q. split; [|now intros ->]. intro H. apply eq_IZR. lra. Qed.
Lemma feqb_q : forall x y a b, fin x (q a) -> fin y (q b) -> feqb x y = (a =? b)%Z.
Proof.
  intros x y a b Hx Hy. pose proof (feqb_spec _ _ _ _ Hx Hy) as F. rewrite q_inj in F.
  destruct (Z.eqb_spec a b) as [E|E]; destruct (feqb x y); auto; exfalso.
  - assert (false = true) by now apply F. discriminate.
  - apply E. now apply F.
Qed.
Lemma fdiv_ap : forall x y a b, fin x (q a) -> fin y (q b) -> (0 < b)%Z -> (0 <= a <= b)%Z ->
  ap (fdiv x y) (IZR a / IZR b) u.
Proof.
  intros x y a b Hx Hy Hb Ha. assert (Hb' : 0 < IZR b) by (apply IZR_lt; assumption).
  assert (E : q a / q b = IZR a / IZR b) by (unfold q; field; lra).
  assert (R : 0 <= IZR a / IZR b <= 1).
  { assert (0 <= IZR a <= IZR b) by (split; apply IZR_le; lia). split.
    - apply Rmult_le_pos; [lra|]. left. now apply Rinv_0_lt_compat.
    - apply Rmult_le_reg_r with (IZR b); auto. unfold Rdiv. rewrite Rmult_assoc, Rinv_l by lra. lra. }
  exists (rnd (q a / q b)). pose proof big_1000. rewrite E. split.
  - rewrite <- E. apply fdiv_spec; auto.
    + unfold q. lra.
    + rewrite E. apply Rabs_le. lra.
  - apply rnd_u. apply Rabs_lt. lra.
Qed.

Lemma rnd_2u : forall x, Rabs x < 8 -> Rabs (rnd x - x) <= 2 * u.
Proof.
  intros x H. pose proof (rnd_error x 3 ltac:(lia) H) as E. change (3 - 54)%Z with (1 + -52)%Z in E.
  rewrite bpow_plus, u_bpow in E. change (bpow radix2 1) with 2 in E. exact E.
Qed.
Lemma ap_add8 : forall x y a b d e, ap x a d -> ap y b e -> Rabs (a + b) <= 7 -> d + e < 1 ->
  ap (fadd x y) (a + b) (d + e + 2 * u).
Proof.
  intros x y a b d e [v [Fv Hv]] [w [Fw Hw]] H L. exists (rnd (v + w)).
  apply Rabs_le_inv in H, Hv, Hw. pose proof big_1000. split.
  - apply fadd_spec; auto. apply Rabs_le. lra.
  - pose proof (rnd_2u (v + w) ltac:(apply Rabs_lt; lra)) as R. apply Rabs_le_inv in R. apply Rabs_le. lra.
Qed.
Lemma ap_sub8 : forall x y a b d e, ap x a d -> ap y b e -> Rabs (a - b) <= 7 -> d + e < 1 ->
  ap (fsub x y) (a - b) (d + e + 2 * u).
Proof.
  intros x y a b d e [v [Fv Hv]] [w [Fw Hw]] H L. exists (rnd (v - w)).
  apply Rabs_le_inv in H, Hv, Hw. pose proof big_1000. split.
  - apply fsub_spec; auto. apply Rabs_le. lra.
  - pose proof (rnd_2u (v - w) ltac:(apply Rabs_lt; lra)) as R. apply Rabs_le_inv in R. apply Rabs_le. lra.
Qed.
Lemma ap_div6 : forall x a d, ap x a d -> Rabs a <= 7 -> d <= 1 -> ap (fdiv x (fofZ 6)) (a / 6) (d + u).
Proof.
  intros x a d [v [Fv Hv]] H L. exists (rnd (v / 6)). apply Rabs_le_inv in H, Hv. pose proof big_1000. split.
  - apply (fdiv_spec _ _ v 6 Fv (fofZ_spec 6 ltac:(lia)) ltac:(lra)). apply Rabs_le. lra.
  - pose proof (rnd_u (v / 6) ltac:(apply Rabs_lt; lra)) as R. apply Rabs_le_inv in R. apply Rabs_le. lra.
Qed.
