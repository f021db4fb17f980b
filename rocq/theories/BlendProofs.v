(** blend, lighten, darken. *)
From Coq Require Import ZArith List Bool Lia Reals Lra Psatz.
From Flocq Require Import Core IEEE754.BinarySingleNaN.
From Verif Require Import PyBase PyLemmas F64 SpaceModel ColorModel ColorSpec ColorProofs FloatLemmas.
Open Scope R_scope.

Definition clamp255 (v : Z) : Z := Z.min (Z.max v 0) 255.

(** the value before clamping *)
Definition bval (a b : Z) (x : R) : R := rnd (IZR a + rnd (IZR (b - a) * x)).

Lemma chan_abs : forall v, channel_ok v -> (Z.abs v < 2 ^ 53)%Z.
Proof. unfold channel_ok. lia. Qed.
Lemma diff_abs : forall a b, channel_ok a -> channel_ok b -> (Z.abs (b - a) < 2 ^ 53)%Z.
Proof. unfold channel_ok. lia. Qed.
Lemma IZR_diff : forall a b, channel_ok a -> channel_ok b -> Rabs (IZR (b - a)) <= 255.
Proof. unfold channel_ok. intros. rewrite <- abs_IZR. apply IZR_le. lia. Qed.

Lemma p1000_big : 256 * p1000 <= bpow radix2 1022 /\ 1 <= p1000.
Proof.
  unfold p1000. split.
  - change 256 with (bpow radix2 8). rewrite <- bpow_plus. apply bpow_le. lia.
  - change 1 with (bpow radix2 0). apply bpow_le. lia.
Qed.
Lemma big_double : 2 * bpow radix2 1022 = big.
Proof. unfold big. change 2 with (bpow radix2 1). rewrite <- bpow_plus. f_equal. Qed.
Lemma half_big_bound : forall x, Rabs x <= bpow radix2 1022 -> Rabs (rnd x) <= bpow radix2 1022.
Proof.
  intros x H. apply Rabs_le_inv in H. apply Rabs_le. split.
  - apply rnd_ge; [apply fmt_opp, fmt_bpow; lia|lra].
  - apply rnd_le_fmt; [apply fmt_bpow; lia|lra].
Qed.

Lemma blend_channel_val : forall a b al x, channel_ok a -> channel_ok b -> fin al x -> Rabs x <= p1000 ->
  blend_channel a b al = Ok (clamp255 (Ztrunc (bval a b x))).
Proof.
  intros a b al x Ha Hb Hal Hx. unfold blend_channel.
  pose proof (fofZ_spec a (chan_abs a Ha)) as Fa.
  pose proof (fofZ_spec (b - a) (diff_abs a b Ha Hb)) as Fd.
  destruct p1000_big as [PB P1]. pose proof big_double as BD.
  assert (M : Rabs (IZR (b - a) * x) <= bpow radix2 1022).
  { rewrite Rabs_mult. pose proof (IZR_diff a b Ha Hb). pose proof (Rabs_pos x).
    pose proof (Rabs_pos (IZR (b - a))).
    eapply Rle_trans; [apply Rmult_le_compat; [| |exact H|exact Hx]; assumption|]. lra. }
  assert (B1022 : 1 <= bpow radix2 1022) by lra.
  assert (A255 : Rabs (IZR a) <= 255).
  { unfold channel_ok in Ha. rewrite <- abs_IZR. apply IZR_le. lia. }
  assert (B255 : 255 <= bpow radix2 1022) by lra.
  pose proof (fmul_spec _ _ _ _ Fd Hal ltac:(lra)) as Fm.
  pose proof (half_big_bound _ M) as M'.
  assert (S : Rabs (IZR a + rnd (IZR (b - a) * x)) <= big).
  { eapply Rle_trans; [apply Rabs_triang|]. lra. }
  pose proof (fadd_spec _ _ _ _ Fa Fm S) as Fs.
  rewrite (py_int_spec _ _ Fs). reflexivity.
Qed.

Lemma clamp_ok : forall v, channel_ok (clamp255 v).
Proof. intro v. unfold clamp255, channel_ok. lia. Qed.
Lemma clamp_id : forall v, channel_ok v -> clamp255 v = v.
Proof. intro v. unfold clamp255, channel_ok. lia. Qed.
Lemma clamp_mono : forall v w, (v <= w)%Z -> (clamp255 v <= clamp255 w)%Z.
Proof. intros. unfold clamp255. lia. Qed.

Lemma fmt_small : forall z, (Z.abs z <= 65536)%Z -> fmt (IZR z).
Proof. intros. apply fmt_IZR. lia. Qed.

Lemma bval_zero : forall a b, channel_ok a -> Ztrunc (bval a b 0) = a.
Proof.
  intros a b Ha. unfold bval. rewrite Rmult_0_r, rnd_0, Rplus_0_r, rnd_id.
  - apply Ztrunc_IZR.
  - apply fmt_IZR, chan_abs, Ha.
Qed.
Lemma bval_one : forall a b, channel_ok a -> channel_ok b -> Ztrunc (bval a b 1) = b.
Proof.
  intros a b Ha Hb. unfold bval. rewrite Rmult_1_r, (rnd_id (IZR (b - a))).
  - rewrite <- plus_IZR. replace (a + (b - a))%Z with b by lia. rewrite rnd_id.
    + apply Ztrunc_IZR.
    + apply fmt_IZR, chan_abs, Hb.
  - apply fmt_IZR, diff_abs; assumption.
Qed.

Lemma bval_up : forall a b x y, (a <= b)%Z -> x <= y -> (Ztrunc (bval a b x) <= Ztrunc (bval a b y))%Z.
Proof.
  intros a b x y H Hxy. apply Ztrunc_le. unfold bval. apply rnd_le. apply Rplus_le_compat_l, rnd_le.
  apply Rmult_le_compat_l; auto. apply IZR_le. lia.
Qed.
Lemma bval_down : forall a b x y, (b <= a)%Z -> x <= y -> (Ztrunc (bval a b y) <= Ztrunc (bval a b x))%Z.
Proof.
  intros a b x y H Hxy. apply Ztrunc_le. unfold bval. apply rnd_le. apply Rplus_le_compat_l, rnd_le.
  apply Rmult_le_compat_neg_l; auto. apply IZR_le. lia.
Qed.

Lemma bval_between : forall a b x, channel_ok a -> channel_ok b -> 0 <= x <= 1 ->
  (Z.min a b <= Ztrunc (bval a b x) <= Z.max a b)%Z.
Proof.
  intros a b x Ha Hb [H0 H1]. pose proof (bval_zero a b Ha) as E0. pose proof (bval_one a b Ha Hb) as E1.
  destruct (Z.le_ge_cases a b) as [L|L].
  - pose proof (bval_up a b 0 x L H0). pose proof (bval_up a b x 1 L H1). lia.
  - pose proof (bval_down a b 0 x L H0). pose proof (bval_down a b x 1 L H1). lia.
Qed.

Lemma bval_accuracy : forall a b x, channel_ok a -> channel_ok b -> 0 <= x <= 1 ->
  Rabs (IZR (Ztrunc (bval a b x)) - (IZR a + (IZR b - IZR a) * x)) < 1 + bpow radix2 (-45).
Proof.
  intros a b x Ha Hb Hx.
  assert (D : Rabs (IZR (b - a) * x) < bpow radix2 8).
  { rewrite Rabs_mult. pose proof (IZR_diff a b Ha Hb). rewrite (Rabs_pos_eq x) by lra.
    change (bpow radix2 8) with 256. pose proof (Rabs_pos (IZR (b - a))). nra. }
  pose proof (rnd_error (IZR (b - a) * x) 8 ltac:(lia) D) as E1.
  assert (S : Rabs (IZR a + rnd (IZR (b - a) * x)) < bpow radix2 8).
  { assert (Hb1 : IZR (Z.min a b) <= IZR a + rnd (IZR (b - a) * x) <= IZR (Z.max a b)).
    { assert (G : IZR (Z.min (b - a) 0) <= rnd (IZR (b - a) * x) <= IZR (Z.max (b - a) 0)).
      { unfold channel_ok in *. destruct (Z.le_ge_cases a b) as [L|L].
        - rewrite Z.min_r, Z.max_l by lia. assert (0 <= IZR (b - a)) by (apply IZR_le; lia). split.
          + apply rnd_ge; [apply fmt_small; lia|nra].
          + apply rnd_le_fmt; [apply fmt_small; lia|nra].
        - rewrite Z.min_l, Z.max_r by lia. assert (IZR (b - a) <= 0) by (apply IZR_le; lia). split.
          + apply rnd_ge; [apply fmt_small; lia|nra].
          + apply rnd_le_fmt; [apply fmt_small; lia|nra]. }
      replace (Z.min a b) with (a + Z.min (b - a) 0)%Z by lia.
      replace (Z.max a b) with (a + Z.max (b - a) 0)%Z by lia. rewrite !plus_IZR. lra. }
    unfold channel_ok in *. assert (0 <= IZR (Z.min a b)) by (apply IZR_le; lia).
    assert (IZR (Z.max a b) <= 255) by (apply IZR_le; lia).
    change (bpow radix2 8) with 256. apply Rabs_lt. lra. }
  pose proof (rnd_error _ 8 ltac:(lia) S) as E2. fold (bval a b x) in E2.
  pose proof (Ztrunc_error (bval a b x)) as E3.
  replace (bpow radix2 (-45)) with (bpow radix2 (8 - 54) + bpow radix2 (8 - 54)).
  2:{ change (8 - 54)%Z with (-1 + -45)%Z. rewrite bpow_plus. simpl (bpow radix2 (-1)). lra. }
  apply Rabs_lt_inv in E3. apply Rabs_le_inv in E1, E2. apply Rabs_lt.
  rewrite minus_IZR in *. lra.
Qed.

(** ** blend *)
Lemma p1000_01 : forall x, 0 <= x <= 1 -> Rabs x <= p1000.
Proof. intros x H. destruct p1000_big. rewrite Rabs_pos_eq; lra. Qed.

Definition bl (a b : Z) (x : R) : Z := clamp255 (Ztrunc (bval a b x)).

Lemma blend_val : forall c d al x o, color_ok c -> color_ok d -> fin al x -> Rabs x <= p1000 ->
  blend c d al o = Ok (mkColor (bl (red c) (red d) x, bl (green c) (green d) x, bl (blue c) (blue d) x)
    (match o with Some b => b | None => c_bg c end) fone TRUE_COLOR None).
Proof.
  intros c d al x o [Hr [Hg Hb]] [Hr' [Hg' Hb']] Hal Hx. unfold blend, red, green, blue in *.
  destruct (c_rgb c) as [[r g] b], (c_rgb d) as [[r' g'] b']. simpl in *.
  rewrite !(blend_channel_val _ _ al x) by assumption. cbn [bindr].
  apply new_color_ok; apply clamp_ok.
Qed.


Lemma bl_between : forall a b x, channel_ok a -> channel_ok b -> 0 <= x <= 1 -> between a b (bl a b x).
Proof.
  intros a b x Ha Hb Hx. unfold between, bl. pose proof (bval_between a b x Ha Hb Hx) as H.
  rewrite clamp_id; auto. unfold channel_ok in *. lia.
Qed.


Lemma bl_near : forall a b x, channel_ok a -> channel_ok b -> 0 <= x <= 1 -> near a b (bl a b x) x.
Proof.
  intros a b x Ha Hb Hx. unfold near, bl. pose proof (bval_between a b x Ha Hb Hx) as H.
  rewrite clamp_id; [now apply bval_accuracy|]. unfold channel_ok in *. lia.
Qed.

Lemma blend_interpolates : forall c d al x o, color_ok c -> color_ok d -> fin al x -> 0 <= x <= 1 ->
  exists k, blend c d al o = Ok k /\
    between (red c) (red d) (red k) /\ between (green c) (green d) (green k) /\
    between (blue c) (blue d) (blue k) /\
    near (red c) (red d) (red k) x /\ near (green c) (green d) (green k) x /\
    near (blue c) (blue d) (blue k) x /\
    c_alpha k = fone /\ c_bg k = match o with Some b => b | None => c_bg c end.
Proof.
  intros c d al x o Hc Hd Hal Hx. eexists. split; [apply blend_val; eauto using p1000_01|].
  destruct Hc as [Hr [Hg Hb]], Hd as [Hr' [Hg' Hb']]. unfold red at 3 6, green at 3 6, blue at 3 6. cbn.
  repeat match goal with |- _ /\ _ => split end; auto using bl_between, bl_near.
Qed.

Lemma blend_ends : forall c d al o, color_ok c -> color_ok d ->
  (fin al 0 -> exists k, blend c d al o = Ok k /\ c_rgb k = c_rgb c) /\
  (fin al 1 -> exists k, blend c d al o = Ok k /\ c_rgb k = c_rgb d).
Proof.
  intros c d al o Hc Hd.
  split; intro Hal; (eexists; split; [apply blend_val; eauto; apply p1000_01; lra|]); cbn;
  destruct Hc as [Hr [Hg Hb]], Hd as [Hr' [Hg' Hb']]; unfold bl;
  rewrite ?bval_zero, ?bval_one by assumption; rewrite !clamp_id by assumption;
  unfold red, green, blue; [destruct (c_rgb c) as [[? ?] ?]|destruct (c_rgb d) as [[? ?] ?]]; reflexivity.
Qed.

Lemma bl_mono : forall a b x y, x <= y -> toward a b (bl a b x) (bl a b y).
Proof.
  intros a b x y H. unfold toward, bl. split; intro L; apply clamp_mono; [now apply bval_up|now apply bval_down].
Qed.
Lemma blend_monotone : forall c d al al' x y o, color_ok c -> color_ok d ->
  fin al x -> fin al' y -> x <= y -> Rabs x <= p1000 -> Rabs y <= p1000 ->
  exists k k', blend c d al o = Ok k /\ blend c d al' o = Ok k' /\
    toward (red c) (red d) (red k) (red k') /\ toward (green c) (green d) (green k) (green k') /\
    toward (blue c) (blue d) (blue k) (blue k').
Proof.
  intros c d al al' x y o Hc Hd H1 H2 Hxy Bx By. eexists _, _.
  split; [apply blend_val; eauto|]. split; [apply blend_val; eauto|].
  unfold red at 3 4, green at 3 4, blue at 3 4. cbn. auto using bl_mono.
Qed.

(** ** any finite alpha: a valid color or OverflowError *)
Lemma overflow_inf : forall (x : f64) s, B2SF x = binary_overflow fprec femax mode_NE s -> x = B754_infinity s.
Proof.
  intros x s H. destruct x; simpl in H; try discriminate. injection H as ->. reflexivity.
Qed.

Lemma fmul_kind : forall x y : f64, is_finite x = true -> is_finite y = true ->
  is_finite (fmul x y) = true \/ exists s, fmul x y = B754_infinity s.
Proof.
  intros x y Fx Fy. pose proof (Bmult_correct fprec femax fprec_gt_0 fprec_lt_emax mode_NE x y) as C.
  destruct (Rlt_bool _ _).
  - left. destruct C as [_ [C _]]. rewrite Fx, Fy in C. exact C.
  - right. eexists. apply overflow_inf. exact C.
Qed.
Lemma fadd_kind : forall x y : f64, is_finite x = true -> is_finite y = true ->
  is_finite (fadd x y) = true \/ exists s, fadd x y = B754_infinity s.
Proof.
  intros x y Fx Fy. pose proof (Bplus_correct fprec femax fprec_gt_0 fprec_lt_emax mode_NE x y Fx Fy) as C.
  destruct (Rlt_bool _ _).
  - left. destruct C as [_ [C _]]. exact C.
  - right. eexists. apply overflow_inf. apply C.
Qed.
Lemma fadd_inf : forall (x : f64) s, is_finite x = true -> fadd x (B754_infinity s) = B754_infinity s.
Proof. intros x s H. destruct x; try discriminate; reflexivity. Qed.

Lemma blend_channel_kind : forall a b al, channel_ok a -> channel_ok b -> is_finite al = true ->
  (exists v, blend_channel a b al = Ok v /\ channel_ok v) \/ blend_channel a b al = Err OverflowError.
Proof.
  intros a b al Ha Hb Hal. unfold blend_channel.
  destruct (fofZ_spec a (chan_abs a Ha)) as [Fa _].
  destruct (fofZ_spec (b - a) (diff_abs a b Ha Hb)) as [Fd _].
  assert (K : is_finite (fadd (fofZ a) (fmul (fofZ (b - a)) al)) = true \/
              exists s, fadd (fofZ a) (fmul (fofZ (b - a)) al) = B754_infinity s).
  { destruct (fmul_kind _ _ Fd Hal) as [F|[s ->]].
    - now apply fadd_kind.
    - right. exists s. now apply fadd_inf. }
  destruct K as [F|[s ->]].
  - rewrite (py_int_spec _ _ (fin_B2R _ F)). left. eexists. split; [reflexivity|]. apply clamp_ok.
  - right. reflexivity.
Qed.

Lemma blend_total : forall c d al o, color_ok c -> color_ok d -> is_finite al = true ->
  (exists k, blend c d al o = Ok k /\ color_ok k /\
     c_bg k = match o with Some b => b | None => c_bg c end /\ c_alpha k = fone) \/
  (blend c d al o = Err OverflowError /\ p1000 < Rabs (B2R al)).
Proof.
  intros c d al o Hc Hd Hal.
  destruct (Rle_lt_dec (Rabs (B2R al)) p1000) as [L|L].
  - left. pose proof (blend_val c d al _ o Hc Hd (fin_B2R _ Hal) L) as E. eexists. split; [exact E|].
    split; [exact (blend_ok _ _ _ _ _ E)|]. split; reflexivity.
  - destruct Hc as [Hr [Hg Hb]], Hd as [Hr' [Hg' Hb']]. unfold blend, red, green, blue in *.
    destruct (c_rgb c) as [[r g] b], (c_rgb d) as [[r' g'] b']. simpl in *.
    destruct (blend_channel_kind r r' al Hr Hr' Hal) as [[v1 [-> V1]]| ->]; [|right; auto].
    destruct (blend_channel_kind g g' al Hg Hg' Hal) as [[v2 [-> V2]]| ->]; [|right; auto].
    destruct (blend_channel_kind b b' al Hb Hb' Hal) as [[v3 [-> V3]]| ->]; [|right; auto].
    left. cbn [bindr]. unfold plain_color. rewrite new_color_ok by assumption.
    eexists. split; [reflexivity|]. repeat split; try apply V1; try apply V2; try apply V3.
Qed.

(** ** lighten and darken *)
Lemma fofZ_sign : forall z, (0 <= z)%Z ->
  (is_finite (fofZ z) = true -> 0 <= B2R (fofZ z)).
Proof.
  intros z Hz F. unfold fofZ in *.
  pose proof (binary_normalize_correct fprec femax fprec_gt_0 fprec_lt_emax mode_NE z 0 false) as C.
  cbv zeta in C. destruct (Rlt_bool _ _).
  - destruct C as [-> _]. apply round_ge_generic; auto with typeclass_instances; [apply fmt_0|].
    unfold F2R. simpl. rewrite Rmult_1_r. now apply IZR_le.
  - apply overflow_inf in C. rewrite C in F. discriminate.
Qed.

(** the alpha used: non negative, unless it leaves the finite range *)
Lemma shade_alpha_spec : forall n st a, (0 <= n)%Z -> is_finite st = true -> 0 <= B2R st ->
  shade_alpha n st = Ok a -> (is_finite a = true /\ 0 <= B2R a) \/ exists s, a = B754_infinity s.
Proof.
  intros n st a Hn Fs Hs. unfold shade_alpha, f_finite. destruct (is_finite (fofZ n)) eqn:Fn; [|discriminate].
  injection 1 as <-. destruct (fmul_kind _ _ Fn Fs) as [F|H]; auto. left. split; auto.
  pose proof (Bmult_correct fprec femax fprec_gt_0 fprec_lt_emax mode_NE (fofZ n) st) as C.
  destruct (Rlt_bool _ _).
  - destruct C as [C _]. unfold fmul. rewrite C. apply round_ge_generic; auto with typeclass_instances; [apply fmt_0|].
    apply Rmult_le_pos; auto using fofZ_sign.
  - apply overflow_inf in C. unfold fmul in F. rewrite C in F. discriminate.
Qed.

Lemma blend_channel_inf : forall a b s, channel_ok a -> channel_ok b ->
  forall v, blend_channel a b (B754_infinity s) <> Ok v.
Proof.
  intros a b s Ha Hb v. unfold blend_channel.
  destruct (fofZ_spec a (chan_abs a Ha)) as [Fa _].
  destruct (fofZ_spec (b - a) (diff_abs a b Ha Hb)) as [Fd _].
  destruct (fofZ (b - a)) as [sx|sx| |sx m e B]; try discriminate.
  - unfold fmul, Bmult. unfold fadd. destruct (fofZ a); discriminate.
  - unfold fmul, Bmult. rewrite fadd_inf by assumption. discriminate.
Qed.

Lemma blend_channel_shift : forall a b al v, channel_ok a -> channel_ok b -> is_finite al = true ->
  0 <= B2R al -> blend_channel a b al = Ok v ->
  ((a <= b)%Z -> (a <= v)%Z) /\ ((b <= a)%Z -> (v <= a)%Z) /\
  (1 <= B2R al -> (b = 255 \/ b = 0)%Z -> v = b).
Proof.
  intros a b al v Ha Hb Hal Hx. unfold blend_channel.
  pose proof (fofZ_spec a (chan_abs a Ha)) as Fa.
  pose proof (fofZ_spec (b - a) (diff_abs a b Ha Hb)) as Fd.
  pose proof (fin_B2R _ Hal) as Fal. set (x := B2R al) in *.
  destruct (fmul_kind (fofZ (b - a)) al (proj1 Fd) Hal) as [Fm|[s E]].
  2:{ rewrite E, fadd_inf by apply Fa. discriminate. }
  destruct (fadd_kind (fofZ a) _ (proj1 Fa) Fm) as [Fs|[s E]].
  2:{ rewrite E. discriminate. }
  rewrite (py_int_spec _ _ (fin_B2R _ Fs)). cbn [bindr]. injection 1 as <-.
  fold (clamp255 (Ztrunc (B2R (fadd (fofZ a) (fmul (fofZ (b - a)) al))))).
  assert (E1 : B2R (fmul (fofZ (b - a)) al) = rnd (IZR (b - a) * x)).
  { pose proof (Bmult_correct fprec femax fprec_gt_0 fprec_lt_emax mode_NE (fofZ (b - a)) al) as C.
    destruct (Rlt_bool _ _).
    - destruct C as [C _]. unfold fmul. rewrite C, (proj2 Fd). reflexivity.
    - apply overflow_inf in C. unfold fmul in Fm. rewrite C in Fm. discriminate. }
  assert (E2 : B2R (fadd (fofZ a) (fmul (fofZ (b - a)) al)) = bval a b x).
  { pose proof (Bplus_correct fprec femax fprec_gt_0 fprec_lt_emax mode_NE (fofZ a) _ (proj1 Fa) Fm) as C.
    destruct (Rlt_bool _ _).
    - destruct C as [C _]. unfold fadd. rewrite C, (proj2 Fa), E1. reflexivity.
    - destruct C as [C _]. apply overflow_inf in C. unfold fadd in Fs. rewrite C in Fs. discriminate. }
  rewrite E2. pose proof (bval_zero a b Ha) as B0. pose proof (bval_one a b Ha Hb) as B1.
  unfold channel_ok in *. unfold clamp255. split; [|split].
  - intro L. pose proof (bval_up a b 0 x L Hx). lia.
  - intro L. pose proof (bval_down a b 0 x L Hx). lia.
  - intros X1 [->| ->].
    + pose proof (bval_up a 255 1 x ltac:(lia) X1). lia.
    + pose proof (bval_down a 0 1 x ltac:(lia) X1). lia.
Qed.

Lemma WHITE_ok : color_ok WHITE. Proof. unfold color_ok, channel_ok; cbn; lia. Qed.
Lemma BLACK_ok : color_ok BLACK. Proof. unfold color_ok, channel_ok; cbn; lia. Qed.

Lemma blend_inv : forall c d al k, color_ok c -> color_ok d -> blend c d al None = Ok k ->
  blend_channel (red c) (red d) al = Ok (red k) /\ blend_channel (green c) (green d) al = Ok (green k) /\
  blend_channel (blue c) (blue d) al = Ok (blue k) /\ c_bg k = c_bg c /\ c_alpha k = fone.
Proof.
  intros c d al k Hc Hd. unfold blend, red, green, blue.
  destruct (c_rgb c) as [[r g] b], (c_rgb d) as [[r' g'] b']. simpl.
  destruct (blend_channel r r' al) as [v1|]; [|discriminate].
  destruct (blend_channel g g' al) as [v2|]; [|discriminate].
  destruct (blend_channel b b' al) as [v3|]; [|discriminate]. cbn [bindr].
  unfold plain_color, new_color. destruct (valid_rgb _); [|discriminate]. injection 1 as <-. cbn. auto.
Qed.


Lemma lighten_up : forall c n st k, color_ok c -> (0 <= n)%Z -> is_finite st = true -> 0 <= B2R st ->
  lighten c n st = Ok k -> brighter c k /\ color_ok k /\ c_bg k = c_bg c.
Proof.
  intros c n st k Hc Hn Fs Hs H. split; [|split].
  2: exact (lighten_ok _ _ _ _ H).
  - unfold lighten in H. destruct (shade_alpha n st) as [a|] eqn:E; [|discriminate]. cbn [bindr] in H.
    destruct (blend_inv c WHITE a k Hc WHITE_ok H) as [H1 [H2 [H3 _]]].
    destruct (shade_alpha_spec n st a Hn Fs Hs E) as [[Fa Ha]|[s ->]].
    + destruct Hc as [Hr [Hg Hb]]. destruct WHITE_ok as [Wr [Wg Wb]]. unfold channel_ok in *.
      apply blend_channel_shift in H1, H2, H3; auto. cbn in *. unfold brighter. lia.
    + exfalso. destruct Hc as [Hr _]. destruct WHITE_ok as [Wr _].
      exact (blend_channel_inf _ _ _ Hr Wr _ H1).
  - unfold lighten in H. destruct (shade_alpha n st) as [a|] eqn:E; [|discriminate]. cbn [bindr] in H.
    now destruct (blend_inv c WHITE a k Hc WHITE_ok H) as [_ [_ [_ [-> _]]]].
Qed.

Lemma darken_down : forall c n st k, color_ok c -> (0 <= n)%Z -> is_finite st = true -> 0 <= B2R st ->
  darken c n st = Ok k -> brighter k c /\ color_ok k /\ c_bg k = c_bg c.
Proof.
  intros c n st k Hc Hn Fs Hs H. split; [|split].
  2: exact (darken_ok _ _ _ _ H).
  - unfold darken in H. destruct (shade_alpha n st) as [a|] eqn:E; [|discriminate]. cbn [bindr] in H.
    destruct (blend_inv c BLACK a k Hc BLACK_ok H) as [H1 [H2 [H3 _]]].
    destruct (shade_alpha_spec n st a Hn Fs Hs E) as [[Fa Ha]|[s ->]].
    + destruct Hc as [Hr [Hg Hb]]. destruct BLACK_ok as [Wr [Wg Wb]]. unfold channel_ok in *.
      apply blend_channel_shift in H1, H2, H3; auto. cbn in *. unfold brighter. lia.
    + exfalso. destruct Hc as [Hr _]. destruct BLACK_ok as [Wr _].
      exact (blend_channel_inf _ _ _ Hr Wr _ H1).
  - unfold darken in H. destruct (shade_alpha n st) as [a|] eqn:E; [|discriminate]. cbn [bindr] in H.
    now destruct (blend_inv c BLACK a k Hc BLACK_ok H) as [_ [_ [_ [-> _]]]].
Qed.

(** A total amount of at least 1 gives white / black. *)
Lemma shade_full : forall c n st a, color_ok c -> shade_alpha n st = Ok a -> is_finite a = true ->
  1 <= B2R a <= p1000 ->
  (exists k, lighten c n st = Ok k /\ c_rgb k = (255, 255, 255)%Z /\ c_bg k = c_bg c) /\
  (exists k, darken c n st = Ok k /\ c_rgb k = (0, 0, 0)%Z /\ c_bg k = c_bg c).
Proof.
  intros c n st a Hc E Fa Ha.
  assert (P : Rabs (B2R a) <= p1000) by (rewrite Rabs_pos_eq; lra).
  split.
  - pose proof (blend_val c WHITE a _ None Hc WHITE_ok (fin_B2R _ Fa) P) as V.
    unfold lighten. rewrite E. cbn [bindr]. eexists. split; [exact V|]. split; [|reflexivity].
    destruct (blend_inv c WHITE a _ Hc WHITE_ok V) as [H1 [H2 [H3 _]]].
    destruct Hc as [Hr [Hg Hb]]. destruct WHITE_ok as [Wr [Wg Wb]].
    apply blend_channel_shift in H1, H2, H3; auto; try lra. cbn in *.
    destruct H1 as [_ [_ H1]], H2 as [_ [_ H2]], H3 as [_ [_ H3]].
    rewrite H1, H2, H3 by (try lra; auto). reflexivity.
  - pose proof (blend_val c BLACK a _ None Hc BLACK_ok (fin_B2R _ Fa) P) as V.
    unfold darken. rewrite E. cbn [bindr]. eexists. split; [exact V|]. split; [|reflexivity].
    destruct (blend_inv c BLACK a _ Hc BLACK_ok V) as [H1 [H2 [H3 _]]].
    destruct Hc as [Hr [Hg Hb]]. destruct BLACK_ok as [Wr [Wg Wb]].
    apply blend_channel_shift in H1, H2, H3; auto; try lra. cbn in *.
    destruct H1 as [_ [_ H1]], H2 as [_ [_ H2]], H3 as [_ [_ H3]].
    rewrite H1, H2, H3 by (try lra; auto). reflexivity.
Qed.

Lemma fone_1 : fin fone 1.
Proof. apply (fofZ_spec 1). reflexivity. Qed.

Lemma default_ten : shade_alpha 10 default_step = Ok fone.
Proof.
  unfold shade_alpha. replace (f_finite (fofZ 10)) with true by (vm_compute; reflexivity).
  f_equal. apply B2SF_inj. vm_compute. reflexivity.
Qed.

Lemma ten_shades : forall c, color_ok c ->
  (exists k, lighten c 10 default_step = Ok k /\ c_rgb k = (255, 255, 255)%Z /\ c_bg k = c_bg c) /\
  (exists k, darken c 10 default_step = Ok k /\ c_rgb k = (0, 0, 0)%Z /\ c_bg k = c_bg c).
Proof.
  intros c Hc. apply (shade_full c 10 default_step fone Hc default_ten (proj1 fone_1)).
  rewrite (proj2 fone_1). destruct p1000_big. lra.
Qed.

(** negative shade counts go the other way *)
Lemma fofZ_sign_neg : forall z, (z <= 0)%Z -> is_finite (fofZ z) = true -> B2R (fofZ z) <= 0.
Proof.
  intros z Hz F. unfold fofZ in *.
  pose proof (binary_normalize_correct fprec femax fprec_gt_0 fprec_lt_emax mode_NE z 0 false) as C.
  cbv zeta in C. destruct (Rlt_bool _ _).
  - destruct C as [-> _]. apply round_le_generic; auto with typeclass_instances; [apply fmt_0|].
    unfold F2R. simpl. rewrite Rmult_1_r. now apply IZR_le.
  - apply overflow_inf in C. rewrite C in F. discriminate.
Qed.
Lemma shade_alpha_neg : forall n st a, (n <= 0)%Z -> is_finite st = true -> 0 <= B2R st ->
  shade_alpha n st = Ok a -> (is_finite a = true /\ B2R a <= 0) \/ exists s, a = B754_infinity s.
Proof.
  intros n st a Hn Fs Hs. unfold shade_alpha, f_finite. destruct (is_finite (fofZ n)) eqn:Fn; [|discriminate].
  injection 1 as <-. destruct (fmul_kind _ _ Fn Fs) as [F|H]; auto. left. split; auto.
  pose proof (Bmult_correct fprec femax fprec_gt_0 fprec_lt_emax mode_NE (fofZ n) st) as C.
  destruct (Rlt_bool _ _).
  - destruct C as [C _]. unfold fmul. rewrite C. apply round_le_generic; auto with typeclass_instances; [apply fmt_0|].
    pose proof (fofZ_sign_neg n Hn Fn). nra.
  - apply overflow_inf in C. unfold fmul in F. rewrite C in F. discriminate.
Qed.
Lemma blend_channel_back : forall a b al v, channel_ok a -> channel_ok b -> is_finite al = true ->
  B2R al <= 0 -> blend_channel a b al = Ok v ->
  ((a <= b)%Z -> (v <= a)%Z) /\ ((b <= a)%Z -> (a <= v)%Z).
Proof.
  intros a b al v Ha Hb Hal Hx. unfold blend_channel.
  pose proof (fofZ_spec a (chan_abs a Ha)) as Fa.
  pose proof (fofZ_spec (b - a) (diff_abs a b Ha Hb)) as Fd.
  pose proof (fin_B2R _ Hal) as Fal. set (x := B2R al) in *.
  destruct (fmul_kind (fofZ (b - a)) al (proj1 Fd) Hal) as [Fm|[s E]].
  2:{ rewrite E, fadd_inf by apply Fa. discriminate. }
  destruct (fadd_kind (fofZ a) _ (proj1 Fa) Fm) as [Fs|[s E]].
  2:{ rewrite E. discriminate. }
  rewrite (py_int_spec _ _ (fin_B2R _ Fs)). cbn [bindr]. injection 1 as <-.
  fold (clamp255 (Ztrunc (B2R (fadd (fofZ a) (fmul (fofZ (b - a)) al))))).
  assert (E1 : B2R (fmul (fofZ (b - a)) al) = rnd (IZR (b - a) * x)).
  { pose proof (Bmult_correct fprec femax fprec_gt_0 fprec_lt_emax mode_NE (fofZ (b - a)) al) as C.
    destruct (Rlt_bool _ _).
    - destruct C as [C _]. unfold fmul. rewrite C, (proj2 Fd). reflexivity.
    - apply overflow_inf in C. unfold fmul in Fm. rewrite C in Fm. discriminate. }
  assert (E2 : B2R (fadd (fofZ a) (fmul (fofZ (b - a)) al)) = bval a b x).
  { pose proof (Bplus_correct fprec femax fprec_gt_0 fprec_lt_emax mode_NE (fofZ a) _ (proj1 Fa) Fm) as C.
    destruct (Rlt_bool _ _).
    - destruct C as [C _]. unfold fadd. rewrite C, (proj2 Fa), E1. reflexivity.
    - destruct C as [C _]. apply overflow_inf in C. unfold fadd in Fs. rewrite C in Fs. discriminate. }
  rewrite E2. pose proof (bval_zero a b Ha) as B0.
  unfold channel_ok in *. unfold clamp255. split.
  - intro L. pose proof (bval_up a b x 0 L Hx). lia.
  - intro L. pose proof (bval_down a b x 0 L Hx). lia.
Qed.

Lemma lighten_neg : forall c n st k, color_ok c -> (n <= 0)%Z -> is_finite st = true -> 0 <= B2R st ->
  lighten c n st = Ok k -> brighter k c.
Proof.
  intros c n st k Hc Hn Fs Hs H.
  unfold lighten in H. destruct (shade_alpha n st) as [a|] eqn:E; [|discriminate]. cbn [bindr] in H.
  destruct (blend_inv c WHITE a k Hc WHITE_ok H) as [H1 [H2 [H3 _]]].
  destruct (shade_alpha_neg n st a Hn Fs Hs E) as [[Fa Ha]|[s ->]].
  - destruct Hc as [Hr [Hg Hb]]. destruct WHITE_ok as [Wr [Wg Wb]]. unfold channel_ok in *.
    apply blend_channel_back in H1, H2, H3; auto. cbn in *. unfold brighter. lia.
  - exfalso. destruct Hc as [Hr _]. destruct WHITE_ok as [Wr _].
    exact (blend_channel_inf _ _ _ Hr Wr _ H1).
Qed.
Lemma darken_neg : forall c n st k, color_ok c -> (n <= 0)%Z -> is_finite st = true -> 0 <= B2R st ->
  darken c n st = Ok k -> brighter c k.
Proof.
  intros c n st k Hc Hn Fs Hs H.
  unfold darken in H. destruct (shade_alpha n st) as [a|] eqn:E; [|discriminate]. cbn [bindr] in H.
  destruct (blend_inv c BLACK a k Hc BLACK_ok H) as [H1 [H2 [H3 _]]].
  destruct (shade_alpha_neg n st a Hn Fs Hs E) as [[Fa Ha]|[s ->]].
  - destruct Hc as [Hr [Hg Hb]]. destruct BLACK_ok as [Wr [Wg Wb]]. unfold channel_ok in *.
    apply blend_channel_back in H1, H2, H3; auto. cbn in *. unfold brighter. lia.
  - exfalso. destruct Hc as [Hr _]. destruct BLACK_ok as [Wr _].
    exact (blend_channel_inf _ _ _ Hr Wr _ H1).
Qed.

(** how much: n shades of a step x move n*x of the way *)
Lemma lighten_value : forall c n st x, color_ok c -> (Z.abs n < 2 ^ 53)%Z -> fin st x -> 0 <= IZR n * x <= 1 ->
  exists k y, lighten c n st = Ok k /\ Rabs (y - IZR n * x) <= bpow radix2 (-53) /\
    near (red c) 255 (red k) y /\ near (green c) 255 (green k) y /\ near (blue c) 255 (blue k) y.
Proof.
  intros c n st x Hc Hn Hst Hx.
  pose proof (fofZ_spec n Hn) as Fn.
  destruct p1000_big as [PB P1]. pose proof big_double as BD.
  pose proof (fmul_spec _ _ _ _ Fn Hst ltac:(rewrite Rabs_pos_eq; lra)) as Fm.
  assert (R01 : 0 <= rnd (IZR n * x) <= 1).
  { split; [apply rnd_ge; [apply fmt_0|lra]|apply rnd_le_fmt; [apply (fmt_small 1); lia|lra]]. }
  destruct (blend_interpolates c WHITE _ _ None Hc WHITE_ok Fm R01) as [k [E [_ [_ [_ [N1 [N2 [N3 _]]]]]]]].
  exists k, (rnd (IZR n * x)). split; [|split; [|auto]].
  - unfold lighten, shade_alpha, f_finite. rewrite (proj1 Fn). exact E.
  - assert (A : Rabs (IZR n * x) < bpow radix2 1) by (change (bpow radix2 1) with 2; rewrite Rabs_pos_eq; lra).
    exact (rnd_error _ 1 ltac:(lia) A).
Qed.
Lemma darken_value : forall c n st x, color_ok c -> (Z.abs n < 2 ^ 53)%Z -> fin st x -> 0 <= IZR n * x <= 1 ->
  exists k y, darken c n st = Ok k /\ Rabs (y - IZR n * x) <= bpow radix2 (-53) /\
    near (red c) 0 (red k) y /\ near (green c) 0 (green k) y /\ near (blue c) 0 (blue k) y.
Proof.
  intros c n st x Hc Hn Hst Hx.
  pose proof (fofZ_spec n Hn) as Fn.
  destruct p1000_big as [PB P1]. pose proof big_double as BD.
  pose proof (fmul_spec _ _ _ _ Fn Hst ltac:(rewrite Rabs_pos_eq; lra)) as Fm.
  assert (R01 : 0 <= rnd (IZR n * x) <= 1).
  { split; [apply rnd_ge; [apply fmt_0|lra]|apply rnd_le_fmt; [apply (fmt_small 1); lia|lra]]. }
  destruct (blend_interpolates c BLACK _ _ None Hc BLACK_ok Fm R01) as [k [E [_ [_ [_ [N1 [N2 [N3 _]]]]]]]].
  exists k, (rnd (IZR n * x)). split; [|split; [|auto]].
  - unfold darken, shade_alpha, f_finite. rewrite (proj1 Fn). exact E.
  - assert (A : Rabs (IZR n * x) < bpow radix2 1) by (change (bpow radix2 1) with 2; rewrite Rabs_pos_eq; lra).
    exact (rnd_error _ 1 ltac:(lia) A).
Qed.

Lemma shades_negative : forall c n st k, color_ok c -> (n <= 0)%Z -> is_finite st = true -> 0 <= B2R st ->
  (lighten c n st = Ok k -> brighter k c) /\ (darken c n st = Ok k -> brighter c k).
Proof. intros. split; intro; [eapply lighten_neg|eapply darken_neg]; eauto. Qed.

Lemma shades_amount : forall c n st x, color_ok c -> (Z.abs n < 2 ^ 53)%Z -> fin st x -> 0 <= IZR n * x <= 1 ->
  (exists k y, lighten c n st = Ok k /\ Rabs (y - IZR n * x) <= bpow radix2 (-53) /\
    near (red c) 255 (red k) y /\ near (green c) 255 (green k) y /\ near (blue c) 255 (blue k) y) /\
  (exists k y, darken c n st = Ok k /\ Rabs (y - IZR n * x) <= bpow radix2 (-53) /\
    near (red c) 0 (red k) y /\ near (green c) 0 (green k) y /\ near (blue c) 0 (blue k) y).
Proof. intros. split; [eapply lighten_value|eapply darken_value]; eauto. Qed.

Lemma big_1 : 1 <= big.
Proof. unfold big. change 1 with (bpow radix2 0). apply bpow_le. lia. Qed.
Lemma flit_spec : forall n d, (Z.abs n < 2 ^ 53)%Z -> (0 < d < 2 ^ 53)%Z -> Rabs (IZR n / IZR d) <= big ->
  fin (fdiv (fofZ n) (fofZ d)) (rnd (IZR n / IZR d)).
Proof.
  intros n d Hn Hd H. apply fdiv_spec; auto; try (apply fofZ_spec; lia).
  apply not_0_IZR. lia.
Qed.

Lemma half_fin : fin (flit 1 2) (rnd (1 / 2)).
Proof. apply (flit_spec 1 2); try lia. pose proof big_1. rewrite Rabs_pos_eq; lra. Qed.
Lemma half_01 : 0 <= rnd (1 / 2) <= 1.
Proof. split; [apply rnd_ge; [apply fmt_0|lra]|apply rnd_le_fmt; [apply (fmt_small 1); lia|lra]]. Qed.
Lemma default_step_ok : is_finite default_step = true /\ 0 <= B2R default_step.
Proof.
  assert (F : fin default_step (rnd (1 / 10))).
  { apply (flit_spec 1 10); try lia. pose proof big_1. rewrite Rabs_pos_eq; lra. }
  destruct F as [F E]. split; auto. rewrite E. apply rnd_ge; [apply fmt_0|lra].
Qed.
