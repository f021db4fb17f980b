(** Luminance, contrast and the grey ramp. *)
From Coq Require Import ZArith List Bool Lia Reals Lra Psatz String.
From Flocq Require Import Core IEEE754.BinarySingleNaN.
From Verif Require Import PyBase PyLemmas F64 SpaceModel SpaceSpec SpaceProofs ColorTab ColorModel ColorSpec ColorProofs ColorProofs2
  Vt FloatLemmas BlendProofs PaletteSpec PaletteProofs HueSpec HueProofs GreySpec GreyProofs.
Open Scope R_scope.

Definition tok (t : triple) : Prop := let '(r, g, b) := t in channel_ok r /\ channel_ok g /\ channel_ok b.

Lemma lum_range : forall t, tok t -> 0 <= relative_luminance t <= 1.
Proof.
  intros [[r g] b] [Hr [Hg Hb]]. unfold relative_luminance.
  pose proof (srgb_range r Hr). pose proof (srgb_range g Hg). pose proof (srgb_range b Hb). lra.
Qed.

Lemma part_ap : forall e n v, pow_accurate (env_pow e) -> channel_ok v -> (0 < n < 10000)%Z ->
  ap (fmul (flit n 10000) (linearize e (chan v))) (IZR n / 10000 * srgb_linear v) (3 * eps).
Proof.
  intros e n v P H Hn. pose proof (linearize_ap e v P H) as A. pose proof (srgb_range v H) as R.
  assert (0 < IZR n < 10000) by (split; apply IZR_lt; lia).
  assert (N : ap (flit n 10000) (IZR n / 10000) u) by (apply (ap_lit n 10000); try lia; apply Rabs_le; lra).
  pose proof u_pos as U.
  eapply ap_weak; [apply (ap_mul _ _ _ _ _ _ 1 1 N A)|].
  - apply Rabs_le; lra.
  - apply Rabs_le; lra.
  - rewrite eps_val. unfold u in *. lra.
  - rewrite eps_val in *. unfold u in *. lra.
Qed.

Lemma luminance_ap : forall e t, pow_accurate (env_pow e) -> tok t ->
  ap (luminance e t) (relative_luminance t) (10 * eps).
Proof.
  intros e [[r g] b] P [Hr [Hg Hb]]. unfold luminance, relative_luminance.
  pose proof (part_ap e 2126 r P Hr ltac:(lia)) as A. pose proof (part_ap e 7152 g P Hg ltac:(lia)) as B.
  pose proof (part_ap e 722 b P Hb ltac:(lia)) as C.
  pose proof (srgb_range r Hr). pose proof (srgb_range g Hg). pose proof (srgb_range b Hb).
  pose proof u_pos as U. rewrite eps_val in *. unfold u in U.
  eapply ap_weak; [apply (ap_add _ _ _ _ _ _ (ap_add _ _ _ _ _ _ A B ltac:(apply Rabs_le; lra) ltac:(lra)) C)|].
  - apply Rabs_le; lra.
  - unfold u in *. lra.
  - unfold u in *. lra.
Qed.

(** * Monotonicity of the float computations *)
Definition fle (x y : f64) : Prop := is_finite x = true /\ is_finite y = true /\ B2R x <= B2R y.
Lemma fin_of : forall x, is_finite x = true -> fin x (B2R x). Proof. intros x H. now split. Qed.
Lemma mono_add : forall x y x' y', fle x x' -> fle y y' -> Rabs (B2R x) <= 300 -> Rabs (B2R y) <= 300 ->
  Rabs (B2R x') <= 300 -> Rabs (B2R y') <= 300 -> fle (fadd x y) (fadd x' y').
Proof.
  intros x y x' y' [F1 [F2 L]] [G1 [G2 M]] B1 B2 B3 B4. pose proof big_1000.
  apply Rabs_le_inv in B1, B2, B3, B4.
  destruct (fadd_spec x y _ _ (fin_of x F1) (fin_of y G1) ltac:(apply Rabs_le; lra)) as [Q1 Q2].
  destruct (fadd_spec x' y' _ _ (fin_of x' F2) (fin_of y' G2) ltac:(apply Rabs_le; lra)) as [Q3 Q4].
  repeat split; auto. rewrite Q2, Q4. apply rnd_le. lra.
Qed.
Lemma mono_subc : forall x x' c, fle x x' -> is_finite c = true -> Rabs (B2R x) <= 300 -> Rabs (B2R x') <= 300 ->
  Rabs (B2R c) <= 300 -> fle (fsub x c) (fsub x' c).
Proof.
  intros x x' c [F1 [F2 L]] G B1 B2 B3. pose proof big_1000.
  apply Rabs_le_inv in B1, B2, B3.
  destruct (fsub_spec x c _ _ (fin_of x F1) (fin_of c G) ltac:(apply Rabs_le; lra)) as [Q1 Q2].
  destruct (fsub_spec x' c _ _ (fin_of x' F2) (fin_of c G) ltac:(apply Rabs_le; lra)) as [Q3 Q4].
  repeat split; auto. rewrite Q2, Q4. apply rnd_le. lra.
Qed.
Lemma prod_1000 : forall a b, Rabs a <= 2 -> Rabs b <= 500 -> Rabs (a * b) <= big.
Proof.
  intros a b A B. pose proof big_1000. rewrite Rabs_mult. pose proof (Rabs_pos a). pose proof (Rabs_pos b). nra.
Qed.
Lemma prod_big : forall a b, Rabs a <= 2 -> Rabs b <= 5000 -> Rabs (a * b) <= big.
Proof.
  intros a b A B. assert (bpow radix2 14 <= big) by (unfold big; apply bpow_le; lia).
  change (bpow radix2 14) with 16384 in H.
  rewrite Rabs_mult. pose proof (Rabs_pos a). pose proof (Rabs_pos b). nra.
Qed.
Lemma mono_mulc : forall x x' c, fle x x' -> is_finite c = true -> Rabs (B2R x) <= 2 -> Rabs (B2R x') <= 2 ->
  0 <= B2R c <= 5000 -> fle (fmul x c) (fmul x' c).
Proof.
  intros x x' c [F1 [F2 L]] G B1 B2 B3.
  assert (Rabs (B2R c) <= 5000) by (apply Rabs_le; lra).
  destruct (fmul_spec x c _ _ (fin_of x F1) (fin_of c G) ltac:(apply prod_big; auto)) as [Q1 Q2].
  destruct (fmul_spec x' c _ _ (fin_of x' F2) (fin_of c G) ltac:(apply prod_big; auto)) as [Q3 Q4].
  repeat split; auto. rewrite Q2, Q4. apply rnd_le. nra.
Qed.
Lemma mono_cmul : forall x x' c, fle x x' -> is_finite c = true -> Rabs (B2R x) <= 2 -> Rabs (B2R x') <= 2 ->
  0 <= B2R c <= 2 -> fle (fmul c x) (fmul c x').
Proof.
  intros x x' c [F1 [F2 L]] G B1 B2 B3.
  assert (Rabs (B2R c) <= 2) by (apply Rabs_le; lra).
  destruct (fmul_spec c x _ _ (fin_of c G) (fin_of x F1) ltac:(apply prod_big; auto; lra)) as [Q1 Q2].
  destruct (fmul_spec c x' _ _ (fin_of c G) (fin_of x' F2) ltac:(apply prod_big; auto; lra)) as [Q3 Q4].
  repeat split; auto. rewrite Q2, Q4. apply rnd_le. nra.
Qed.
Lemma mono_divc : forall x x' c, fle x x' -> is_finite c = true -> Rabs (B2R x) <= 300 -> Rabs (B2R x') <= 300 ->
  1 <= B2R c <= 300 -> fle (fdiv x c) (fdiv x' c).
Proof.
  intros x x' c [F1 [F2 L]] G B1 B2 B3. pose proof big_1000.
  assert (I : 0 < / B2R c <= 1).
  { split; [apply Rinv_0_lt_compat; lra|]. rewrite <- Rinv_1. apply Rinv_le_contravar; lra. }
  assert (Q : forall z, Rabs z <= 300 -> Rabs (z / B2R c) <= big).
  { intros z Hz. unfold Rdiv. rewrite Rabs_mult, (Rabs_pos_eq (/ B2R c)) by lra. pose proof (Rabs_pos z). nra. }
  destruct (fdiv_spec x c _ _ (fin_of x F1) (fin_of c G) ltac:(lra) ltac:(now apply Q)) as [Q1 Q2].
  destruct (fdiv_spec x' c _ _ (fin_of x' F2) (fin_of c G) ltac:(lra) ltac:(now apply Q)) as [Q3 Q4].
  repeat split; auto. rewrite Q2, Q4. apply rnd_le. unfold Rdiv. apply Rmult_le_compat_r; lra.
Qed.

Lemma ap_fle : forall x v d, ap x v d -> is_finite x = true /\ Rabs (B2R x - v) <= d.
Proof. intros x v d [w [[F E] H]]. now rewrite E. Qed.

Lemma lin_fle : forall e v w, pow_accurate (env_pow e) -> pow_monotone (env_pow e) ->
  channel_ok v -> channel_ok w -> (v <= w)%Z -> fle (linearize e (chan v)) (linearize e (chan w)).
Proof.
  intros e v w P M Hv Hw L. repeat split.
  - exact (proj1 (ap_fle _ _ _ (linearize_ap e v P Hv))).
  - exact (proj1 (ap_fle _ _ _ (linearize_ap e w P Hw))).
  - now apply linearize_mono.
Qed.
Lemma lin_bound : forall e v, pow_accurate (env_pow e) -> channel_ok v -> Rabs (B2R (linearize e (chan v))) <= 1 + / 100.
Proof.
  intros e v P H. destruct (ap_fle _ _ _ (linearize_ap e v P H)) as [_ A]. pose proof (srgb_range v H).
  rewrite eps_val in A. apply Rabs_le_inv in A. apply Rabs_le. lra.
Qed.

Lemma part_mono : forall e n v w, pow_accurate (env_pow e) -> pow_monotone (env_pow e) -> (0 < n < 10000)%Z ->
  channel_ok v -> channel_ok w -> (v <= w)%Z ->
  fle (fmul (flit n 10000) (linearize e (chan v))) (fmul (flit n 10000) (linearize e (chan w))).
Proof.
  intros e n v w P M Hn Hv Hw L.
  assert (0 < IZR n < 10000) by (split; apply IZR_lt; lia). pose proof u_pos.
  assert (N : ap (flit n 10000) (IZR n / 10000) u) by (apply (ap_lit n 10000); try lia; apply Rabs_le; lra).
  assert (N0 : 0 <= B2R (flit n 10000)).
  { destruct (fdiv_spec (fofZ n) (fofZ 10000) _ _ (fofZ_spec n ltac:(lia)) (fofZ_spec 10000 ltac:(lia)) ltac:(lra)) as [_ E].
    - pose proof big_1000. apply Rabs_le. lra.
    - unfold flit. rewrite E. apply rnd_ge; [apply fmt_0|lra]. }
  destruct (ap_fle _ _ _ N) as [F A]. apply Rabs_le_inv in A.
  pose proof (lin_bound e v P Hv). pose proof (lin_bound e w P Hw).
  apply mono_cmul; auto; try lra. now apply lin_fle.
Qed.

Lemma part_bound : forall e n v, pow_accurate (env_pow e) -> channel_ok v -> (0 < n < 10000)%Z ->
  Rabs (B2R (fmul (flit n 10000) (linearize e (chan v)))) <= 2.
Proof.
  intros e n v P H Hn. destruct (ap_fle _ _ _ (part_ap e n v P H Hn)) as [_ A]. pose proof (srgb_range v H).
  assert (0 < IZR n < 10000) by (split; apply IZR_lt; lia).
  rewrite eps_val in A. apply Rabs_le_inv in A. apply Rabs_le. nra.
Qed.

Lemma luminance_mono : forall e r g b r' g' b', pow_accurate (env_pow e) -> pow_monotone (env_pow e) ->
  tok (r, g, b) -> tok (r', g', b') -> (r <= r')%Z -> (g <= g')%Z -> (b <= b')%Z ->
  fle (luminance e (r, g, b)) (luminance e (r', g', b')).
Proof.
  intros e r g b r' g' b' P M [H1 [H2 H3]] [K1 [K2 K3]] L1 L2 L3. unfold luminance.
  fold (chan r) (chan g) (chan b) (chan r') (chan g') (chan b').
  assert (S : forall x y, channel_ok x -> channel_ok y ->
    Rabs (B2R (fadd (fmul (flit 2126 10000) (linearize e (chan x))) (fmul (flit 7152 10000) (linearize e (chan y))))) <= 300).
  { intros x y Hx Hy. pose proof (part_bound e 2126 x P Hx ltac:(lia)) as A. pose proof (part_bound e 7152 y P Hy ltac:(lia)) as B.
    destruct (ap_fle _ _ _ (part_ap e 2126 x P Hx ltac:(lia))) as [F1 _].
    destruct (ap_fle _ _ _ (part_ap e 7152 y P Hy ltac:(lia))) as [F2 _].
    pose proof big_1000. apply Rabs_le_inv in A, B.
    destruct (fadd_spec _ _ _ _ (fin_of _ F1) (fin_of _ F2) ltac:(apply Rabs_le; lra)) as [_ E].
    rewrite E. apply Rabs_le. split; [apply rnd_ge|apply rnd_le_fmt]; try lra; [|exact (fmt_IZR 300 ltac:(lia))].
    exact (fmt_opp _ (fmt_IZR 300 ltac:(lia))). }
  pose proof (part_bound e 722 b P H3 ltac:(lia)). pose proof (part_bound e 722 b' P K3 ltac:(lia)).
  pose proof (part_bound e 2126 r P H1 ltac:(lia)). pose proof (part_bound e 2126 r' P K1 ltac:(lia)).
  pose proof (part_bound e 7152 g P H2 ltac:(lia)). pose proof (part_bound e 7152 g' P K2 ltac:(lia)).
  apply mono_add; try lra; try (apply S; assumption); [apply mono_add; try lra|]; apply part_mono; auto; lia.
Qed.

(** * Contrast *)
Definition lin_between (v : Z) (lo hi : R) : Prop := lo <= srgb_linear v <= hi.
Lemma lin_between_by : forall v lo hi, channel_ok v -> (10 < v)%Z -> 0 < lo -> 0 < hi ->
  lo ^ 5 <= lin_base v ^ 12 -> lin_base v ^ 12 <= hi ^ 5 -> lin_between v lo hi.
Proof.
  intros v lo hi H L A B C D. unfold lin_between. rewrite srgb_high by assumption.
  pose proof (lin_base_range v H). split; [apply power_lower|apply power_upper]; try assumption; lra.
Qed.
Lemma lin_245 : lin_between 245 (9130 / 10000) (9132 / 10000).
Proof. apply lin_between_by; unfold channel_ok, lin_base; try lia; lra. Qed.
Lemma lin_35 : lin_between 35 (168 / 10000) (1681 / 100000).
Proof. apply lin_between_by; unfold channel_ok, lin_base; try lia; lra. Qed.
Lemma lin_118 : lin_between 118 (181 / 1000) (182 / 1000).
Proof. apply lin_between_by; unfold channel_ok, lin_base; try lia; lra. Qed.

Lemma lum_grey : forall v, relative_luminance (v, v, v) = srgb_linear v.
Proof. intro v. unfold relative_luminance. lra. Qed.

Lemma lit_179 : ap (flit 179 1000) (179 / 1000) u.
Proof. apply (ap_lit 179 1000); try lia. apply Rabs_le. lra. Qed.

Lemma tok_color : forall c, color_ok c -> tok (c_rgb c).
Proof. intros [[[r g] b] ? ? ? ?] H. exact H. Qed.

Lemma contrast_cases : forall e c, pow_accurate (env_pow e) -> color_ok c ->
  (contrast e c = Ok (mkColor (35, 35, 35)%Z (c_bg c) fone TRUE_COLOR None) /\
     179 / 1000 - / 1000000 <= relative_luminance (c_rgb c)) \/
  (contrast e c = Ok (mkColor (245, 245, 245)%Z (c_bg c) fone TRUE_COLOR None) /\
     relative_luminance (c_rgb c) <= 179 / 1000 + / 1000000).
Proof.
  intros e c P H. destruct (luminance_ap e (c_rgb c) P (tok_color c H)) as [w [F W]].
  destruct lit_179 as [z [G Z]]. unfold contrast. pose proof (fltb_spec _ _ _ _ G F) as B.
  apply Rabs_le_inv in W, Z. rewrite eps_val in W. pose proof u_pos. unfold u in *.
  destruct (fltb (flit 179 1000) (luminance e (c_rgb c))) eqn:E.
  - left. split.
    + unfold as_background. now destruct (c_bg c).
    + assert (z < w) by now apply B. lra.
  - right. split.
    + unfold as_background. now destruct (c_bg c).
    + apply (fltb_false _ _ _ _ G F) in E. lra.
Qed.

Lemma ratio_ge : forall a b k, tok a -> tok b -> 0 < k ->
  k * (relative_luminance b + 5 / 100) <= relative_luminance a + 5 / 100 -> k <= contrast_ratio a b.
Proof.
  intros a b k Ha Hb Hk H. pose proof (lum_range a Ha). pose proof (lum_range b Hb). unfold contrast_ratio.
  set (la := relative_luminance a) in *. set (lb := relative_luminance b) in *.
  assert (D : 0 < Rmin la lb + 5 / 100) by (unfold Rmin; destruct (Rle_dec la lb); lra).
  apply Rmult_le_reg_r with (Rmin la lb + 5 / 100); [exact D|].
  unfold Rdiv at 2. rewrite Rmult_assoc, Rinv_l by lra. pose proof (Rmax_l la lb). pose proof (Rmin_r la lb). nra.
Qed.
Lemma ratio_lt : forall a b k, tok a -> tok b -> relative_luminance b <= relative_luminance a ->
  relative_luminance a + 5 / 100 < k * (relative_luminance b + 5 / 100) -> contrast_ratio a b < k.
Proof.
  intros a b k Ha Hb L H. pose proof (lum_range a Ha). pose proof (lum_range b Hb). unfold contrast_ratio.
  set (la := relative_luminance a) in *. set (lb := relative_luminance b) in *.
  rewrite Rmax_left, Rmin_right by lra. apply Rmult_lt_reg_r with (lb + 5 / 100); [lra|].
  unfold Rdiv at 1. rewrite Rmult_assoc, Rinv_l by lra. lra.
Qed.
Lemma ratio_sym : forall a b, contrast_ratio a b = contrast_ratio b a.
Proof. intros. unfold contrast_ratio. now rewrite Rmax_comm, Rmin_comm. Qed.


Lemma grey_tok : forall v, channel_ok v -> tok (v, v, v). Proof. intros v H. cbn. auto. Qed.

Lemma contrast_readable : forall e c, pow_accurate (env_pow e) -> color_ok c ->
  exists k, contrast e c = Ok k /\ off_white_or_black c k /\
    34 / 10 <= contrast_ratio (c_rgb c) (c_rgb k) /\
    (relative_luminance (c_rgb c) <= 163 / 1000 \/ 251 / 1000 <= relative_luminance (c_rgb c) ->
       45 / 10 <= contrast_ratio (c_rgb c) (c_rgb k)).
Proof.
  intros e c P H. pose proof (tok_color c H) as T. pose proof (lum_range _ T) as R.
  pose proof lin_35 as [B1 B2]. pose proof lin_245 as [W1 W2].
  destruct (contrast_cases e c P H) as [[E L]|[E L]]; eexists; (split; [exact E|]); cbn [c_rgb c_bg c_alpha];
    (split; [unfold off_white_or_black; cbn; auto|]).
  - split; [|intro L2]; (apply ratio_ge; [exact T|apply grey_tok; unfold channel_ok; lia|lra|rewrite lum_grey; lra]).
  - split; [|intro L2]; rewrite ratio_sym; (apply ratio_ge; [apply grey_tok; unfold channel_ok; lia|exact T|lra|rewrite lum_grey; lra]).
Qed.

Lemma contrast_poor : forall e al o k bg, pow_accurate (env_pow e) ->
  exists d, contrast e (mkColor (118, 118, 118)%Z bg al o k) = Ok d /\
    contrast_ratio (118, 118, 118)%Z (c_rgb d) < 35 / 10.
Proof.
  intros e al o k bg P. set (c := mkColor (118, 118, 118)%Z bg al o k).
  assert (OK : color_ok c) by (unfold color_ok, channel_ok; cbn; lia).
  pose proof lin_35 as [B1 B2]. pose proof lin_118 as [G1 G2].
  destruct (contrast_cases e c P OK) as [[E L]|[E L]]; cbn [c_rgb c] in L; rewrite lum_grey in L.
  - eexists. split; [exact E|]. cbn [c_rgb]. apply ratio_lt; try (apply grey_tok; unfold channel_ok; lia);
      rewrite !lum_grey; lra.
  - exfalso. lra.
Qed.
