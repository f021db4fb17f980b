(** The grey ramp of NO_COLOR terminals. *)
From Coq Require Import ZArith List Bool Lia Reals Lra Psatz String.
From Flocq Require Import Core IEEE754.BinarySingleNaN.
From Verif Require Import PyBase PyLemmas F64 SpaceModel SpaceSpec SpaceProofs ColorTab ColorModel ColorSpec ColorProofs ColorProofs2
  Vt FloatLemmas BlendProofs PaletteSpec PaletteProofs HueSpec HueProofs GreySpec GreyProofs GreyProofs2.
Open Scope R_scope.

(** * Rounding to an integer *)
Lemma frint_spec : forall x a, fin x a -> frint x = ZnearestE a.
Proof.
  intros x a [F <-]. unfold frint. rewrite Btrunc_Ztrunc.
  destruct (Bnearbyint_correct fprec femax fprec_lt_emax mode_NE x) as [E _].
  rewrite E. unfold round, scaled_mantissa, cexp, FIX_exp, F2R. cbn [Fnum Fexp].
  change (bpow radix2 (- 0)) with 1. change (bpow radix2 0) with 1. rewrite !Rmult_1_r.
  rewrite Ztrunc_IZR. reflexivity.
Qed.
Lemma near_half : forall a, Rabs (IZR (ZnearestE a) - a) <= / 2.
Proof. intro a. rewrite Rabs_minus_sym. apply Znearest_half. Qed.
Lemma nearest_le : forall a b, a <= b -> (ZnearestE a <= ZnearestE b)%Z.
Proof. intros a b H. apply Zrnd_le; auto with typeclass_instances. Qed.

(** * Lightness *)
Definition T0 : R := 216 / 24389.
Definition lit_T : ap (flit 216 24389) T0 u.
Proof. apply (ap_lit 216 24389); try lia. apply Rabs_le. lra. Qed.
Lemma lit_13 : ap (flit 1 3) (1 / 3) u.
Proof. apply (ap_lit 1 3); try lia. apply Rabs_le. lra. Qed.
Lemma lit_903 : exists w, fin (flit 24389 27) w /\ Rabs (w - 24389 / 27) <= / 10000000000.
Proof.
  destruct (fdiv_spec (fofZ 24389) (fofZ 27) _ _ (fofZ_spec 24389 ltac:(lia)) (fofZ_spec 27 ltac:(lia)) ltac:(lra)) as [F E].
  - pose proof big_1000. apply Rabs_le. lra.
  - exists (rnd (24389 / 27)). split; [now split|]. eapply Rle_trans; [apply (rnd_error (24389 / 27) 10); [lia|]|].
    + change (bpow radix2 10) with 1024. apply Rabs_lt. lra.
    + change (bpow radix2 (10 - 54)) with (/ 17592186044416). lra.
Qed.

Lemma root_lip : forall a b d, 8 / 1000 <= a -> 8 / 1000 <= b -> Rabs (a - b) <= d ->
  Rabs (Rpower a (1 / 3) - Rpower b (1 / 3)) <= 10 * d.
Proof.
  intros a b d Ha Hb H.
  assert (W : forall x, 8 / 1000 <= x -> 2 / 10 <= Rpower x (1 / 3)).
  { intros x Hx. pose proof (cube_of x ltac:(lra)) as C. pose proof (Rpower_pos x (1 / 3)) as Q.
    destruct (Rle_lt_dec (2 / 10) (Rpower x (1 / 3))) as [|L]; auto. exfalso.
    set (r := Rpower x (1 / 3)) in *. assert (r * r < 4 / 100) by nra. cbn [pow] in C. nra. }
  pose proof (W a Ha) as A. pose proof (W b Hb) as B.
  pose proof (cube_of a ltac:(lra)) as CA. pose proof (cube_of b ltac:(lra)) as CB.
  set (x := Rpower a (1 / 3)) in *. set (y := Rpower b (1 / 3)) in *. clearbody x y.
  rewrite <- CA, <- CB in H. replace (x ^ 3 - y ^ 3) with ((x - y) * (x * x + x * y + y * y)) in H by (cbn [pow]; ring).
  rewrite Rabs_mult in H. assert (M : / 10 <= x * x + x * y + y * y) by nra.
  rewrite (Rabs_pos_eq (x * x + x * y + y * y)) in H by lra. pose proof (Rabs_pos (x - y)). nra.
Qed.
Lemma root_T : Rpower T0 (1 / 3) = 6 / 29.
Proof.
  replace T0 with ((6 / 29) ^ 3) by (unfold T0; cbn [pow]; field).
  rewrite <- Rpower_pow by lra. rewrite Rpower_mult. replace (INR 3 * (1 / 3)) with 1 by (cbn [INR]; lra).
  apply Rpower_1. lra.
Qed.

(** the two branches, as functions of the luminance *)
Definition lo_b (y : R) : R := y * (24389 / 27).
Definition hi_b (y : R) : R := 116 * Rpower y (1 / 3) - 16.
Definition lightness (y : R) : R := if Rle_dec y (216 / 24389) then lo_b y else hi_b y.
Lemma cie_is : forall t, cie_lightness t = lightness (relative_luminance t). Proof. reflexivity. Qed.

Lemma lightness_lo : forall y, 0 <= y <= T0 + / 10000000000 -> Rabs (lo_b y - lightness y) <= / 1000000.
Proof.
  intros y H. unfold lightness. destruct (Rle_dec _ _) as [L|L].
  - rewrite Rminus_eq_0, Rabs_R0. lra.
  - unfold T0 in H. unfold lo_b, hi_b.
    pose proof (root_lip y T0 (/ 10000000000) ltac:(lra) ltac:(unfold T0; lra) ltac:(unfold T0; apply Rabs_le; lra)) as R.
    rewrite root_T in R. apply Rabs_le_inv in R. apply Rabs_le. lra.
Qed.
Lemma lightness_hi : forall y, T0 - / 10000000000 <= y -> Rabs (hi_b y - lightness y) <= / 1000000.
Proof.
  intros y H. unfold lightness. destruct (Rle_dec _ _) as [L|L].
  - unfold T0 in H. unfold lo_b, hi_b.
    pose proof (root_lip y T0 (/ 10000000000) ltac:(lra) ltac:(unfold T0; lra) ltac:(unfold T0; apply Rabs_le; lra)) as R.
    rewrite root_T in R. apply Rabs_le_inv in R. apply Rabs_le. lra.
  - rewrite Rminus_eq_0, Rabs_R0. lra.
Qed.

(** * From lightness to the ramp *)
Definition ramp (b : f64) : f64 := fadd (fofZ 232) (fmul (fdiv b (fofZ 100)) (fofZ 23)).

Lemma rnd_256 : forall x, Rabs x < 256 -> Rabs (rnd x - x) <= / 10000000000000.
Proof.
  intros x H. eapply Rle_trans; [apply (rnd_error x 8 ltac:(lia))|].
  - exact H.
  - change (bpow radix2 (8 - 54)) with (/ 70368744177664). lra.
Qed.

Lemma ramp_ap : forall b v, fin b v -> -1 <= v <= 101 ->
  exists s, fin (ramp b) s /\ Rabs (s - (232 + 23 * (v / 100))) <= / 100000000000.
Proof.
  intros b v F H. pose proof big_1000.
  pose proof (fdiv_spec b (fofZ 100) v 100 F (fofZ_spec 100 ltac:(lia)) ltac:(lra) ltac:(apply Rabs_le; lra)) as D.
  pose proof (rnd_256 (v / 100) ltac:(apply Rabs_lt; lra)) as E1. apply Rabs_le_inv in E1.
  set (d := rnd (v / 100)) in *.
  pose proof (fmul_spec _ (fofZ 23) d 23 D (fofZ_spec 23 ltac:(lia)) ltac:(apply Rabs_le; lra)) as M.
  pose proof (rnd_256 (d * 23) ltac:(apply Rabs_lt; lra)) as E2. apply Rabs_le_inv in E2.
  set (m := rnd (d * 23)) in *.
  pose proof (fadd_spec (fofZ 232) _ 232 m (fofZ_spec 232 ltac:(lia)) M ltac:(apply Rabs_le; lra)) as S.
  pose proof (rnd_256 (232 + m) ltac:(apply Rabs_lt; lra)) as E3. apply Rabs_le_inv in E3.
  exists (rnd (232 + m)). split; [exact S|]. apply Rabs_le. lra.
Qed.

Lemma ramp_mono : forall b b', fle b b' -> -1 <= B2R b -> B2R b' <= 101 -> fle (ramp b) (ramp b').
Proof.
  intros b b' L A B. destruct L as [F [G L]]. unfold ramp. pose proof big_1000.
  assert (Q : forall x, is_finite x = true -> -1 <= B2R x <= 101 -> Rabs (B2R (fdiv x (fofZ 100))) <= 2).
  { intros x Fx Hx.
    destruct (fdiv_spec x (fofZ 100) _ 100 (fin_of x Fx) (fofZ_spec 100 ltac:(lia)) ltac:(lra) ltac:(apply Rabs_le; lra)) as [_ E].
    rewrite E. pose proof (rnd_256 (B2R x / 100) ltac:(apply Rabs_lt; lra)) as E1. apply Rabs_le_inv in E1. apply Rabs_le. lra. }
  assert (Q' : forall x, is_finite x = true -> -1 <= B2R x <= 101 -> Rabs (B2R (fmul (fdiv x (fofZ 100)) (fofZ 23))) <= 300).
  { intros x Fx Hx.
    destruct (fdiv_spec x (fofZ 100) _ 100 (fin_of x Fx) (fofZ_spec 100 ltac:(lia)) ltac:(lra) ltac:(apply Rabs_le; lra)) as [G1 E].
    pose proof (Q x Fx Hx) as Qx. apply Rabs_le_inv in Qx.
    destruct (fmul_spec _ (fofZ 23) _ 23 (fin_of _ G1) (fofZ_spec 23 ltac:(lia)) ltac:(apply Rabs_le; lra)) as [_ E'].
    rewrite E'. pose proof (rnd_256 (B2R (fdiv x (fofZ 100)) * 23) ltac:(apply Rabs_lt; lra)) as E1.
    apply Rabs_le_inv in E1. apply Rabs_le. lra. }
  destruct (fofZ_spec 232 ltac:(lia)) as [C1 C2]. destruct (fofZ_spec 23 ltac:(lia)) as [C3 C4].
  destruct (fofZ_spec 100 ltac:(lia)) as [C5 C6].
  pose proof (Q b F ltac:(lra)). pose proof (Q b' G ltac:(lra)).
  apply mono_add.
  - repeat split; auto; lra.
  - apply mono_mulc; auto; [|rewrite C4; lra]. apply mono_divc; auto; [repeat split; auto| | |rewrite C6; lra]; apply Rabs_le; lra.
  - rewrite C2. apply Rabs_le. lra.
  - apply Q'; auto; lra.
  - rewrite C2. apply Rabs_le. lra.
  - apply Q'; auto; lra.
Qed.

(** * Lightness times one, as computed *)
Definition lum_b (e : env) (l : f64) : f64 :=
  if fleb l (flit 216 24389) then fmul l (flit 24389 27)
  else fsub (fmul (env_pow e l (flit 1 3)) (fofZ 116)) (fofZ 16).

Lemma lum_b_lo : forall l w, fin l w -> - / 100 <= w <= T0 + / 100 -> exists v, fin (fmul l (flit 24389 27)) v /\ Rabs (v - lo_b w) <= / 100000000.
Proof.
  intros l w F H. destruct lit_903 as [c [G C]]. pose proof big_1000. apply Rabs_le_inv in C. unfold T0 in H.
  assert (R : Rabs (w * c) < 256).
  { apply Rabs_lt. split; nra. }
  pose proof (fmul_spec l (flit 24389 27) w c F G ltac:(lra)) as M.
  exists (rnd (w * c)). split; [exact M|].
  pose proof (rnd_256 (w * c) R) as E. apply Rabs_le_inv in E. unfold lo_b. apply Rabs_le.
  assert (Rabs (w * (c - 24389 / 27)) <= / 5000000000).
  { rewrite Rabs_mult. assert (Rabs w <= 2) by (apply Rabs_le; lra). assert (Rabs (c - 24389 / 27) <= / 10000000000) by (apply Rabs_le; lra).
    pose proof (Rabs_pos w). pose proof (Rabs_pos (c - 24389 / 27)). nra. }
  apply Rabs_le_inv in H1. lra.
Qed.

Lemma pow13 : forall p l w, pow_accurate p -> fin l w -> 8 / 1000 <= w <= 1 + / 100 ->
  ap (p l (flit 1 3)) (Rpower w (1 / 3)) (2 * eps).
Proof.
  intros p l w P [F E] H. destruct lit_13 as [y [[Fy Ey] Y]]. pose proof u_pos as U. rewrite eps_val.
  assert (Ry : 0 < y <= 3) by (apply Rabs_le_inv in Y; lra).
  destruct (P l (flit 1 3) F Fy) as [Fp Q]; [rewrite E; lra|rewrite Ey; lra|].
  rewrite E, Ey in Q. exists (B2R (p l (flit 1 3))). split; [split; auto|].
  pose proof (power_exp_err w (1 / 3) y ltac:(lra) ltac:(lra) Y) as X1.
  unfold u in *. apply Rabs_le_inv in Q, X1. apply Rabs_le. lra.
Qed.
Lemma root_range : forall w, 8 / 1000 <= w <= 1 + / 100 -> 2 / 10 <= Rpower w (1 / 3) <= 101 / 100.
Proof.
  intros w H. pose proof (cube_of w ltac:(lra)) as C. pose proof (Rpower_pos w (1 / 3)) as Q.
  set (r := Rpower w (1 / 3)) in *. cbn [pow] in C. rewrite Rmult_1_r in C. split.
  - destruct (Rle_lt_dec (2 / 10) r) as [|L]; auto. exfalso. assert (r * r < 4 / 100) by nra. nra.
  - destruct (Rle_lt_dec r (101 / 100)) as [|L]; auto. exfalso. assert (1 < r * r) by nra. nra.
Qed.

Lemma lum_b_hi : forall e l w, pow_accurate (env_pow e) -> fin l w -> 8 / 1000 <= w <= 1 + / 100 ->
  exists v, fin (fsub (fmul (env_pow e l (flit 1 3)) (fofZ 116)) (fofZ 16)) v /\ Rabs (v - hi_b w) <= / 100000000.
Proof.
  intros e l w P F H. destruct (pow13 (env_pow e) l w P F H) as [x [G X]]. pose proof (root_range w H) as R.
  rewrite eps_val in X. apply Rabs_le_inv in X. pose proof big_1000. set (r := Rpower w (1 / 3)) in *.
  pose proof (fmul_spec _ (fofZ 116) x 116 G (fofZ_spec 116 ltac:(lia)) ltac:(apply Rabs_le; lra)) as M.
  pose proof (rnd_256 (x * 116) ltac:(apply Rabs_lt; lra)) as E1. apply Rabs_le_inv in E1.
  set (m := rnd (x * 116)) in *.
  pose proof (fsub_spec _ (fofZ 16) m 16 M (fofZ_spec 16 ltac:(lia)) ltac:(apply Rabs_le; lra)) as S.
  pose proof (rnd_256 (m - 16) ltac:(apply Rabs_lt; lra)) as E2. apply Rabs_le_inv in E2.
  exists (rnd (m - 16)). split; [exact S|]. unfold hi_b. fold r. apply Rabs_le. lra.
Qed.

Lemma lightness_cont : forall w y, 0 <= y <= 1 -> Rabs (w - y) <= / 100000000000 -> 
  (w <= T0 + / 100000000000 -> Rabs (lo_b w - lightness y) <= / 500000) /\
  (T0 - / 100000000000 <= w -> Rabs (hi_b w - lightness y) <= / 500000).
Proof.
  intros w y Hy H. pose proof H as H'. apply Rabs_le_inv in H. split; intro L.
  - pose proof (lightness_lo y ltac:(lra)) as A. apply Rabs_le_inv in A. unfold lo_b in *. apply Rabs_le. lra.
  - pose proof (lightness_hi y ltac:(lra)) as A. apply Rabs_le_inv in A. unfold T0 in *.
    pose proof (root_lip w y _ ltac:(lra) ltac:(lra) H') as R. apply Rabs_le_inv in R. unfold hi_b in *. apply Rabs_le. lra.
Qed.

Lemma lightness_range : forall y, 0 <= y <= 1 -> 0 <= lightness y <= 100.
Proof.
  intros y H. unfold lightness. destruct (Rle_dec _ _) as [L|L].
  - unfold lo_b. lra.
  - unfold hi_b. assert (6 / 29 <= Rpower y (1 / 3)).
    { rewrite <- root_T. apply power_le; unfold T0; lra. }
    assert (Rpower y (1 / 3) <= Rpower 1 (1 / 3)) by (apply power_le; lra).
    unfold Rpower in H1 at 2. rewrite ln_1, Rmult_0_r, exp_0 in H1. lra.
Qed.

Lemma lum_b_ap : forall e t, pow_accurate (env_pow e) -> tok t ->
  exists v, fin (lum_b e (luminance e t)) v /\ Rabs (v - cie_lightness t) <= / 400000.
Proof.
  intros e t P H. destruct (luminance_ap e t P H) as [w [F W]]. pose proof (lum_range t H) as R.
  rewrite cie_is. rewrite eps_val in W. assert (W' : Rabs (w - relative_luminance t) <= / 100000000000) by lra.
  set (y := relative_luminance t) in *. destruct (lightness_cont w y R W') as [LO HI].
  destruct lit_T as [z [G Z]]. pose proof u_pos. apply Rabs_le_inv in Z, W'. unfold lum_b, u in *.
  pose proof (fleb_spec _ _ _ _ F G) as B. destruct (fleb _ _) eqn:E.
  - assert (w <= z) by now apply B. destruct (lum_b_lo _ w F) as [v [Fv V]]; [unfold T0 in *; lra|].
    exists v. split; [exact Fv|]. assert (X : Rabs (lo_b w - lightness y) <= / 500000) by (apply LO; lra).
    apply Rabs_le_inv in V, X. apply Rabs_le. lra.
  - apply (fleb_false _ _ _ _ F G) in E. unfold T0 in *. destruct (lum_b_hi e _ w P F) as [v [Fv V]]; [lra|].
    exists v. split; [exact Fv|]. assert (X : Rabs (hi_b w - lightness y) <= / 500000) by (apply HI; lra).
    apply Rabs_le_inv in V, X. apply Rabs_le. lra.
Qed.

Lemma grey_index_is : forall e t, grey_index e t = frint (fmin (ramp (lum_b e (luminance e t))) (fofZ 255)).
Proof. reflexivity. Qed.

Lemma fmin_255 : forall x s, fin x s -> fin (fmin x (fofZ 255)) (Rmin s 255).
Proof.
  intros x s F. unfold fmin. pose proof (fofZ_spec 255 ltac:(lia)) as G. destruct (fltb _ _) eqn:E.
  - apply (fltb_spec _ _ _ _ G F) in E. rewrite Rmin_right by lra. exact G.
  - apply (fltb_false _ _ _ _ G F) in E. rewrite Rmin_left by lra. exact F.
Qed.

Lemma grey_index_spec : forall e t, pow_accurate (env_pow e) -> tok t ->
  grey_for (cie_lightness t) (grey_index e t).
Proof.
  intros e t P H. destruct (lum_b_ap e t P H) as [v [F V]]. pose proof (lightness_range _ (lum_range t H)) as R.
  rewrite <- cie_is in R. set (L := cie_lightness t) in *. apply Rabs_le_inv in V.
  destruct (ramp_ap _ v F ltac:(lra)) as [s [S E]]. apply Rabs_le_inv in E.
  rewrite grey_index_is, (frint_spec _ _ (fmin_255 _ _ S)). unfold grey_for.
  assert (M : 231 + 9 / 10 <= Rmin s 255 <= 255) by (unfold Rmin; destruct (Rle_dec s 255); lra).
  assert (D : Rabs (Rmin s 255 - (232 + 23 * (L / 100))) <= / 1000000).
  { apply Rabs_le. unfold Rmin. destruct (Rle_dec s 255); lra. }
  pose proof (near_half (Rmin s 255)) as N. apply Rabs_le_inv in N, D. split.
  - set (n := ZnearestE (Rmin s 255)) in *. split.
    + assert (231 < IZR n) by lra. apply lt_IZR in H0. lia.
    + assert (IZR n < 256) by lra. apply lt_IZR in H0. lia.
  - apply Rabs_le. lra.
Qed.

Lemma lum_b_mono : forall e l l' , pow_accurate (env_pow e) -> pow_monotone (env_pow e) -> fle l l' ->
  - / 100 <= B2R l -> B2R l' <= 1 + / 100 ->
  fle (lum_b e l) (lum_b e l') \/
  (exists v v', fin (lum_b e l) v /\ fin (lum_b e l') v' /\ v <= 8 + / 100 /\ 8 - / 100 <= v').
Proof.
  intros e l l' P M L A B. pose proof L as L0. destruct L as [F [G L]]. destruct lit_T as [z [T Z]]. pose proof u_pos.
  apply Rabs_le_inv in Z. unfold u, T0 in *. pose proof (fin_of l F) as Fl. pose proof (fin_of l' G) as Gl.
  set (w := B2R l) in *. set (w' := B2R l') in *. unfold lum_b.
  destruct (fleb l (flit 216 24389)) eqn:E1; destruct (fleb l' (flit 216 24389)) eqn:E2.
  - left. apply (fleb_spec _ _ _ _ Fl T) in E1. apply (fleb_spec _ _ _ _ Gl T) in E2.
    destruct lit_903 as [c [[C1 C2] C]]. apply Rabs_le_inv in C.
    apply mono_mulc; auto; try (apply Rabs_le; fold w w'; lra). rewrite C2. lra.
  - right. apply (fleb_spec _ _ _ _ Fl T) in E1. apply (fleb_false _ _ _ _ Gl T) in E2.
    destruct (lum_b_lo l w Fl) as [v [Fv V]]; [unfold T0; lra|].
    destruct (lum_b_hi e l' w' P Gl) as [v' [Fv' V']]; [lra|].
    exists v, v'. split; [exact Fv|]. split; [exact Fv'|]. apply Rabs_le_inv in V, V'. unfold lo_b in V.
    pose proof (root_range w' ltac:(lra)) as R.
    assert (Q : 6 / 29 - / 100000 <= Rpower w' (1 / 3)).
    { pose proof (power_le (T0 - / 10000000) w' (1 / 3) ltac:(unfold T0; lra) ltac:(lra)) as Q1.
      pose proof (root_lip (T0 - / 10000000) T0 (/ 10000000) ltac:(unfold T0; lra) ltac:(unfold T0; lra) ltac:(apply Rabs_le; lra)) as Q2.
      rewrite root_T in Q2. apply Rabs_le_inv in Q2. lra. }
    unfold hi_b in V'. split; lra.
  - exfalso. apply (fleb_false _ _ _ _ Fl T) in E1. apply (fleb_spec _ _ _ _ Gl T) in E2. lra.
  - left. apply (fleb_false _ _ _ _ Fl T) in E1. apply (fleb_false _ _ _ _ Gl T) in E2.
    destruct (pow13 (env_pow e) l w P Fl ltac:(lra)) as [x [[X1 X2] X]].
    destruct (pow13 (env_pow e) l' w' P Gl ltac:(lra)) as [x' [[Y1 Y2] Y]].
    pose proof (root_range w ltac:(lra)). pose proof (root_range w' ltac:(lra)). rewrite eps_val in *.
    apply Rabs_le_inv in X, Y. destruct lit_13 as [y [[Fy Ey] Yy]]. apply Rabs_le_inv in Yy. unfold u in Yy.
    assert (K : fle (env_pow e l (flit 1 3)) (env_pow e l' (flit 1 3))).
    { repeat split; auto. apply M; auto; fold w w'; try rewrite Ey; lra. }
    destruct (fofZ_spec 116 ltac:(lia)) as [C1 C2]. destruct (fofZ_spec 16 ltac:(lia)) as [C3 C4]. pose proof big_1000.
    assert (Q : forall p r, is_finite p = true -> B2R p = r -> 0 <= r <= 2 -> Rabs (B2R (fmul p (fofZ 116))) <= 300).
    { intros p r Fp Er Hr. destruct (fmul_spec p (fofZ 116) r 116 (conj Fp Er) (fofZ_spec 116 ltac:(lia)) ltac:(apply Rabs_le; lra)) as [_ E].
      rewrite E. pose proof (rnd_256 (r * 116) ltac:(apply Rabs_lt; lra)) as N. apply Rabs_le_inv in N. apply Rabs_le. lra. }
    apply mono_subc; auto.
    + apply mono_mulc; auto; try (rewrite C2; lra); rewrite ?X2, ?Y2; apply Rabs_le; lra.
    + apply (Q _ x); auto; lra.
    + apply (Q _ x'); auto; lra.
    + rewrite C4. apply Rabs_le. lra.
Qed.

Lemma grey_index_mono : forall e r g b r' g' b', pow_accurate (env_pow e) -> pow_monotone (env_pow e) ->
  tok (r, g, b) -> tok (r', g', b') -> (r <= r')%Z -> (g <= g')%Z -> (b <= b')%Z ->
  (grey_index e (r, g, b) <= grey_index e (r', g', b'))%Z.
Proof.
  intros e r g b r' g' b' P M H K L1 L2 L3.
  pose proof (luminance_mono e _ _ _ _ _ _ P M H K L1 L2 L3) as L.
  destruct (ap_fle _ _ _ (luminance_ap e _ P H)) as [_ A]. destruct (ap_fle _ _ _ (luminance_ap e _ P K)) as [_ B].
  pose proof (lum_range _ H). pose proof (lum_range _ K). rewrite eps_val in A, B. apply Rabs_le_inv in A, B.
  destruct (lum_b_ap e _ P H) as [v [F V]]. destruct (lum_b_ap e _ P K) as [v' [F' V']].
  pose proof (lightness_range _ (lum_range _ H)) as R. pose proof (lightness_range _ (lum_range _ K)) as R'.
  rewrite <- cie_is in R, R'. apply Rabs_le_inv in V, V'.
  destruct (ramp_ap _ v F ltac:(lra)) as [s [S E]]. destruct (ramp_ap _ v' F' ltac:(lra)) as [s' [S' E']].
  rewrite !grey_index_is, (frint_spec _ _ (fmin_255 _ _ S)), (frint_spec _ _ (fmin_255 _ _ S')).
  destruct (lum_b_mono e _ _ P M L ltac:(lra) ltac:(lra)) as [Q|[x [x' [X [X' [Q1 Q2]]]]]].
  - apply nearest_le. assert (Y : fle (ramp (lum_b e (luminance e (r, g, b)))) (ramp (lum_b e (luminance e (r', g', b'))))).
    { apply ramp_mono; auto; [rewrite (proj2 F); lra|rewrite (proj2 F'); lra]. }
    destruct Y as [_ [_ Y]]. rewrite (proj2 S), (proj2 S') in Y. apply Rle_min_compat_r, Y.
  - pose proof (fin_unique _ _ _ X F). pose proof (fin_unique _ _ _ X' F'). subst x x'.
    apply Rabs_le_inv in E, E'.
    assert (N1 : (ZnearestE (Rmin s 255) <= 234)%Z).
    { pose proof (near_half (Rmin s 255)) as N. apply Rabs_le_inv in N. pose proof (Rmin_l s 255).
      assert (I3 : IZR (ZnearestE (Rmin s 255)) < 235) by lra. apply lt_IZR in I3. lia. }
    assert (N2 : (234 <= ZnearestE (Rmin s' 255))%Z).
    { pose proof (near_half (Rmin s' 255)) as N. apply Rabs_le_inv in N.
      assert (233 + 6 / 10 <= Rmin s' 255) by (unfold Rmin; destruct (Rle_dec s' 255); lra).
      assert (I4 : 233 < IZR (ZnearestE (Rmin s' 255))) by lra. apply lt_IZR in I4. lia. }
    lia.
Qed.

(** * Emission *)

Lemma no_color_ansi : forall e c, not_a_code c -> env_cs e = NO_COLOR ->
  color_ansi e c = idx_seq (c_bg c) (grey_index e (c_rgb c)).
Proof.
  intros e c H He.
  assert (W : dec (lead c) ++ lit ";5;" ++ dec (grey_index e (c_rgb c)) = idx_seq (c_bg c) (grey_index e (c_rgb c))).
  { rewrite lead_dec. unfold idx_seq. now destruct (c_bg c). }
  rewrite <- W. destruct H as [H|H].
  - rewrite color_ansi_free by assumption. now rewrite He.
  - unfold color_ansi. rewrite He.
    replace (cs_ge NO_COLOR (ArgSpace (c_origin c))) with (Ok false) by (destruct H as [-> | ->]; reflexivity).
    reflexivity.
Qed.

Lemma no_color_emission : forall e c pen, pow_accurate (env_pow e) -> color_ok c -> not_a_code c -> env_cs e = NO_COLOR ->
  exists n, grey_for (cie_lightness (c_rgb c)) n /\ color_ansi e c = idx_seq (c_bg c) n /\
    sgr (params (color_ansi e c)) pen = set_layer (c_bg c) (EIdx n) pen.
Proof.
  intros e c pen P OK Hn He. exists (grey_index e (c_rgb c)).
  pose proof (grey_index_spec e (c_rgb c) P (tok_color c OK)) as G. split; [exact G|].
  rewrite no_color_ansi by assumption. split; [reflexivity|]. unfold params. rewrite split_idx_seq. cbn [map].
  destruct G as [R _]. set (n := grey_index e (c_rgb c)) in *. clearbody n.
  assert (D : param_val (dec n) = n) by (apply dec_val; lia). rewrite D. destruct (c_bg c); reflexivity.
Qed.

Lemma no_color_monotone : forall e c d, pow_accurate (env_pow e) -> pow_monotone (env_pow e) ->
  color_ok c -> color_ok d -> not_a_code c -> not_a_code d -> env_cs e = NO_COLOR -> brighter c d ->
  exists n m, (n <= m)%Z /\ color_ansi e c = idx_seq (c_bg c) n /\ color_ansi e d = idx_seq (c_bg d) m.
Proof.
  intros e c d P M Hc Hd Nc Nd He B. exists (grey_index e (c_rgb c)), (grey_index e (c_rgb d)).
  rewrite !no_color_ansi by assumption. split; [|auto].
  pose proof (tok_color c Hc) as Tc. pose proof (tok_color d Hd) as Td. unfold brighter, red, green, blue in B.
  destruct (c_rgb c) as [[r g] b]. destruct (c_rgb d) as [[r' g'] b']. cbn in B. apply grey_index_mono; tauto.
Qed.

Lemma codes_verbatim : forall i bg, (0 <= i < 16)%Z ->
  exists c, color_of (DStr (dec (standard_code bg i))) = Ok c /\ c_rgb c = palette_entry i /\ c_bg c = bg /\
    forall e, env_cs e = NO_COLOR -> color_ansi e c = dec (standard_code bg i).
Proof.
  intros i bg H.
  assert (W : forall al, exists c, from_ansi (dec (standard_code bg i)) al = Ok c /\ c_rgb c = palette_entry i /\ c_bg c = bg /\
    forall e, env_cs e = NO_COLOR -> color_ansi e c = dec (standard_code bg i)).
  { intro al.
    assert (C : (i = 0 \/ i = 1 \/ i = 2 \/ i = 3 \/ i = 4 \/ i = 5 \/ i = 6 \/ i = 7 \/ i = 8 \/ i = 9 \/
      i = 10 \/ i = 11 \/ i = 12 \/ i = 13 \/ i = 14 \/ i = 15)%Z) by lia.
    repeat (destruct C as [->|C]); [..|subst i]; destruct bg;
      (eexists; split; [vm_compute; reflexivity|]; split; [vm_compute; reflexivity|]; split; [reflexivity|];
       intros e He; unfold color_ansi; cbn [c_origin c_ctor]; rewrite He; vm_compute; reflexivity). }
  destruct (W fone) as [c [E R]]. exists c. split; [|exact R]. rewrite <- E.
  set (s := dec (standard_code bg i)) in *.
  assert (D : startswith (lit "#") s = false /\ contains_char 46 (last_of (split_on 59 s)) = false /\
    dict_get NAMED_COLORS s = None).
  { assert (C : (i = 0 \/ i = 1 \/ i = 2 \/ i = 3 \/ i = 4 \/ i = 5 \/ i = 6 \/ i = 7 \/ i = 8 \/ i = 9 \/
      i = 10 \/ i = 11 \/ i = 12 \/ i = 13 \/ i = 14 \/ i = 15)%Z) by lia. clear - C. subst s.
    repeat (destruct C as [->|C]); [..|subst i]; destruct bg; vm_compute; auto. }
  destruct D as [D1 [D2 D3]]. unfold color_of. rewrite D1, D2. cbn [bindr]. now rewrite D3.
Qed.

(** * The assumptions on [pow] are met: the correctly rounded power *)
Definition exact_pow (x y : f64) : f64 :=
  let r := Rpower (B2R x) (B2R y) in
  binary_normalize fprec femax fprec_gt_0 fprec_lt_emax mode_NE
    (ZnearestE (scaled_mantissa radix2 (SpecFloat.fexp fprec femax) r))
    (cexp radix2 (SpecFloat.fexp fprec femax) r) false.

Lemma power_8 : forall a b, 0 < a <= 2 -> 0 < b <= 3 -> 0 < Rpower a b <= 8.
Proof.
  intros a b Ha Hb. split; [apply Rpower_pos|].
  apply Rle_trans with (Rpower 2 b); [apply power_le; lra|].
  apply Rle_trans with (Rpower 2 (INR 3)); [apply Rle_Rpower; cbn [INR]; lra|]. rewrite Rpower_pow by lra. lra.
Qed.
Lemma exact_pow_spec : forall x y, 0 < B2R x <= 2 -> 0 < B2R y <= 3 ->
  fin (exact_pow x y) (rnd (Rpower (B2R x) (B2R y))).
Proof.
  intros x y Hx Hy. pose proof (power_8 _ _ Hx Hy) as P. set (r := Rpower (B2R x) (B2R y)) in *. unfold exact_pow. fold r.
  match goal with |- fin (binary_normalize _ _ _ _ _ ?m ?e _) _ =>
    pose proof (binary_normalize_correct fprec femax fprec_gt_0 fprec_lt_emax mode_NE m e false) as C;
    change (F2R (Float radix2 m e)) with (rnd r) in C end.
  cbv zeta in C. change (round radix2 (SpecFloat.fexp fprec femax) (round_mode mode_NE) (rnd r)) with (rnd (rnd r)) in C.
  rewrite (rnd_id (rnd r)) in C by apply rnd_fmt.
  assert (B : Rabs (rnd r) <= 8).
  { apply Rabs_le. split; [apply rnd_ge; [exact (fmt_opp _ (fmt_IZR 8 ltac:(lia)))|lra]|apply rnd_le_fmt; [exact (fmt_IZR 8 ltac:(lia))|lra]]. }
  pose proof big_1000. rewrite big_lt in C by lra. destruct C as [C1 [C2 _]]. now split.
Qed.
Lemma exact_pow_accurate : pow_accurate exact_pow.
Proof.
  intros x y Fx Fy Hx Hy. destruct (exact_pow_spec x y Hx Hy) as [F E]. split; [exact F|]. rewrite E.
  pose proof (power_8 _ _ Hx Hy) as P.
  eapply Rle_trans; [apply (rnd_error _ 4 ltac:(lia)); change (bpow radix2 4) with 16; apply Rabs_lt; lra|].
  change (bpow radix2 (4 - 54)) with (/ 1125899906842624). lra.
Qed.
Lemma exact_pow_monotone : pow_monotone exact_pow.
Proof.
  intros x x' y Fx Fx' Fy H0 H1 H2 Hy. destruct (exact_pow_spec x y ltac:(lra) Hy) as [_ E].
  destruct (exact_pow_spec x' y ltac:(lra) Hy) as [_ E']. rewrite E, E'. apply rnd_le, power_le; lra.
Qed.
