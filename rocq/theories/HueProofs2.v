(** hue_shift: the whole function. *)
From Coq Require Import ZArith List Bool Lia Reals Lra Psatz.
From Flocq Require Import Core IEEE754.BinarySingleNaN.
From Verif Require Import PyBase PyLemmas F64 SpaceModel ColorModel ColorSpec ColorProofs FloatLemmas BlendProofs
  PaletteProofs HueSpec HueProofs.
Open Scope R_scope.


Lemma div_01 : forall a b, (0 < b)%Z -> (0 <= a <= b)%Z -> 0 <= IZR a / IZR b <= 1.
Proof.
  intros a b Hb Ha. assert (Hb' : 0 < IZR b) by (apply IZR_lt; assumption).
  assert (0 <= IZR a <= IZR b) by (split; apply IZR_le; lia). split.
  - apply Rmult_le_pos; [lra|]. left. now apply Rinv_0_lt_compat.
  - apply Rmult_le_reg_r with (IZR b); auto. unfold Rdiv. rewrite Rmult_assoc, Rinv_l by lra. lra.
Qed.

(** lightness *)
Lemma half_q : forall x a, fin x (q a) -> (Z.abs a < 2 ^ 40)%Z -> fin (fdiv x (fofZ 2)) (IZR a / 512).
Proof.
  intros x a Hx Ha. assert (E : q a / 2 = IZR a / 512) by (unfold q; lra).
  assert (F : fmt (IZR a / 512)) by (exact (fmt_dyad a 9 ltac:(lia) ltac:(lia))).
  rewrite <- (rnd_id _ F), <- E. apply (fdiv_spec _ _ (q a) 2 Hx (fofZ_spec 2 ltac:(lia)) ltac:(lra)).
  pose proof (q_abs a ltac:(lia)). unfold Rdiv. rewrite Rabs_mult, (Rabs_pos_eq (/ 2)) by lra. 
  pose proof (Rabs_pos (q a)). lra.
Qed.

Lemma hls_grey : forall v, channel_ok v ->
  exists l, color_hls (v, v, v) = (fzero, l, fzero) /\ fin l (IZR v / 256).
Proof.
  intros v Hv. unfold channel_ok in Hv. unfold color_hls, rgb_to_hls.
  pose proof (fdiv256 v ltac:(lia)) as F. set (x := fdiv (fofZ v) (fofZ 256)) in *. clearbody x.
  pose proof (fmax_q _ _ _ _ F F) as F1. pose proof (fmax_q _ _ _ _ F1 F) as F2.
  pose proof (fmin_q _ _ _ _ F F) as G1. pose proof (fmin_q _ _ _ _ G1 F) as G2.
  rewrite !Z.max_id in F2. rewrite !Z.min_id in G2. cbv zeta.
  rewrite (feqb_q _ _ _ _ G2 F2), Z.eqb_refl. eexists. split; [reflexivity|].
  pose proof (fadd_q _ _ _ _ F2 G2 ltac:(lia)) as S. pose proof (half_q _ _ S ltac:(lia)) as H.
  replace (IZR v / 256) with (IZR (v + v) / 512); auto. rewrite plus_IZR. lra.
Qed.

Definition sat_ok (M m : Z) (l s : f64) : Prop :=
  exists m2, m2 = (if fleb l (flit 1 2) then fmul l (fadd fone s) else fsub (fadd l s) (fmul l s)) /\
    ap m2 (q M) (8 * u) /\ ap (fsub (fmul (fofZ 2) l) m2) (q m) (8 * u + u) /\ feqb s fzero = false.

Lemma sat_spec : forall M m mx mn l, (0 <= m < M)%Z -> (M <= 255)%Z -> fin mx (q M) -> fin mn (q m) ->
  fin l (IZR (M + m) / 512) ->
  sat_ok M m l (if fleb l (flit 1 2) then fdiv (fsub mx mn) (fadd mx mn)
                else fdiv (fsub mx mn) (fsub (fsub (fofZ 2) mx) mn)).
Proof.
  intros M m mx mn l Hm HM Fx Fn Fl. pose proof u_pos as U.
  pose proof (fsub_q _ _ _ _ Fx Fn ltac:(lia)) as Fr. pose proof (fadd_q _ _ _ _ Fx Fn ltac:(lia)) as Fs.
  pose proof (fofZ_q 2 ltac:(lia)) as F2. pose proof (fsub_q _ _ _ _ F2 Fx ltac:(lia)) as Fd1.
  pose proof (fsub_q _ _ _ _ Fd1 Fn ltac:(lia)) as Fd.
  assert (LM : 0 < IZR (M + m) / 512 < 1).
  { assert (0 < IZR (M + m)) by (apply IZR_lt; lia). assert (IZR (M + m) < 512) by (apply IZR_lt; lia). lra. }
  assert (S0 : forall s a b, ap s (IZR a / IZR b) u -> (0 < a)%Z -> (0 < b <= 600)%Z -> feqb s fzero = false).
  { intros s a b [w [Fw Hw]] Ha Hb. destruct (feqb s fzero) eqn:E; auto. exfalso.
    apply (feqb_spec _ _ _ _ Fw fin_fzero) in E. subst w.
    assert (1 <= IZR a) by (apply IZR_le; lia). assert (0 < IZR b <= 600) by (split; [apply IZR_lt|apply IZR_le]; lia).
    assert (/ 600 <= IZR a / IZR b).
    { apply Rle_trans with (1 / IZR b).
      - unfold Rdiv. rewrite Rmult_1_l. apply Rinv_le; lra.
      - unfold Rdiv. apply Rmult_le_compat_r; [|lra]. left. apply Rinv_0_lt_compat. lra. }
    apply Rabs_le_inv in Hw. lra. }
  assert (K : forall m2, ap m2 (q M) (8 * u) -> ap (fsub (fmul (fofZ 2) l) m2) (q m) (8 * u + u)).
  { intros m2 Hm2.
    assert (F2l : fin (fmul (fofZ 2) l) (q (M + m))).
    { eapply fin_q; [apply (fmul_spec _ _ 2 _ (fofZ_spec 2 ltac:(lia)) Fl)|unfold q; lra|lia].
      pose proof big_1000. apply Rabs_le. lra. }
    assert (B : Rabs (q (M + m) - q M) <= 3).
    { unfold q. assert (0 <= IZR m <= 255) by (split; apply IZR_le; lia). rewrite plus_IZR. apply Rabs_le. lra. }
    pose proof (ap_sub _ _ _ _ _ _ (ap_fin _ _ F2l) Hm2 B ltac:(lra)) as S.
    eapply ap_weak; [eapply ap_eq; [exact S|]|lra]. unfold q. rewrite plus_IZR. lra. }
  assert (Fl' : fin l ((IZR M + IZR m) / 512)) by (now rewrite <- plus_IZR).
  set (L := IZR (M + m) / 512) in *.
  assert (A1 : ap fone 1 0) by (apply ap_fin, fone_1).
  assert (HMR : 0 <= IZR m /\ IZR m < IZR M /\ IZR M <= 255).
  { repeat split; [apply IZR_le; lia|apply IZR_lt; lia|apply IZR_le; lia]. }
  unfold sat_ok. destruct (fleb l (flit 1 2)) eqn:E.
  - apply (fleb_spec _ _ _ _ Fl half_exact) in E.
    pose proof (fdiv_ap _ _ _ _ Fr Fs ltac:(lia) ltac:(lia)) as As.
    set (s := fdiv (fsub mx mn) (fadd mx mn)) in *.
    pose proof (div_01 (M - m) (M + m) ltac:(lia) ltac:(lia)) as D01.
    eexists. split; [reflexivity|].
    assert (Am : ap (fmul l (fadd fone s)) (q M) (8 * u)).
    { pose proof (ap_add _ _ _ _ _ _ A1 As ltac:(apply Rabs_le; lra) ltac:(lra)) as Aa.
      pose proof (ap_mul _ _ _ _ _ _ (/ 2) 2 (ap_fin _ _ Fl) Aa ltac:(apply Rabs_le; lra) ltac:(apply Rabs_le; lra) ltac:(lra)) as Am.
      eapply ap_weak; [eapply ap_eq; [exact Am|]|lra].
      unfold L, q. rewrite minus_IZR, plus_IZR. field. lra. }
    split; [exact Am|]. split; [now apply K|]. eapply S0; [exact As|lia|lia].
  - apply (fleb_false _ _ _ _ Fl half_exact) in E.
    assert (E' : (M + m > 256)%Z). { unfold L in E. assert (IZR (M + m) > 256) by lra. apply Z.lt_gt, lt_IZR. lra. }
    replace (256 * 2 - M - m)%Z with (512 - M - m)%Z in Fd by lia.
    pose proof (fdiv_ap _ _ _ _ Fr Fd ltac:(lia) ltac:(lia)) as As.
    set (s := fdiv (fsub mx mn) (fsub (fsub (fofZ 2) mx) mn)) in *.
    pose proof (div_01 (M - m) (512 - M - m) ltac:(lia) ltac:(lia)) as D01.
    set (S := IZR (M - m) / IZR (512 - M - m)) in *.
    assert (ES : S * (1 - L) = IZR (M - m) / 512).
    { unfold S, L. rewrite !minus_IZR, plus_IZR. field. lra. }
    eexists. split; [reflexivity|].
    assert (Am : ap (fsub (fadd l s) (fmul l s)) (q M) (8 * u)).
    { pose proof (ap_add _ _ _ _ _ _ (ap_fin _ _ Fl) As ltac:(apply Rabs_le; lra) ltac:(lra)) as Aa.
      pose proof (ap_mul _ _ _ _ _ _ 1 1 (ap_fin _ _ Fl) As ltac:(apply Rabs_le; lra) ltac:(apply Rabs_le; lra) ltac:(lra)) as Am.
      assert (EQ : L + S - L * S = q M).
      { replace (L + S - L * S) with (L + S * (1 - L)) by lra. rewrite ES. unfold L, q.
        rewrite minus_IZR, plus_IZR. lra. }
      pose proof (ap_sub _ _ _ _ _ _ Aa Am ltac:(rewrite EQ; unfold q; apply Rabs_le; lra) ltac:(lra)) as As2.
      rewrite EQ in As2. eapply ap_weak; [exact As2|lra]. }
    split; [exact Am|]. split; [now apply K|]. eapply S0; [exact As|lia|lia].
Qed.

Lemma hls_spec : forall r g b, channel_ok r -> channel_ok g -> channel_ok b -> bot r g b <> top r g b ->
  exists h l s hv, color_hls (r, g, b) = (h, l, s) /\ fin h hv /\ hue_of hv (true_hue r g b) (20 * u) /\
    sat_ok (top r g b) (bot r g b) l s.
Proof.
  intros r g b Hr Hg Hb NE. unfold channel_ok in *. pose proof u_pos as U.
  unfold color_hls, rgb_to_hls. fold (top r g b) (bot r g b).
  pose proof (fdiv256 r ltac:(lia)) as Fr. pose proof (fdiv256 g ltac:(lia)) as Fg. pose proof (fdiv256 b ltac:(lia)) as Fb.
  set (xr := fdiv (fofZ r) (fofZ 256)) in *. set (xg := fdiv (fofZ g) (fofZ 256)) in *.
  set (xb := fdiv (fofZ b) (fofZ 256)) in *. clearbody xr xg xb.
  pose proof (fmax_q _ _ _ _ (fmax_q _ _ _ _ Fr Fg) Fb) as FM. fold (top r g b) in FM.
  pose proof (fmin_q _ _ _ _ (fmin_q _ _ _ _ Fr Fg) Fb) as Fm. fold (bot r g b) in Fm.
  assert (TR : (bot r g b < top r g b /\ 0 <= bot r g b /\ top r g b <= 255 /\
     bot r g b <= r <= top r g b /\ bot r g b <= g <= top r g b /\ bot r g b <= b <= top r g b)%Z)
    by (unfold top, bot in *; lia).
  set (mx := fmax (fmax xr xg) xb) in *. set (mn := fmin (fmin xr xg) xb) in *. clearbody mx mn. cbv zeta.
  assert (HU : forall hh x, ap hh x (9 * u) -> Rabs x <= 7 ->
     exists hv, fin (fmodpy1 (fdiv hh (fofZ 6))) hv /\ hue_of hv (x / 6) (20 * u)).
  { intros hh x Hh Hx. pose proof (ap_div6 _ _ _ Hh Hx ltac:(lra)) as A6.
    destruct (ap_hue _ _ _ A6) as [hv [F1 [R [k Hk]]]]. exists hv. split; auto. split; auto. exists k. lra. }
  unfold true_hue. fold (top r g b) (bot r g b).
  set (M := top r g b) in *. set (m := bot r g b) in *. clearbody M m.
  rewrite (feqb_q _ _ _ _ Fm FM). destruct (Z.eqb_spec m M); [lia|].
  pose proof (fsub_q _ _ _ _ FM Fm ltac:(lia)) as FR.
  pose proof (fsub_q _ _ _ _ FM Fr ltac:(lia)) as DR. pose proof (fsub_q _ _ _ _ FM Fg ltac:(lia)) as DG.
  pose proof (fsub_q _ _ _ _ FM Fb ltac:(lia)) as DB.
  pose proof (fdiv_ap _ _ _ _ DR FR ltac:(lia) ltac:(lia)) as RC.
  pose proof (fdiv_ap _ _ _ _ DG FR ltac:(lia) ltac:(lia)) as GC.
  pose proof (fdiv_ap _ _ _ _ DB FR ltac:(lia) ltac:(lia)) as BC.
  set (rc := fdiv (fsub mx xr) (fsub mx mn)) in *. set (gc := fdiv (fsub mx xg) (fsub mx mn)) in *.
  set (bc := fdiv (fsub mx xb) (fsub mx mn)) in *. clearbody rc gc bc.
  pose proof (div_01 (M - r) (M - m) ltac:(lia) ltac:(lia)) as R1.
  pose proof (div_01 (M - g) (M - m) ltac:(lia) ltac:(lia)) as G1.
  pose proof (div_01 (M - b) (M - m) ltac:(lia) ltac:(lia)) as B1.
  assert (NZ : IZR M - IZR m <> 0) by (rewrite <- minus_IZR; apply not_0_IZR; lia).
  eexists _, _, _. 
  assert (SO : sat_ok M m (fdiv (fadd mx mn) (fofZ 2))
     (if fleb (fdiv (fadd mx mn) (fofZ 2)) (flit 1 2) then fdiv (fsub mx mn) (fadd mx mn)
                else fdiv (fsub mx mn) (fsub (fsub (fofZ 2) mx) mn))).
  { apply sat_spec; try lia; auto. apply half_q; [apply fadd_q; auto; lia|lia]. }
  rewrite (feqb_q _ _ _ _ Fr FM), (feqb_q _ _ _ _ Fg FM).
  assert (G : exists hv, fin (fmodpy1 (fdiv (if (r =? M)%Z then fsub bc gc else if (g =? M)%Z
       then fsub (fadd (fofZ 2) rc) bc else fsub (fadd (fofZ 4) gc) rc) (fofZ 6))) hv /\
     hue_of hv (if (r =? M)%Z then (IZR g - IZR b) / IZR (M - m) / 6
       else if (g =? M)%Z then (2 + (IZR b - IZR r) / IZR (M - m)) / 6
       else (4 + (IZR r - IZR g) / IZR (M - m)) / 6) (20 * u)).
  { destruct (Z.eqb_spec r M) as [E1|E1]; [|destruct (Z.eqb_spec g M) as [E2|E2]].
    - pose proof (ap_sub _ _ _ _ _ _ BC GC ltac:(apply Rabs_le; lra) ltac:(lra)) as A.
      destruct (HU _ _ (ap_weak _ _ _ (9 * u) A ltac:(lra)) ltac:(apply Rabs_le; lra)) as [hv [H1 H2]].
      exists hv. split; auto.
      replace ((IZR g - IZR b) / IZR (M - m) / 6) with ((IZR (M - b) / IZR (M - m) - IZR (M - g) / IZR (M - m)) / 6); auto.
      rewrite !minus_IZR. field. lra.
    - pose proof (ap_add _ _ _ _ _ _ (ap_Z 2 ltac:(lia)) RC ltac:(apply Rabs_le; lra) ltac:(lra)) as A.
      pose proof (ap_sub _ _ _ _ _ _ A BC ltac:(apply Rabs_le; lra) ltac:(lra)) as A'.
      destruct (HU _ _ (ap_weak _ _ _ (9 * u) A' ltac:(lra)) ltac:(apply Rabs_le; lra)) as [hv [H1 H2]].
      exists hv. split; auto.
      replace ((2 + (IZR b - IZR r) / IZR (M - m)) / 6) with ((2 + IZR (M - r) / IZR (M - m) - IZR (M - b) / IZR (M - m)) / 6); auto.
      rewrite !minus_IZR. field. lra.
    - pose proof (ap_add8 _ _ _ _ _ _ (ap_Z 4 ltac:(lia)) GC ltac:(apply Rabs_le; lra) ltac:(lra)) as A.
      pose proof (ap_sub8 _ _ _ _ _ _ A RC ltac:(apply Rabs_le; lra) ltac:(lra)) as A'.
      destruct (HU _ _ (ap_weak _ _ _ (9 * u) A' ltac:(lra)) ltac:(apply Rabs_le; lra)) as [hv [H1 H2]].
      exists hv. split; auto.
      replace ((4 + (IZR r - IZR g) / IZR (M - m)) / 6) with ((4 + IZR (M - g) / IZR (M - m) - IZR (M - r) / IZR (M - m)) / 6); auto.
      rewrite !minus_IZR. field. lra. }
  destruct G as [hv [H1 H2]]. exists hv. split; [reflexivity|]. split; [exact H1|]. split; [exact H2|exact SO].
Qed.

(** * hue_shift *)

Lemma fmul255 : forall x v d, ap x v d -> 0 <= v <= 1 -> 0 <= d <= / 500000000000 ->
  exists z, py_int_of_float (fmul (fofZ 255) x) = Ok z /\ truncated_to z (255 * v) /\ (0 <= z <= 255)%Z.
Proof.
  intros x v d [w [F H]] Hv Hd. apply Rabs_le_inv in H. pose proof big_1000. pose proof u_pos.
  assert (B : Rabs (255 * w) < bpow radix2 8) by (change (bpow radix2 8) with 256; apply Rabs_lt; lra).
  assert (Fm : fin (fmul (fofZ 255) x) (rnd (255 * w))).
  { apply (fmul_spec _ _ 255 w (fofZ_spec 255 ltac:(lia)) F). change (bpow radix2 8) with 256 in B. lra. }
  pose proof (rnd_error _ 8 ltac:(lia) B) as E. apply Rabs_le_inv in E.
  assert (S : bpow radix2 (8 - 54) <= / 10000000000000).
  { change (8 - 54)%Z with (-46)%Z. replace (bpow radix2 (-46)) with (/ 70368744177664) by (simpl; lra). lra. }
  exists (Ztrunc (rnd (255 * w))). split; [now apply py_int_spec|].
  set (t := rnd (255 * w)) in *. unfold truncated_to, tiny.
  pose proof (Ztrunc_error t) as T. apply Rabs_lt_inv in T.
  destruct (Rle_lt_dec 0 t) as [P|P].
  - pose proof (Ztrunc_floor t P) as Z. pose proof (Zfloor_lb t). pose proof (Zfloor_ub t).
    rewrite Z in *. split; [lra|]. split.
    + apply Zfloor_lub. simpl. lra.
    + apply Z.lt_succ_r, lt_IZR. unfold Z.succ. rewrite plus_IZR. lra.
  - assert (Z0 : Ztrunc t = 0%Z).
    { rewrite Ztrunc_ceil by lra. apply Zceil_imp. change (0 - 1)%Z with (-1)%Z. lra. }
    rewrite Z0. split; [lra|lia].
Qed.

Lemma at_hue_range : forall lo hi x, 0 <= lo -> lo <= hi -> hi <= 1 -> lo <= at_hue lo hi x <= hi.
Proof. intros lo hi x H1 H2 H3. unfold at_hue. pose proof (weight_range (frac x)). nra. Qed.


Lemma lohi : forall r g b, channel_ok r -> channel_ok g -> channel_ok b ->
  0 <= lo_of r g b /\ lo_of r g b <= hi_of r g b /\ hi_of r g b <= 255 / 256.
Proof.
  intros r g b Hr Hg Hb. unfold lo_of, hi_of. unfold channel_ok in *.
  assert (0 <= IZR (bot r g b)) by (apply IZR_le; unfold bot; lia).
  assert (IZR (bot r g b) <= IZR (top r g b)) by (apply IZR_le; unfold bot, top; lia).
  assert (IZR (top r g b) <= 255) by (apply IZR_le; unfold top; lia). lra.
Qed.

Lemma weight_frac2 : forall a b d, (exists k, Rabs (a - b - IZR k) <= d) -> d < / 12 ->
  Rabs (weight (frac a) - weight (frac b)) <= 6 * d.
Proof.
  intros a b d [k H] Hd. apply weight_frac; auto. destruct (frac_spec a) as [j [E R]]. split; [lra|].
  exists (k + j)%Z. rewrite E, plus_IZR. apply Rabs_le_inv in H. apply Rabs_le. lra.
Qed.
Lemma at_hue_close : forall lo hi a b d, 0 <= lo -> lo <= hi -> hi <= 1 ->
  (exists k, Rabs (a - b - IZR k) <= d) -> d < / 12 -> Rabs (at_hue lo hi a - at_hue lo hi b) <= 6 * d.
Proof.
  intros lo hi a b d H1 H2 H3 H Hd. unfold at_hue. pose proof (weight_frac2 a b d H Hd) as W.
  replace (lo + (hi - lo) * weight (frac a) - (lo + (hi - lo) * weight (frac b)))
    with ((hi - lo) * weight (frac a) - (hi - lo) * weight (frac b)) by lra.
  apply scale_err; [lra|exact W].
Qed.

(** what hls_to_rgb computes from a usable hue *)
Lemma hls_to_rgb_spec : forall r g b l s y hv x e, channel_ok r -> channel_ok g -> channel_ok b ->
  sat_ok (top r g b) (bot r g b) l s ->
  fin y hv -> hue_of hv x e -> 0 <= e <= 1000 * u ->
  exists vr vg vb, hls_to_rgb y l s = (vr, vg, vb) /\
    ap vr (at_hue (lo_of r g b) (hi_of r g b) (x + / 3)) (8000 * u) /\
    ap vg (at_hue (lo_of r g b) (hi_of r g b) x) (8000 * u) /\
    ap vb (at_hue (lo_of r g b) (hi_of r g b) (x - / 3)) (8000 * u).
Proof.
  intros r g b l s y hv x e Hr Hg Hb [m2 [E2 [A2 [A1 Es]]]] Fy [Rh [k Hk]] He. pose proof u_pos as U.
  destruct (lohi r g b Hr Hg Hb) as [L1 [L2 L3]].
  assert (A1' : ap (fsub (fmul (fofZ 2) l) m2) (lo_of r g b) (9 * u)) by (eapply ap_weak; [exact A1|lra]).
  assert (A2' : ap m2 (hi_of r g b) (9 * u)) by (eapply ap_weak; [exact A2|lra]).
  unfold hls_to_rgb. rewrite Es. cbv zeta. rewrite <- E2.
  eexists _, _, _. split; [reflexivity|].
  assert (V : forall z w w', ap z w (2 * u) -> (exists k, Rabs (w - w' - IZR k) <= e) ->
     ap (hls_v (fsub (fmul (fofZ 2) l) m2) m2 z) (at_hue (lo_of r g b) (hi_of r g b) w') (8000 * u)).
  { intros z w w' Hz Hw.
    destruct (hls_v_spec _ _ z _ _ w (9 * u) (2 * u) A1' A2' L1 L2 ltac:(lra) Hz ltac:(lra) ltac:(lra)) as [t [Ft Ht]].
    exists t. split; auto.
    pose proof (at_hue_close (lo_of r g b) (hi_of r g b) w w' e L1 L2 ltac:(lra) Hw ltac:(lra)) as Hc.
    unfold D in Ht. apply Rabs_le_inv in Ht, Hc. apply Rabs_le. lra. }
  apply Rabs_le_inv in Hk.
  assert (B3 : Rabs (hv + / 3) <= 3) by (apply Rabs_le; lra).
  assert (B3' : Rabs (hv - / 3) <= 3) by (apply Rabs_le; lra).
  split; [|split].
  - apply (V _ (hv + / 3)); [|exists k; apply Rabs_le; lra].
    eapply ap_weak; [apply (ap_add _ _ _ _ _ _ (ap_fin _ _ Fy) third B3); lra|lra].
  - apply (V _ hv); [|exists k; apply Rabs_le; lra]. eapply ap_weak; [apply ap_fin; exact Fy|lra].
  - apply (V _ (hv - / 3)); [|exists k; apply Rabs_le; lra].
    eapply ap_weak; [apply (ap_sub _ _ _ _ _ _ (ap_fin _ _ Fy) third B3'); lra|lra].
Qed.

(** adding the amount to the hue *)
Lemma add_amount : forall h hv a x, fin h hv -> 0 <= hv <= 1 -> fin a x -> Rabs x <= 1000 ->
  exists w, fin (fadd h a) w /\ Rabs (w - (hv + x)) <= 512 * u.
Proof.
  intros h hv a x Fh Rh Fa Hx. apply Rabs_le_inv in Hx. pose proof big_1000 as BG.
  exists (rnd (hv + x)). split.
  - apply fadd_spec; auto. apply Rle_trans with 1001; [apply Rabs_le; lra|].
    unfold big. apply Rle_trans with (bpow radix2 10); [simpl; lra|apply bpow_le; lia].
  - assert (B : Rabs (hv + x) < bpow radix2 11) by (change (bpow radix2 11) with 2048; apply Rabs_lt; lra).
    pose proof (rnd_error _ 11 ltac:(lia) B) as E. change (11 - 54)%Z with (9 + -52)%Z in E.
    rewrite bpow_plus, u_bpow in E. change (bpow radix2 9) with 512 in E. exact E.
Qed.

Lemma hue_shift_accurate : forall c a x, color_ok c -> bot (red c) (green c) (blue c) <> top (red c) (green c) (blue c) ->
  fin a x -> Rabs x <= 1000 ->
  let lo := lo_of (red c) (green c) (blue c) in
  let hi := hi_of (red c) (green c) (blue c) in
  let H := true_hue (red c) (green c) (blue c) in
  exists k, hue_shift c a = Ok k /\ c_bg k = c_bg c /\ c_alpha k = fone /\
    truncated_to (red k) (255 * at_hue lo hi (H + x + / 3)) /\
    truncated_to (green k) (255 * at_hue lo hi (H + x)) /\
    truncated_to (blue k) (255 * at_hue lo hi (H + x - / 3)).
Proof.
  intros c a x [Hr [Hg Hb]] NE Fa Hx. cbv zeta. unfold hue_shift. pose proof u_pos as U.
  assert (EC : c_rgb c = (red c, green c, blue c)) by (unfold red, green, blue; destruct (c_rgb c) as [[? ?] ?]; reflexivity).
  rewrite EC. set (r := red c) in *. set (g := green c) in *. set (b := blue c) in *. clearbody r g b.
  destruct (hls_spec r g b Hr Hg Hb NE) as [h [l [s [hv [E [Fh [[Rh [k Hk]] SO]]]]]]]. rewrite E.
  destruct (add_amount h hv a x Fh Rh Fa Hx) as [w [Fw Hw]].
  destruct (fmodpy1_spec _ _ Fw) as [v [Fv [Rv [j Hj]]]].
  assert (HU : hue_of v (true_hue r g b + x) (540 * u)).
  { split; auto. exists (j + k)%Z. rewrite plus_IZR. apply Rabs_le_inv in Hk, Hw, Hj. apply Rabs_le. lra. }
  destruct (hls_to_rgb_spec r g b l s _ v _ _ Hr Hg Hb SO Fv HU ltac:(lra)) as [vr [vg [vb [EV [Ar [Ag Ab]]]]]].
  rewrite EV. destruct (lohi r g b Hr Hg Hb) as [L1 [L2 L3]].
  assert (R01 : forall y, 0 <= at_hue (lo_of r g b) (hi_of r g b) y <= 1).
  { intro y. pose proof (at_hue_range (lo_of r g b) (hi_of r g b) y L1 L2 ltac:(lra)). lra. }
  assert (T : 0 <= 8000 * u <= / 500000000000) by (unfold u in *; lra).
  destruct (fmul255 _ _ _ Ar (R01 _) T) as [zr [Er [Tr Zr]]].
  destruct (fmul255 _ _ _ Ag (R01 _) T) as [zg [Eg [Tg Zg]]].
  destruct (fmul255 _ _ _ Ab (R01 _) T) as [zb [Eb [Tb Zb]]].
  rewrite Er, Eg, Eb. cbn [bindr]. unfold plain_color.
  rewrite new_color_ok by (unfold channel_ok; lia).
  eexists. split; [reflexivity|]. unfold red, green, blue. cbn. auto.
Qed.
