(** Lemmas about the coordinates of an SVG export. *)
From Coq Require Import ZArith List Bool Lia Reals Lra Psatz.
From Flocq Require Import Core IEEE754.BinarySingleNaN.
From Verif Require Import PyBase PyLemmas F64 FloatLemmas BlendSpec BlendProofs DecProofs ColorModel SpanModel ScreenModel SvgGeoModel SvgGeoSpec.
Import ListNotations.
Open Scope R_scope.

(** * Approximation *)
Definition near (x : f64) (v d : R) : Prop := is_finite x = true /\ Rabs (B2R x - v) <= d.
Lemma near_fin : forall x v, fin x v -> near x v 0.
Proof. intros x v [F E]. split; auto. rewrite E. replace (v - v) with 0 by ring. rewrite Rabs_R0. lra. Qed.
Lemma near_weaken : forall x v d d', near x v d -> d <= d' -> near x v d'.
Proof. intros x v d d' [F E] H. split; auto. lra. Qed.
Lemma near_rnd : forall x u v d e, fin x (rnd u) -> Rabs (u - v) <= d -> (-1021 <= e)%Z -> Rabs v + d < bpow radix2 e ->
  near x v (d + bpow radix2 (e - 54)).
Proof.
  intros x u v d e [F E] H He B. split; auto. rewrite E.
  assert (Hu : Rabs u < bpow radix2 e). { pose proof (Rabs_triang (u - v) v) as T. replace (u - v + v) with u in T by ring. lra. }
  pose proof (rnd_error u e He Hu) as R. pose proof (Rabs_triang (rnd u - u) (u - v)) as T.
  replace (rnd u - u + (u - v)) with (rnd u - v) in T by ring. lra.
Qed.
Lemma bpow_big : forall e, (e <= 1023)%Z -> bpow radix2 e <= big.
Proof. intros e H. unfold big. now apply bpow_le. Qed.
Lemma near_add : forall x y a b da db e, near x a da -> near y b db -> (-1021 <= e <= 1023)%Z -> Rabs (a + b) + (da + db) < bpow radix2 e ->
  near (fadd x y) (a + b) (da + db + bpow radix2 (e - 54)).
Proof.
  intros x y a b da db e [Fx Ex] [Fy Ey] He B.
  assert (H : Rabs (B2R x + B2R y - (a + b)) <= da + db).
  { replace (B2R x + B2R y - (a + b)) with ((B2R x - a) + (B2R y - b)) by ring.
    pose proof (Rabs_triang (B2R x - a) (B2R y - b)). lra. }
  apply (near_rnd _ (B2R x + B2R y)); auto; [|lia].
  apply fadd_spec; try (now apply fin_B2R). pose proof (bpow_big e (proj2 He)).
  pose proof (Rabs_triang (B2R x + B2R y - (a + b)) (a + b)) as T. replace (B2R x + B2R y - (a + b) + (a + b)) with (B2R x + B2R y) in T by ring. lra.
Qed.
Lemma near_sub : forall x y a b da db e, near x a da -> near y b db -> (-1021 <= e <= 1023)%Z -> Rabs (a - b) + (da + db) < bpow radix2 e ->
  near (fsub x y) (a - b) (da + db + bpow radix2 (e - 54)).
Proof.
  intros x y a b da db e [Fx Ex] [Fy Ey] He B.
  assert (H : Rabs (B2R x - B2R y - (a - b)) <= da + db).
  { replace (B2R x - B2R y - (a - b)) with ((B2R x - a) + - (B2R y - b)) by ring.
    pose proof (Rabs_triang (B2R x - a) (- (B2R y - b))). rewrite Rabs_Ropp in H. lra. }
  apply (near_rnd _ (B2R x - B2R y)); auto; [|lia].
  apply fsub_spec; try (now apply fin_B2R). pose proof (bpow_big e (proj2 He)).
  pose proof (Rabs_triang (B2R x - B2R y - (a - b)) (a - b)) as T. replace (B2R x - B2R y - (a - b) + (a - b)) with (B2R x - B2R y) in T by ring. lra.
Qed.
Lemma near_mul : forall x y a b da db e, near x a da -> near y b db -> (-1021 <= e <= 1023)%Z -> 
  Rabs (a * b) + (Rabs a * db + Rabs b * da + da * db) < bpow radix2 e ->
  near (fmul x y) (a * b) (Rabs a * db + Rabs b * da + da * db + bpow radix2 (e - 54)).
Proof.
  intros x y a b da db e [Fx Ex] [Fy Ey] He B.
  assert (H : Rabs (B2R x * B2R y - a * b) <= Rabs a * db + Rabs b * da + da * db).
  { replace (B2R x * B2R y - a * b) with (a * (B2R y - b) + (b * (B2R x - a) + (B2R x - a) * (B2R y - b))) by ring.
    eapply Rle_trans; [apply Rabs_triang|]. eapply Rle_trans; [apply Rplus_le_compat_l, Rabs_triang|]. rewrite !Rabs_mult.
    assert (Rabs a * Rabs (B2R y - b) <= Rabs a * db) by (apply Rmult_le_compat_l; [apply Rabs_pos|exact Ey]).
    assert (Rabs b * Rabs (B2R x - a) <= Rabs b * da) by (apply Rmult_le_compat_l; [apply Rabs_pos|exact Ex]).
    assert (Rabs (B2R x - a) * Rabs (B2R y - b) <= da * db) by (apply Rmult_le_compat; auto; apply Rabs_pos). lra. }
  apply (near_rnd _ (B2R x * B2R y)); auto; [|lia].
  apply fmul_spec; try (now apply fin_B2R). pose proof (bpow_big e (proj2 He)).
  pose proof (Rabs_triang (B2R x * B2R y - a * b) (a * b)) as T. replace (B2R x * B2R y - a * b + a * b) with (B2R x * B2R y) in T by ring. lra.
Qed.

(** * round(x, n) *)
Lemma half_even_near : forall a b, (0 <= a)%Z -> (0 < b)%Z -> Rabs (IZR (half_even a b) - IZR a / IZR b) <= / 2 /\ (0 <= half_even a b)%Z.
Proof.
  intros a b Ha Hb. unfold half_even. pose proof (Z.div_mod a b ltac:(lia)) as D. pose proof (Z.mod_pos_bound a b Hb) as M.
  pose proof (Z.div_pos a b Ha Hb) as Q. set (q := (a / b)%Z) in *. set (r := (a mod b)%Z) in *.
  assert (B : 0 < IZR b) by (now apply IZR_lt).
  assert (E : IZR a / IZR b = IZR q + IZR r / IZR b) by (rewrite D, plus_IZR, mult_IZR; field; lra).
  assert (R0 : 0 <= IZR r / IZR b). { apply Rmult_le_pos; [apply IZR_le; lia|]. apply Rlt_le, Rinv_0_lt_compat, B. }
  assert (Up : forall k, (2 * r <= k * b)%Z -> IZR r / IZR b <= IZR k / 2).
  { intros k H. apply IZR_le in H. rewrite !mult_IZR in H. apply Rmult_le_reg_r with (IZR b); auto. replace (IZR r / IZR b * IZR b) with (IZR r) by (field; lra). lra. }
  assert (Lo : (b <= 2 * r)%Z -> / 2 <= IZR r / IZR b).
  { intros H. apply IZR_le in H. rewrite !mult_IZR in H. apply Rmult_le_reg_r with (IZR b); auto. replace (IZR r / IZR b * IZR b) with (IZR r) by (field; lra). lra. }
  pose proof (Up 2%Z ltac:(lia)) as U2. rewrite E.
  destruct (2 * r <? b)%Z eqn:C1; [|destruct (b <? 2 * r)%Z eqn:C2; [|destruct (Z.even q)]].
  - apply Z.ltb_lt in C1. specialize (Up 1%Z ltac:(lia)). split; [|lia]. apply Rabs_le. lra.
  - apply Z.ltb_ge in C1. specialize (Lo C1). split; [|lia]. rewrite plus_IZR. apply Rabs_le. lra.
  - apply Z.ltb_ge in C1, C2. specialize (Up 1%Z ltac:(lia)). split; [|lia]. apply Rabs_le. lra.
  - apply Z.ltb_ge in C1. specialize (Lo C1). split; [|lia]. rewrite plus_IZR. apply Rabs_le. lra.
Qed.
Lemma fround_near : forall x a d e, fin x a -> 0 <= a -> (1 <= d)%Z -> (1 <= e <= 1023)%Z -> a + / 2 < bpow radix2 e ->
  near (fround x d) a (/ 2 / IZR d + bpow radix2 (e - 54)).
Proof.
  intros x a d e [Fx Ex] Ha Hd He B.
  assert (Dp : 1 <= IZR d) by (now apply IZR_le).
  assert (K : exists q, fround x d = fratio q d /\ (0 <= q)%Z /\ Rabs (IZR q - a * IZR d) <= / 2).
  { destruct x as [s|s| |s m ex Hx]; try discriminate.
    - exists 0%Z. cbn in Ex. subst a. unfold fround. cbn [fexact]. change (Z.abs 0) with 0%Z. change (0 <=? 0)%Z with true. cbv iota. rewrite !Z.mul_0_l.
      split; [reflexivity|]. split; [lia|]. rewrite Rmult_0_l, Rminus_0_r, Rabs_R0. lra.
    - destruct s. { exfalso. cbn [B2R] in Ex. assert (B2R (B754_finite true m ex Hx) < 0) by (cbn [B2R]; apply F2R_lt_0; reflexivity). cbn [B2R] in H. lra. }
      cbn [B2R] in Ex. unfold F2R in Ex. cbn [Fnum Fexp cond_Zopp] in Ex.
      unfold fround. cbn [fexact]. change (Z.pos m <? 0)%Z with false. cbv iota. change (Z.abs (Z.pos m)) with (Z.pos m).
      eexists. split; [reflexivity|]. destruct (0 <=? ex)%Z eqn:C.
      + apply Z.leb_le in C. split; [apply Z.mul_nonneg_nonneg; [lia|apply Z.pow_nonneg; lia]|].
        rewrite !mult_IZR, (IZR_Zpower radix2) by lia. rewrite <- Ex. replace (_ - _) with 0 by ring. rewrite Rabs_R0. lra.
      + apply Z.leb_gt in C. destruct (half_even_near (Z.pos m * d) (2 ^ (- ex)) ltac:(lia) ltac:(apply Z.pow_pos_nonneg; lia)) as [H1 H2].
        split; auto. rewrite mult_IZR, (IZR_Zpower radix2) in H1 by lia. rewrite bpow_opp in H1.
        replace (IZR (Z.pos m) * IZR d / / bpow radix2 ex) with (a * IZR d) in H1; auto. rewrite <- Ex. field.
        pose proof (bpow_gt_0 radix2 ex). lra. }
  destruct K as [q [-> [Hq Hn]]].
  assert (H : Rabs (IZR q / IZR d - a) <= / 2 / IZR d).
  { replace (IZR q / IZR d - a) with ((IZR q - a * IZR d) * / IZR d) by (field; lra). rewrite Rabs_mult.
    rewrite (Rabs_pos_eq (/ IZR d)) by (apply Rlt_le, Rinv_0_lt_compat; lra).
    apply Rmult_le_compat_r; [apply Rlt_le, Rinv_0_lt_compat; lra|exact Hn]. }
  assert (Hd2 : / 2 / IZR d <= / 2).
  { apply Rmult_le_reg_r with (IZR d); [lra|]. replace (/ 2 / IZR d * IZR d) with (/ 2) by (field; lra). lra. }
  apply (near_rnd _ (IZR q / IZR d)); auto; [|lia|rewrite (Rabs_pos_eq a Ha); lra].
  apply fratio_spec; auto; [lia|]. pose proof (bpow_big e (proj2 He)). apply Rabs_le_inv in H. lra.
Qed.
Lemma near_round : forall x v d k e, near x v d -> 0 <= B2R x -> (1 <= k)%Z -> (1 <= e <= 1023)%Z -> v + d + / 2 < bpow radix2 e ->
  near (fround x k) v (d + / 2 / IZR k + bpow radix2 (e - 54)).
Proof.
  intros x v d k e [F E] V K He B. apply Rabs_le_inv in E.
  destruct (fround_near x (B2R x) k e (fin_B2R x F) ltac:(lra) K He ltac:(lra)) as [F2 E2].
  split; auto. apply Rabs_le_inv in E2. apply Rabs_le. lra.
Qed.

(** * Constants *)
Definition d40 : R := / 1099511627776.
Definition d29 : R := / 536870912.
Lemma p54 : bpow radix2 (-54) = / 18014398509481984. Proof. reflexivity. Qed.
Lemma p53 : bpow radix2 (-53) = / 9007199254740992. Proof. reflexivity. Qed.
Lemma p44 : bpow radix2 (-44) = / 17592186044416. Proof. reflexivity. Qed.
Lemma p43 : bpow radix2 (-43) = / 8796093022208. Proof. reflexivity. Qed.
Lemma p41 : bpow radix2 (-41) = / 2199023255552. Proof. reflexivity. Qed.
Lemma p31 : bpow radix2 (-31) = / 2147483648. Proof. reflexivity. Qed.
Lemma p30 : bpow radix2 (-30) = / 1073741824. Proof. reflexivity. Qed.
Lemma q0 : bpow radix2 0 = 1. Proof. reflexivity. Qed.
Lemma q1 : bpow radix2 1 = 2. Proof. reflexivity. Qed.
Lemma q10 : bpow radix2 10 = 1024. Proof. reflexivity. Qed.
Lemma q11 : bpow radix2 11 = 2048. Proof. reflexivity. Qed.
Lemma q13 : bpow radix2 13 = 8192. Proof. reflexivity. Qed.
Lemma q23 : bpow radix2 23 = 8388608. Proof. reflexivity. Qed.
Lemma q24 : bpow radix2 24 = 16777216. Proof. reflexivity. Qed.

Lemma near_lit : forall n d e, (Z.abs n < 2 ^ 53)%Z -> (0 < d < 2 ^ 53)%Z -> 0 <= IZR n / IZR d < bpow radix2 e -> (-1021 <= e <= 1023)%Z ->
  near (flit n d) (IZR n / IZR d) (bpow radix2 (e - 54)).
Proof.
  intros n d e Hn Hd H He. eapply near_weaken; [apply (near_rnd (flit n d) (IZR n / IZR d) (IZR n / IZR d) 0 e)|lra].
  - apply flit_spec; auto. pose proof (bpow_big e (proj2 He)). rewrite Rabs_pos_eq; lra.
  - replace (_ - _) with 0 by ring. rewrite Rabs_R0. lra.
  - lia.
  - rewrite Rabs_pos_eq; lra.
Qed.
Lemma near_int : forall z, (Z.abs z < 2 ^ 53)%Z -> near (fofZ z) (IZR z) 0.
Proof. intros z H. now apply near_fin, fofZ_spec. Qed.

Lemma width_lit : near SVG_CHAR_WIDTH em_width (bpow radix2 (-54)).
Proof. apply (near_lit 60167 100000 0); try lia. rewrite q0. lra. Qed.
Lemma height_lit : near SVG_CHAR_HEIGHT em_height (bpow radix2 (-53)).
Proof. apply (near_lit 1265 1000 1); try lia. rewrite q1. lra. Qed.

Section Font.
Variable fs : Z.
Hypothesis Hfs : font fs.
Let F : R := IZR fs.
Lemma F_bounds : 1 <= F <= 1024.
Proof. unfold F, font in *. split; apply IZR_le; lia. Qed.
Lemma fs_near : near (fofZ fs) F 0.
Proof. apply near_int. unfold font in *. lia. Qed.

(** the font size times a number known up to 2^-51 *)
Lemma scaled : forall c k d, near c k d -> 0 <= k < 19 / 10 -> 0 <= d <= / 2251799813685248 -> near (fmul (fofZ fs) c) (F * k) d40.
Proof.
  intros c k d H K D. pose proof F_bounds as B.
  eapply near_weaken; [apply (near_mul _ _ F k 0 d 11 fs_near H); [lia|]|].
  - rewrite q11, !Rabs_pos_eq by nra. nra.
  - change (11 - 54)%Z with (-43)%Z. rewrite p43, (Rabs_pos_eq F), (Rabs_pos_eq k) by lra. unfold d40. nra.
Qed.
Lemma scaled_r : forall c k d, near c k d -> 0 <= k < 19 / 10 -> 0 <= d <= / 2251799813685248 -> near (fmul c (fofZ fs)) (k * F) d40.
Proof.
  intros c k d H K D. pose proof F_bounds as B.
  eapply near_weaken; [apply (near_mul _ _ k F d 0 11 H fs_near); [lia|]|].
  - rewrite q11, !Rabs_pos_eq by nra. nra.
  - change (11 - 54)%Z with (-43)%Z. rewrite p43, (Rabs_pos_eq F), (Rabs_pos_eq k) by lra. unfold d40. nra.
Qed.
Lemma char_width_near : near (fmul (fofZ fs) SVG_CHAR_WIDTH) (F * em_width) d40.
Proof. eapply scaled; [apply width_lit|unfold em_width; lra|rewrite p54; lra]. Qed.
Lemma char_height_near : near (fmul (fofZ fs) SVG_CHAR_HEIGHT) (F * em_height) d40.
Proof. eapply scaled; [apply height_lit|unfold em_height; lra|rewrite p53; lra]. Qed.
Lemma rect_lit : near SVG_RECT_HEIGHT (13662 / 10000) (/ 2251799813685248).
Proof.
  assert (N : near (flit 108 100) (108 / 100) (bpow radix2 (1 - 54))) by (apply near_lit; try lia; rewrite q1; lra).
  change (1 - 54)%Z with (-53)%Z in N. rewrite p53 in N.
  pose proof height_lit as H. rewrite p53 in H. replace (13662 / 10000) with (em_height * (108 / 100)) by (unfold em_height; field).
  eapply near_weaken; [apply (near_mul _ _ _ _ _ _ 1 H N); [lia|]|].
  - rewrite q1. unfold em_height. rewrite !Rabs_pos_eq; lra.
  - change (1 - 54)%Z with (-53)%Z. rewrite p53. unfold em_height. rewrite !Rabs_pos_eq; lra.
Qed.
Lemma char_width4 : near (fround (fmul (fofZ fs) SVG_CHAR_WIDTH) 10000) (F * em_width) (501 / 10000000).
Proof.
  pose proof F_bounds as B. pose proof char_width_near as C. destruct C as [C1 C2]. pose proof (Rabs_le_inv _ _ C2) as C3. unfold em_width, d40 in *.
  eapply near_weaken; [apply (near_round _ _ _ 10000 10 (conj C1 C2)); try lia|].
  - lra.
  - rewrite q10. lra.
  - change (10 - 54)%Z with (-44)%Z. rewrite p44. lra.
Qed.
Lemma rect_height4 : near (fround (fmul (fofZ fs) SVG_RECT_HEIGHT) 10000) (F * (13662 / 10000)) (501 / 10000000).
Proof.
  pose proof F_bounds as B.
  assert (C : near (fmul (fofZ fs) SVG_RECT_HEIGHT) (F * (13662 / 10000)) d40) by (eapply scaled; [apply rect_lit|lra|lra]).
  destruct C as [C1 C2]. pose proof (Rabs_le_inv _ _ C2) as C3. unfold d40 in *.
  eapply near_weaken; [apply (near_round _ _ _ 10000 11 (conj C1 C2)); try lia|].
  - lra.
  - rewrite q11. lra.
  - change (11 - 54)%Z with (-43)%Z. rewrite p43. lra.
Qed.
Lemma offset_near : forall t, near (if is_block t then fzero else fmul SVG_RECT_BASELINE_OFFSET (fofZ fs)) (raise fs t) d40.
Proof.
  intro t. unfold raise. change (all_blocks t) with (is_block t). destruct (is_block t).
  - apply near_weaken with 0; [apply near_fin; split; reflexivity|unfold d40; lra].
  - assert (N : near SVG_RECT_BASELINE_OFFSET (17 / 100) (bpow radix2 (0 - 54))) by (apply near_lit; try lia; rewrite q0; lra).
    change (0 - 54)%Z with (-54)%Z in N. rewrite p54 in N. eapply scaled_r; [exact N|lra|lra].
Qed.

(** * Moving along a row and down the rows *)
Definition at_column (x : f64) (n : Z) : Prop := near x (IZR n * (F * em_width)) (IZR n * d29).
Definition at_line (y : f64) (r : Z) : Prop := near y (IZR r * (F * em_height)) (IZR r * d29).
Lemma at_start : forall f, near fzero (IZR 0 * f) (IZR 0 * d29).
Proof. intro f. rewrite !Rmult_0_l. apply near_fin. split; reflexivity. Qed.
Lemma next_column : forall x n len, at_column x n -> (0 <= n)%Z -> (0 <= len)%Z -> (n + len <= 8192)%Z ->
  at_column (fadd x (fmul (fofZ len) (fmul (fofZ fs) SVG_CHAR_WIDTH))) (n + len).
Proof.
  intros x n len H Hn Hl Hs. pose proof F_bounds as B. pose proof char_width_near as C. unfold at_column in *.
  destruct (Z.eq_dec len 0) as [->|L0].
  - destruct C as [C1 C2]. rewrite Z.add_0_r. destruct H as [H1 H2].
    assert (M : fin (fmul (fofZ 0) (fmul (fofZ fs) SVG_CHAR_WIDTH)) 0).
    { pose proof (fmul_spec (fofZ 0) (fmul (fofZ fs) SVG_CHAR_WIDTH) 0 _ (fofZ_spec 0 ltac:(lia)) (fin_B2R _ C1)) as M.
      rewrite Rmult_0_l, rnd_0 in M. apply M. rewrite Rabs_R0. apply bpow_ge_0. }
    assert (A : fin (fadd x (fmul (fofZ 0) (fmul (fofZ fs) SVG_CHAR_WIDTH))) (B2R x)).
    { assert (Bx : Rabs (B2R x + 0) <= big).
      { rewrite Rplus_0_r. apply IZR_le in Hn. assert (IZR n <= 8192) by (apply IZR_le; lia). pose proof (bpow_big 24 ltac:(lia)) as BB. rewrite q24 in BB.
        apply Rabs_le_inv in H2. unfold em_width, d29 in H2. apply Rabs_le. nra. }
      pose proof (fadd_spec x _ (B2R x) 0 (fin_B2R x H1) M Bx) as A.
      rewrite Rplus_0_r, rnd_id in A by apply fmt_B2R. exact A. }
    destruct A as [A1 A2]. split; auto. rewrite A2. exact H2.
  - assert (L1 : 1 <= IZR len) by (apply IZR_le; lia). assert (N0 : 0 <= IZR n) by (now apply IZR_le).
    assert (S : IZR n + IZR len <= 8192) by (rewrite <- plus_IZR; now apply IZR_le).
    assert (M : near (fmul (fofZ len) (fmul (fofZ fs) SVG_CHAR_WIDTH)) (IZR len * (F * em_width)) (IZR len * d40 + / 2147483648)).
    { eapply near_weaken; [apply (near_mul _ _ (IZR len) (F * em_width) 0 d40 23 (near_int len ltac:(lia)) C); [lia|]|].
      - rewrite q23. unfold em_width, d40. rewrite !Rabs_pos_eq by nra. nra.
      - change (23 - 54)%Z with (-31)%Z. rewrite p31, (Rabs_pos_eq (IZR len)) by lra. lra. }
    rewrite plus_IZR. rewrite Rmult_plus_distr_r.
    eapply near_weaken; [apply (near_add _ _ _ _ _ _ 23 H M); [lia|]|].
    + rewrite q23. unfold em_width, d40, d29. rewrite Rabs_pos_eq by nra. nra.
    + change (23 - 54)%Z with (-31)%Z. rewrite p31. unfold d40, d29. lra.
Qed.
Lemma next_line : forall y r, at_line y r -> (0 <= r < 8192)%Z -> at_line (fadd y (fmul (fofZ fs) SVG_CHAR_HEIGHT)) (r + 1).
Proof.
  intros y r H Hr. pose proof F_bounds as B. pose proof char_height_near as C. unfold at_line in *.
  assert (R0 : 0 <= IZR r <= 8191) by (split; apply IZR_le; lia).
  rewrite plus_IZR, !Rmult_plus_distr_r, !Rmult_1_l.
  eapply near_weaken; [apply (near_add _ _ _ _ _ _ 24 H C); [lia|]|].
  - rewrite q24. unfold em_height, d40, d29. rewrite Rabs_pos_eq by nra. nra.
  - change (24 - 54)%Z with (-30)%Z. rewrite p30. unfold d40, d29. lra.
Qed.

(** * Shapes *)
Definition shaped_at (p : shape) (n r : Z) (t : str) : Prop :=
  finite_shape p /\
  Rabs (left_edge p - IZR n * (F * em_width)) <= 51 / 10000 /\
  Rabs (B2R (sh_width p) - (IZR (zlen t) * (F * em_width) + / 2)) <= IZR (zlen t) * (501 / 10000000) + 51 / 10000 /\
  Rabs (top_edge p - (IZR r * (F * em_height) - raise fs t)) <= 51 / 10000 /\
  Rabs (B2R (sh_height p) - F * (13662 / 10000)) <= 1 / 10000 /\
  Rabs (B2R (sh_text_y p) - (IZR r * (F * em_height) + F)) <= 51 / 10000.
Lemma near_nonneg : forall x v d, near x v d -> 0 <= v - d -> 0 <= B2R x.
Proof. intros x v d [_ H] D. apply Rabs_le_inv in H. lra. Qed.
Lemma shape_spec : forall x y n r t, at_column x n -> at_line y r -> (0 <= n)%Z -> (n + zlen t <= 8192)%Z -> (0 <= r <= 8191)%Z ->
  shaped_at (span_shape fs x y t) n r t.
Proof.
  intros x y n r t Hx Hy Hn Hl Hr. pose proof F_bounds as B. pose proof (zlen_nonneg _ t) as Z0.
  assert (N0 : 0 <= IZR n <= 8192) by (split; apply IZR_le; lia). assert (R0 : 0 <= IZR r <= 8191) by (split; apply IZR_le; lia).
  assert (L0 : 0 <= IZR (zlen t) <= 8192) by (split; apply IZR_le; lia).
  assert (FW : 0 <= F * em_width <= 617) by (unfold em_width; lra). assert (FH : 0 <= F * em_height <= 1296) by (unfold em_height; lra).
  assert (X : near (fround x 100) (IZR n * (F * em_width)) (505 / 100000)).
  { eapply near_weaken; [apply (near_round _ _ _ 100 24 Hx); try lia|].
    - apply (near_nonneg _ _ _ Hx). rewrite <- Rmult_minus_distr_l. apply Rmult_le_pos; [lra|]. unfold em_width, d29. lra.
    - rewrite q24. unfold d29. nra.
    - change (24 - 54)%Z with (-30)%Z. rewrite p30. unfold d29. lra. }
  assert (Y : near (fround y 100) (IZR r * (F * em_height)) (505 / 100000)).
  { eapply near_weaken; [apply (near_round _ _ _ 100 24 Hy); try lia|].
    - apply (near_nonneg _ _ _ Hy). rewrite <- Rmult_minus_distr_l. apply Rmult_le_pos; [lra|]. unfold em_height, d29. lra.
    - rewrite q24. unfold d29. nra.
    - change (24 - 54)%Z with (-30)%Z. rewrite p30. unfold d29. lra. }
  pose proof (offset_near t) as O. pose proof rect_height4 as H4. pose proof char_width4 as W4.
  assert (Ra : 0 <= raise fs t <= 175). { unfold raise. fold F. destruct (all_blocks t); lra. }
  assert (T : near (fsub (fround y 100) (if is_block t then fzero else fmul SVG_RECT_BASELINE_OFFSET (fofZ fs))) (IZR r * (F * em_height) - raise fs t) (51 / 10000)).
  { eapply near_weaken; [apply (near_sub _ _ _ _ _ _ 24 Y O); [lia|]|].
    - rewrite q24. apply Rle_lt_trans with (IZR r * (F * em_height) + 175 + (505 / 100000 + d40)).
      + apply Rplus_le_compat_r. apply Rabs_le. nra.
      + unfold d40. nra.
    - change (24 - 54)%Z with (-30)%Z. rewrite p30. unfold d40. lra. }
  assert (V : near (fadd (fround y 100) (fofZ fs)) (IZR r * (F * em_height) + F) (51 / 10000)).
  { eapply near_weaken; [apply (near_add _ _ _ _ _ _ 24 Y fs_near); [lia|]|].
    - rewrite q24. rewrite Rabs_pos_eq by nra. nra.
    - change (24 - 54)%Z with (-30)%Z. rewrite p30. lra. }
  assert (M : near (fmul (fround (fmul (fofZ fs) SVG_CHAR_WIDTH) 10000) (fofZ (zlen t))) (IZR (zlen t) * (F * em_width)) (IZR (zlen t) * (501 / 10000000) + / 2147483648)).
  { rewrite (Rmult_comm (IZR (zlen t)) (F * em_width)).
    eapply near_weaken; [apply (near_mul _ _ (F * em_width) (IZR (zlen t)) (501 / 10000000) 0 23 W4 (near_int (zlen t) ltac:(lia))); [lia|]|].
    - rewrite q23. rewrite !Rabs_pos_eq by nra. nra.
    - change (23 - 54)%Z with (-31)%Z. rewrite p31, (Rabs_pos_eq (IZR (zlen t))) by lra. lra. }
  assert (Hf : near (flit 1 2) (/ 2) 0).
  { replace (/ 2) with (1 / 2) by lra. apply near_fin. pose proof half_fin as K. rewrite (rnd_id (1 / 2)) in K; auto. apply (fmt_dyad 1 1); lia. }
  assert (S : near (fadd (fmul (fround (fmul (fofZ fs) SVG_CHAR_WIDTH) 10000) (fofZ (zlen t))) (flit 1 2)) (IZR (zlen t) * (F * em_width) + / 2)
     (IZR (zlen t) * (501 / 10000000) + / 1073741824)).
  { eapply near_weaken; [apply (near_add _ _ _ _ _ _ 23 M Hf); [lia|]|].
    - rewrite q23. rewrite Rabs_pos_eq by nra. nra.
    - change (23 - 54)%Z with (-31)%Z. rewrite p31. lra. }
  assert (Wd : near (fround (fadd (fmul (fround (fmul (fofZ fs) SVG_CHAR_WIDTH) 10000) (fofZ (zlen t))) (flit 1 2)) 100) (IZR (zlen t) * (F * em_width) + / 2)
     (IZR (zlen t) * (501 / 10000000) + 51 / 10000)).
  { eapply near_weaken; [apply (near_round _ _ _ 100 23 S); try lia|].
    - apply (near_nonneg _ _ _ S). unfold em_width. nra.
    - rewrite q23. nra.
    - change (23 - 54)%Z with (-31)%Z. rewrite p31. lra. }
  unfold shaped_at, finite_shape, left_edge, top_edge, span_shape. cbn [sh_x sh_y sh_width sh_height sh_text_y].
  destruct X as [X1 X2], T as [T1 T2], V as [V1 V2], Wd as [W1 W2], H4 as [H41 H42].
  split; [auto|]. split; [lra|]. split; [exact W2|]. split; [exact T2|]. split; [lra|exact V2].
Qed.

Lemma letters_nonneg : forall l, (0 <= letters_in l)%Z.
Proof. induction l as [|s l IH]; cbn; [lia|]. pose proof (zlen_nonneg _ (s_text s)). fold (letters_in l). lia. Qed.
Lemma letters_app : forall a b, letters_in (a ++ b) = (letters_in a + letters_in b)%Z.
Proof. induction a as [|s a IH]; intro b; auto. cbn [app letters_in fold_right]. fold (letters_in (a ++ b)) (letters_in a). rewrite IH. lia. Qed.
Lemma row_spec : forall spans x y n r, at_column x n -> at_line y r -> (0 <= n)%Z -> (n + letters_in spans <= 8192)%Z -> (0 <= r <= 8191)%Z ->
  forall a s b, spans = a ++ s :: b -> exists p, nth_error (row_shapes fs x y spans) (List.length a) = Some p /\ shaped_at p (n + letters_in a) r (s_text s).
Proof.
  induction spans as [|s0 spans IH]; intros x y n r Hx Hy Hn Hl Hr a s b E; [destruct a; discriminate|].
  cbn [letters_in fold_right] in Hl. fold (letters_in spans) in Hl. pose proof (zlen_nonneg _ (s_text s0)) as Z0. pose proof (letters_nonneg spans) as L0.
  destruct a as [|a0 a]; cbn [app] in E; injection E as -> E.
  - cbn [row_shapes List.length nth_error letters_in fold_right]. eexists. split; [reflexivity|]. rewrite Z.add_0_r. apply shape_spec; auto. lia.
  - cbn [row_shapes List.length nth_error letters_in fold_right]. fold (letters_in a).
    destruct (IH (fadd x (fmul (fofZ (span_len a0)) (fmul (fofZ fs) SVG_CHAR_WIDTH))) y (n + zlen (s_text a0))%Z r) with (a := a) (s := s) (b := b) as [p [P1 P2]]; auto; try lia.
    + apply next_column; auto. unfold span_len. lia.
    + exists p. split; auto. replace (n + (zlen (s_text a0) + letters_in a))%Z with (n + zlen (s_text a0) + letters_in a)%Z by lia. exact P2.
Qed.
Lemma rows_spec : forall e rows y k ps, at_line y k -> (0 <= k)%Z -> rows_shapes e fs y rows = Ok ps ->
  forall r row l, nth_error rows (Z.to_nat r) = Some row -> (0 <= r)%Z -> (k + r <= 8191)%Z -> group e row = Ok l -> (letters_in l <= 8192)%Z ->
  forall a s b, l = a ++ s :: b -> exists p, shape_at ps r (List.length a) = Some p /\ shaped_at p (letters_in a) (k + r) (s_text s).
Proof.
  intros e rows. induction rows as [|row0 rows IH]; intros y k ps Hy Hk H r row l Hr R0 Rk G L a s b E; [destruct (Z.to_nat r); discriminate|].
  cbn [rows_shapes] in H. unfold bindr in H. destruct (group e row0) as [spans|] eqn:G0; [|discriminate].
  destruct (rows_shapes e fs (fadd y (fmul (fofZ fs) SVG_CHAR_HEIGHT)) rows) as [rs|] eqn:RS; [|discriminate]. injection H as <-.
  unfold shape_at. destruct (Z.to_nat r) as [|r'] eqn:Er; cbn [nth_error] in Hr |- *.
  - injection Hr as ->. assert (r = 0)%Z by lia. subst r. rewrite G in G0. injection G0 as <-. rewrite Z.add_0_r.
    destruct (row_spec l fzero y 0 k (at_start _) Hy ltac:(lia) ltac:(lia) ltac:(lia) a s b E) as [p [P1 P2]]. exists p. auto.
  - destruct (IH (fadd y (fmul (fofZ fs) SVG_CHAR_HEIGHT)) (k + 1)%Z rs (next_line y k Hy ltac:(lia)) ltac:(lia) RS (r - 1)%Z row l) with (a := a) (s := s) (b := b) as [p [P1 P2]]; auto; try lia.
    + replace (Z.to_nat (r - 1)) with r' by lia. exact Hr.
    + exists p. unfold shape_at in P1. replace (Z.to_nat (r - 1)) with r' in P1 by lia. split; auto.
      replace (k + r)%Z with (k + 1 + (r - 1))%Z by lia. exact P2.
Qed.
Lemma export_shape : forall e s ps r l a sp b, export_shapes e s fs = Ok ps -> row_groups e s r l -> (r <= 8191)%Z -> (letters_in l <= 8192)%Z ->
  l = a ++ sp :: b -> exists p, shape_at ps r (List.length a) = Some p /\ shaped_at p (letters_in a) r (s_text sp).
Proof.
  intros e s ps r l a sp b H [R0 [row [N G]]] Hr L E. eapply (rows_spec e (sc_cells s) fzero 0 ps (at_start _)); eauto; lia.
Qed.
End Font.

(** * Statements *)
Lemma all_blocks_iff : forall t, all_blocks t = true <-> blocks t.
Proof.
  intro t. unfold all_blocks, blocks. rewrite forallb_forall, Forall_forall. split; intros H c Hc; specialize (H c Hc).
  - apply andb_prop in H. destruct H as [A B]. apply Z.leb_le in A, B. lia.
  - apply andb_true_iff. rewrite !Z.leb_le. exact H.
Qed.
Lemma raise_blocks : forall fs t, blocks t -> raise fs t = 0.
Proof. intros fs t H. unfold raise. apply all_blocks_iff in H. now rewrite H. Qed.
Lemma raise_text : forall fs t, ~ blocks t -> raise fs t = 17 / 100 * IZR fs.
Proof. intros fs t H. unfold raise. destruct (all_blocks t) eqn:E; auto. apply all_blocks_iff in E. contradiction. Qed.
Lemma raise_bounds : forall fs t, font fs -> 0 <= raise fs t <= 17 / 100 * IZR fs.
Proof. intros fs t H. pose proof (F_bounds fs H). unfold raise. destruct (all_blocks t); lra. Qed.

Lemma geo_position : forall e s fs ps r l a sp b, font fs -> export_shapes e s fs = Ok ps -> row_groups e s r l -> (r < 8192)%Z -> (letters_in l <= 8192)%Z ->
  l = a ++ sp :: b -> exists p, shape_at ps r (List.length a) = Some p /\ finite_shape p /\
    Rabs (left_edge p - IZR (letters_in a) * (IZR fs * em_width)) <= / 100 /\
    Rabs (top_edge p - (IZR r * (IZR fs * em_height) - raise fs (s_text sp))) <= / 100 /\
    Rabs (B2R (sh_text_y p) - (IZR r * (IZR fs * em_height) + IZR fs)) <= / 100.
Proof.
  intros e s fs ps r l a sp b Hf H G R L E. destruct (export_shape fs Hf e s ps r l a sp b H G ltac:(lia) L E) as [p [P1 [P2 [P3 [P4 [P5 [P6 P7]]]]]]].
  exists p. split; auto. split; auto. repeat split; lra.
Qed.
Lemma geo_row : forall e s fs ps r l a s1 s2 b, font fs -> export_shapes e s fs = Ok ps -> row_groups e s r l -> (r < 8192)%Z -> (letters_in l <= 8192)%Z ->
  l = a ++ s1 :: s2 :: b -> exists p q, shape_at ps r (List.length a) = Some p /\ shape_at ps r (S (List.length a)) = Some q /\
    left_edge q <= right_edge p <= left_edge q + 1.
Proof.
  intros e s fs ps r l a s1 s2 b Hf H G R L E.
  destruct (export_shape fs Hf e s ps r l a s1 (s2 :: b) H G ltac:(lia) L E) as [p [P1 [P2 [P3 [P4 _]]]]].
  destruct (export_shape fs Hf e s ps r l (a ++ [s1]) s2 b H G ltac:(lia) L) as [q [Q1 [Q2 [Q3 _]]]]; [rewrite <- app_assoc; exact E|].
  exists p, q. split; auto. rewrite app_length, Nat.add_1_r in Q1. split; auto.
  assert (Ls : (0 <= zlen (s_text s1) <= 8192)%Z).
  { subst l. rewrite letters_app in L. cbn [letters_in fold_right] in L. fold (letters_in b) in L.
    pose proof (letters_nonneg a). pose proof (letters_nonneg b). pose proof (zlen_nonneg _ (s_text s1)). pose proof (zlen_nonneg _ (s_text s2)). lia. }
  assert (IL : 0 <= IZR (zlen (s_text s1)) <= 8192) by (split; apply IZR_le; lia).
  rewrite letters_app in Q3. cbn [letters_in fold_right] in Q3. rewrite Z.add_0_r, plus_IZR, Rmult_plus_distr_r in Q3.
  apply Rabs_le_inv in P3, P4, Q3. unfold right_edge, left_edge in *. lra.
Qed.
Lemma geo_rows : forall e s fs ps r l a s1 b l' a' s2 b', font fs -> export_shapes e s fs = Ok ps -> row_groups e s r l -> row_groups e s (r + 1) l' ->
  (r + 1 < 8192)%Z -> (letters_in l <= 8192)%Z -> (letters_in l' <= 8192)%Z -> l = a ++ s1 :: b -> l' = a' ++ s2 :: b' ->
  exists p q, shape_at ps r (List.length a) = Some p /\ shape_at ps (r + 1) (List.length a') = Some q /\
    (blocks (s_text s1) \/ ~ blocks (s_text s2) -> top_edge q < bottom_edge p) /\
    (~ blocks (s_text s1) -> blocks (s_text s2) -> bottom_edge p + IZR fs / 20 < top_edge q).
Proof.
  intros e s fs ps r l a s1 b l' a' s2 b' Hf H G G' R L L' E E'.
  destruct (export_shape fs Hf e s ps r l a s1 b H G ltac:(lia) L E) as [p [P1 [P2 [P3 [P4 [P5 [P6 _]]]]]]].
  destruct (export_shape fs Hf e s ps (r + 1) l' a' s2 b' H G' ltac:(lia) L' E') as [q [Q1 [Q2 [Q3 [Q4 [Q5 _]]]]]].
  exists p, q. split; auto. split; auto. pose proof (F_bounds fs Hf) as B.
  rewrite plus_IZR, Rmult_plus_distr_r in Q5. apply Rabs_le_inv in P5, P6, Q5. unfold bottom_edge, top_edge, em_height in *.
  pose proof (raise_bounds fs (s_text s1) Hf) as B1. pose proof (raise_bounds fs (s_text s2) Hf) as B2. split.
  - intros [Hb|Hb]; [rewrite (raise_blocks fs _ Hb) in *|rewrite (raise_text fs _ Hb) in *]; lra.
  - intros H1 H2. rewrite (raise_text fs _ H1) in *. rewrite (raise_blocks fs _ H2) in *. lra.
Qed.

Lemma total_near : forall n fs c k d, font fs -> extent n -> near c k d -> 0 <= k < 19 / 10 -> 0 <= d <= / 2251799813685248 ->
  near (fadd (fmul (fmul (fofZ n) c) (fofZ fs)) (fofZ 32)) (IZR n * (IZR fs * k) + 32) (/ 1000000).
Proof.
  intros n fs c k d Hf Hn C K D. pose proof (F_bounds fs Hf) as B. unfold extent in Hn.
  assert (N0 : 0 <= IZR n <= 8192) by (split; apply IZR_le; lia).
  assert (NK : 0 <= IZR n * k <= 15565) by nra.
  assert (M : near (fmul (fofZ n) c) (IZR n * k) (/ 137438953472)).
  { eapply near_weaken; [apply (near_mul _ _ _ _ _ _ 14 (near_int n ltac:(lia)) C); [lia|]|].
    - change (bpow radix2 14) with 16384. rewrite !Rabs_pos_eq by lra. nra.
    - change (14 - 54)%Z with (-40)%Z. change (bpow radix2 (-40)) with (/ 1099511627776). rewrite !Rabs_pos_eq by lra. nra. }
  assert (M2 : near (fmul (fmul (fofZ n) c) (fofZ fs)) (IZR n * (IZR fs * k)) (/ 10000000)).
  { replace (IZR n * (IZR fs * k)) with (IZR n * k * IZR fs) by ring.
    eapply near_weaken; [apply (near_mul _ _ _ _ _ _ 24 M (fs_near fs Hf)); [lia|]|].
    - rewrite q24. rewrite !Rabs_pos_eq by nra. nra.
    - change (24 - 54)%Z with (-30)%Z. rewrite p30. rewrite !Rabs_pos_eq by nra. nra. }
  assert (P : 0 <= IZR n * (IZR fs * k) <= 15938560) by (replace (IZR n * (IZR fs * k)) with (IZR n * k * IZR fs) by ring; nra).
  eapply near_weaken; [apply (near_add _ _ _ _ _ _ 24 M2 (near_int 32 ltac:(lia))); [lia|]|].
  - rewrite q24. rewrite !Rabs_pos_eq by lra. lra.
  - change (24 - 54)%Z with (-30)%Z. rewrite p30. lra.
Qed.
Lemma geo_inside : forall e s fs ps r l a sp b w h, font fs -> export_shapes e s fs = Ok ps -> row_groups e s r l ->
  (letters_in l <= w)%Z -> (r < h)%Z -> extent w -> extent h -> l = a ++ sp :: b ->
  exists p, shape_at ps r (List.length a) = Some p /\
    0 <= 16 + left_edge p /\ 16 + right_edge p <= B2R (total_width w fs) /\
    ((fs <= 94)%Z -> 0 <= 16 + top_edge p /\ 16 + bottom_edge p <= B2R (total_height h fs)) /\
    ((95 <= fs)%Z -> ~ blocks (s_text sp) -> r = 0%Z -> 16 + top_edge p < 0).
Proof.
  intros e s fs ps r l a sp b w h Hf H G Lw Lh Hw Hh E. unfold extent in *. pose proof G as [R0 _].
  destruct (export_shape fs Hf e s ps r l a sp b H G ltac:(lia) ltac:(lia) E) as [p [P1 [P2 [P3 [P4 [P5 [P6 _]]]]]]].
  exists p. split; auto. pose proof (F_bounds fs Hf) as B. pose proof (raise_bounds fs (s_text sp) Hf) as Br.
  apply Rabs_le_inv in P3, P4, P5, P6. unfold right_edge, bottom_edge in *.
  assert (La : (0 <= letters_in a)%Z) by apply letters_nonneg.
  assert (Sum : (letters_in a + zlen (s_text sp) <= w)%Z).
  { subst l. rewrite letters_app in Lw. cbn [letters_in fold_right] in Lw. fold (letters_in b) in Lw. pose proof (letters_nonneg b). lia. }
  assert (Ls : (0 <= zlen (s_text sp) <= 8192)%Z) by (pose proof (zlen_nonneg _ (s_text sp)); lia).
  assert (IL : 0 <= IZR (zlen (s_text sp)) <= 8192) by (split; apply IZR_le; lia).
  assert (IA : 0 <= IZR (letters_in a)) by (now apply IZR_le).
  assert (IS : IZR (letters_in a) + IZR (zlen (s_text sp)) <= IZR w) by (rewrite <- plus_IZR; now apply IZR_le).
  assert (FW : 0 <= IZR fs * em_width) by (unfold em_width; lra).
  split; [unfold left_edge in *; nra|]. split.
  { assert (T : near (total_width w fs) (IZR w * (IZR fs * em_width) + 32) (/ 1000000)).
    { apply (total_near w fs _ _ _ Hf Hw width_lit); [unfold em_width; lra|rewrite p54; lra]. }
    destruct T as [_ T]. apply Rabs_le_inv in T. unfold left_edge in *.
    assert (IZR (letters_in a) * (IZR fs * em_width) + IZR (zlen (s_text sp)) * (IZR fs * em_width) <= IZR w * (IZR fs * em_width)).
    { rewrite <- Rmult_plus_distr_r. now apply Rmult_le_compat_r. }
    lra. }
  assert (IR : 0 <= IZR r) by (now apply IZR_le). assert (IH : IZR r + 1 <= IZR h) by (rewrite <- plus_IZR; apply IZR_le; lia).
  assert (FH : 0 <= IZR fs * em_height) by (unfold em_height; lra).
  split.
  { intro H94. apply IZR_le in H94. assert (T : near (total_height h fs) (IZR h * (IZR fs * em_height) + 32) (/ 1000000)).
    { apply (total_near h fs _ _ _ Hf Hh height_lit); [unfold em_height; lra|rewrite p53; lra]. }
    destruct T as [_ T]. apply Rabs_le_inv in T. unfold top_edge in *.
    assert (0 <= IZR r * (IZR fs * em_height)) by (now apply Rmult_le_pos).
    assert (IZR r * (IZR fs * em_height) + IZR fs * em_height <= IZR h * (IZR fs * em_height)).
    { rewrite <- (Rmult_1_l (IZR fs * em_height)) at 2. rewrite <- Rmult_plus_distr_r. now apply Rmult_le_compat_r. }
    unfold em_height in *. lra. }
  intros H95 Nb ->. apply IZR_le in H95. rewrite (raise_text fs _ Nb) in *. rewrite Rmult_0_l in P5. unfold top_edge in *. lra.
Qed.
