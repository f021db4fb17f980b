(** 16-color and 256-color approximation. *)
From Coq Require Import ZArith List Bool Lia Reals Lra Psatz String.
From Flocq Require Import Core IEEE754.BinarySingleNaN.
From Verif Require Import PyBase PyLemmas F64 SpaceModel ColorTab ColorModel ColorSpec ColorProofs ColorProofs2
  Vt FloatLemmas BlendProofs PaletteSpec.
Open Scope R_scope.

(** 256 * distance^2, an integer *)
Definition K (a b : triple) : Z :=
  let '(r1, g1, b1) := a in
  let '(r2, g2, b2) := b in
  let rm := ((r1 + r2) / 2)%Z in
  ((512 + rm) * (r1 - r2) ^ 2 + 1024 * (g1 - g2) ^ 2 + (512 + (255 - rm)) * (b1 - b2) ^ 2)%Z.

Definition q (z : Z) : R := IZR z / 256.
Lemma q_fmt : forall z, (Z.abs z < 2 ^ 53)%Z -> fmt (q z).
Proof. intros z H. unfold q. exact (fmt_dyad z 8 H ltac:(lia)). Qed.
Lemma q_abs : forall z, (Z.abs z < 2 ^ 53)%Z -> Rabs (q z) <= big.
Proof.
  intros z H. unfold q. apply Rle_trans with (IZR (2 ^ 53)).
  - unfold Rdiv. rewrite Rabs_mult, (Rabs_pos_eq (/ 256)) by lra. rewrite <- abs_IZR.
    assert (IZR (Z.abs z) <= IZR (2 ^ 53)) by (apply IZR_le; lia).
    assert (0 <= IZR (Z.abs z)) by (apply IZR_le; lia). lra.
  - change (IZR (2 ^ 53)) with (bpow radix2 53). unfold big. apply bpow_le. lia.
Qed.
Lemma fin_q : forall x v z, fin x (rnd v) -> v = q z -> (Z.abs z < 2 ^ 53)%Z -> fin x (q z).
Proof. intros x v z H -> Hz. now rewrite rnd_id in H by now apply q_fmt. Qed.
Lemma fofZ_q : forall z, (Z.abs z < 2 ^ 40)%Z -> fin (fofZ z) (q (256 * z)).
Proof.
  intros z H. replace (q (256 * z)) with (IZR z).
  - apply fofZ_spec. lia.
  - unfold q. rewrite mult_IZR. lra.
Qed.
Lemma fdiv256 : forall z, (Z.abs z < 2 ^ 40)%Z -> fin (fdiv (fofZ z) (fofZ 256)) (q z).
Proof.
  intros z H. eapply fin_q; [apply fdiv_spec; [apply fofZ_spec; lia|apply (fofZ_spec 256); lia|lra|]|reflexivity|lia].
  apply q_abs. lia.
Qed.
Lemma fadd_q : forall x y a b, fin x (q a) -> fin y (q b) -> (Z.abs (a + b) < 2 ^ 53)%Z ->
  fin (fadd x y) (q (a + b)).
Proof.
  intros x y a b Hx Hy H. assert (E : q a + q b = q (a + b)) by (unfold q; rewrite plus_IZR; lra).
  eapply fin_q; [apply fadd_spec; [exact Hx|exact Hy|]|exact E|exact H]. rewrite E. now apply q_abs.
Qed.
Lemma fmul_q : forall x y a b, fin x (q a) -> fin y (IZR b) -> (Z.abs (a * b) < 2 ^ 53)%Z ->
  fin (fmul x y) (q (a * b)).
Proof.
  intros x y a b Hx Hy H. assert (E : q a * IZR b = q (a * b)) by (unfold q; rewrite mult_IZR; lra).
  eapply fin_q; [apply fmul_spec; [exact Hx|exact Hy|]|exact E|exact H]. rewrite E. now apply q_abs.
Qed.

Definition triple_ok (t : triple) : Prop :=
  let '(r, g, b) := t in channel_ok r /\ channel_ok g /\ channel_ok b.

Lemma sq_bound : forall a b, channel_ok a -> channel_ok b -> (0 <= (a - b) ^ 2 <= 65025)%Z.
Proof. unfold channel_ok. intros. rewrite Z.pow_2_r. assert (-255 <= a - b <= 255)%Z by lia. set (d := (a - b)%Z) in *. clearbody d. nia. Qed.

Lemma mean_ok : forall a b, channel_ok a -> channel_ok b -> channel_ok ((a + b) / 2)%Z.
Proof. unfold channel_ok. intros. split; [apply Z.div_pos; lia|]. apply Z.lt_succ_r, Z.div_lt_upper_bound; lia. Qed.

Lemma K_bounds : forall a b, triple_ok a -> triple_ok b -> (0 <= K a b < 2 ^ 28)%Z.
Proof.
  intros [[r1 g1] b1] [[r2 g2] b2] [H1 [H2 H3]] [H4 [H5 H6]]. unfold K.
  pose proof (sq_bound r1 r2 H1 H4). pose proof (sq_bound g1 g2 H2 H5). pose proof (sq_bound b1 b2 H3 H6).
  pose proof (mean_ok r1 r2 H1 H4) as M. unfold channel_ok in *.
  set (m := ((r1 + r2) / 2)%Z) in *. clearbody m. nia.
Qed.

Lemma geometric_value : forall a b, triple_ok a -> triple_ok b ->
  fin (geometric_difference a b) (rnd (sqrt (q (K a b)))).
Proof.
  intros [[r1 g1] b1] [[r2 g2] b2] Ha Hb. pose proof (K_bounds _ _ Ha Hb) as KB.
  destruct Ha as [H1 [H2 H3]], Hb as [H4 [H5 H6]]. unfold geometric_difference, K in *.
  pose proof (sq_bound r1 r2 H1 H4) as S1. pose proof (sq_bound g1 g2 H2 H5) as S2.
  pose proof (sq_bound b1 b2 H3 H6) as S3. pose proof (mean_ok r1 r2 H1 H4) as M. unfold channel_ok in M.
  set (m := ((r1 + r2) / 2)%Z) in *. set (x := ((r1 - r2) ^ 2)%Z) in *. set (y := ((g1 - g2) ^ 2)%Z) in *.
  set (z := ((b1 - b2) ^ 2)%Z) in *. clearbody m x y z. cbv zeta.
  apply fsqrt_spec.
  2:{ unfold q. assert (0 <= IZR ((512 + m) * x + 1024 * y + (512 + (255 - m)) * z)) by (apply IZR_le; lia). lra. }
  replace ((512 + m) * x + 1024 * y + (512 + (255 - m)) * z)%Z
    with (((256 * 2 + m) * x + 256 * (4 * y)) + (256 * 2 + (255 - m)) * z)%Z by lia.
  assert (B1 : (0 <= (256 * 2 + m) * x < 2 ^ 27)%Z) by nia.
  assert (B2 : (0 <= (256 * 2 + (255 - m)) * z < 2 ^ 27)%Z) by nia.
  apply fadd_q.
  - apply fadd_q.
    + apply fmul_q; [|apply fofZ_spec; lia|lia].
      apply fadd_q; [apply fofZ_q; lia|apply fdiv256; lia|lia].
    + apply fofZ_q. lia.
    + lia.
  - apply fmul_q; [|apply fofZ_spec; lia|lia].
    apply fadd_q; [apply fofZ_q; lia|apply fdiv256; lia|lia].
  - lia.
Qed.

Lemma sqrt_gap : forall m n, (0 <= m)%Z -> (m < n)%Z -> (n < 2 ^ 28)%Z ->
  sqrt (q m) + / 2097152 <= sqrt (q n).
Proof.
  intros m n Hm Hmn Hn.
  assert (Q0 : 0 <= q m) by (unfold q; assert (0 <= IZR m) by (apply IZR_le; lia); lra).
  assert (Q1 : q m + / 256 <= q n).
  { unfold q. assert (IZR (m + 1) <= IZR n) by (apply IZR_le; lia). rewrite plus_IZR in H. lra. }
  assert (Q2 : q n <= 1024 * 1024).
  { unfold q. assert (IZR n <= IZR (2 ^ 28)) by (apply IZR_le; lia). change (IZR (2 ^ 28)) with 268435456 in H. lra. }
  pose proof (sqrt_sqrt (q m) Q0) as E1. pose proof (sqrt_sqrt (q n) ltac:(lra)) as E2.
  pose proof (sqrt_pos (q m)) as P1. pose proof (sqrt_pos (q n)) as P2.
  assert (U2 : sqrt (q n) <= 1024).
  { rewrite <- (sqrt_square 1024) by lra. apply sqrt_le_1_alt. lra. }
  assert (U1 : sqrt (q m) <= sqrt (q n)) by (apply sqrt_le_1_alt; lra).
  set (a := sqrt (q m)) in *. set (b := sqrt (q n)) in *.
  assert ((b - a) * (b + a) >= / 256) by nra. nra.
Qed.

Lemma sqrt_order : forall m n, (0 <= m < 2 ^ 28)%Z -> (0 <= n < 2 ^ 28)%Z ->
  (rnd (sqrt (q m)) < rnd (sqrt (q n)) <-> (m < n)%Z).
Proof.
  intros m n Hm Hn.
  assert (Q : forall k, (0 <= k < 2 ^ 28)%Z -> Rabs (sqrt (q k)) < bpow radix2 11).
  { intros k Hk. rewrite Rabs_pos_eq by apply sqrt_pos. change (bpow radix2 11) with 2048.
    apply Rle_lt_trans with 1024; [|lra]. rewrite <- (sqrt_square 1024) by lra. apply sqrt_le_1_alt.
    unfold q. assert (IZR k <= IZR (2 ^ 28)) by (apply IZR_le; lia). change (IZR (2 ^ 28)) with 268435456 in H. lra. }
  split; intro H.
  - destruct (Z.lt_ge_cases m n) as [L|L]; auto. exfalso.
    assert (sqrt (q n) <= sqrt (q m)).
    { apply sqrt_le_1_alt. unfold q. apply IZR_le in L. lra. }
    apply rnd_le in H0. lra.
  - pose proof (sqrt_gap m n ltac:(lia) H ltac:(lia)) as G.
    pose proof (rnd_error _ 11 ltac:(lia) (Q m Hm)) as E1. pose proof (rnd_error _ 11 ltac:(lia) (Q n Hn)) as E2.
    apply Rabs_le_inv in E1, E2.
    assert (S : bpow radix2 (11 - 54) <= / 4194304 / 4).
    { change (/ 4194304 / 4) with (/ 4194304 * / 4). replace (/ 4194304 * / 4) with (bpow radix2 (-24)).
      - apply bpow_le. lia.
      - simpl. lra. }
    lra.
Qed.

Lemma geometric_order : forall a b c, triple_ok a -> triple_ok b -> triple_ok c ->
  fltb (geometric_difference a b) (geometric_difference a c) = (K a b <? K a c)%Z.
Proof.
  intros a b c Ha Hb Hc.
  pose proof (fltb_spec _ _ _ _ (geometric_value a b Ha Hb) (geometric_value a c Ha Hc)) as F.
  rewrite sqrt_order in F by (apply K_bounds; assumption).
  destruct (Z.ltb_spec (K a b) (K a c)) as [L|L].
  - now apply F.
  - destruct (fltb _ _); auto. exfalso. assert (K a b < K a c)%Z by now apply F. lia.
Qed.

Lemma distance_K : forall a b, redmean_distance a b = sqrt (q (K a b)).
Proof.
  intros [[r1 g1] b1] [[r2 g2] b2]. unfold redmean_distance, K. cbv zeta. f_equal. unfold q.
  rewrite !plus_IZR, !mult_IZR, !plus_IZR, (minus_IZR 255). set (m := IZR ((r1 + r2) / 2)).
  replace (IZR ((r1 - r2) ^ 2)) with ((IZR r1 - IZR r2) ^ 2)
    by (rewrite Z.pow_2_r, mult_IZR, minus_IZR; simpl; ring).
  replace (IZR ((g1 - g2) ^ 2)) with ((IZR g1 - IZR g2) ^ 2)
    by (rewrite Z.pow_2_r, mult_IZR, minus_IZR; simpl; ring).
  replace (IZR ((b1 - b2) ^ 2)) with ((IZR b1 - IZR b2) ^ 2)
    by (rewrite Z.pow_2_r, mult_IZR, minus_IZR; simpl; ring).
  field.
Qed.

(** first minimum *)
Lemma min_by_spec : forall (f : Z -> f64) (k : Z -> Z) l best,
  (forall i j, In i (best :: l) -> In j (best :: l) -> fltb (f i) (f j) = (k i <? k j)%Z) ->
  In (min_by f best l) (best :: l) /\
  (forall j, In j (best :: l) -> (k (min_by f best l) <= k j)%Z) /\
  (exists l1 l2, best :: l = l1 ++ min_by f best l :: l2 /\
     forall j, In j l1 -> (k (min_by f best l) < k j)%Z).
Proof.
  intros f k. induction l as [|i l IH]; intros best H.
  - cbn [min_by]. split; [now left|]. split; [intros j [<-|[]]; lia|].
    exists [], []. split; auto. intros j [].
  - cbn [min_by]. rewrite H by (simpl; auto). destruct (Z.ltb_spec (k i) (k best)) as [L|L].
    + destruct (IH i) as [H1 [H2 [l1 [l2 [H3 H4]]]]].
      { intros a b Ha Hb. apply H; now right. }
      split; [now right|]. split.
      * intros j [<-|Hj]; auto. specialize (H2 i (or_introl eq_refl)). lia.
      * exists (best :: l1), l2. split; [cbn [app]; now rewrite H3|].
        intros j [<-|Hj]; auto. specialize (H2 i (or_introl eq_refl)). lia.
    + destruct (IH best) as [H1 [H2 [l1 [l2 [H3 H4]]]]].
      { intros a b [<-|Ha] [<-|Hb]; apply H; simpl; auto. }
      split; [destruct H1 as [H1|H1]; [left; exact H1|right; right; exact H1]|]. split.
      * intros j [<-|[<-|Hj]].
        -- apply H2. now left.
        -- specialize (H2 best (or_introl eq_refl)). lia.
        -- apply H2. now right.
      * destruct l1 as [|x l1].
        -- injection H3 as H3 H5. rewrite <- H3. exists [], (i :: l). split; auto. intros j [].
        -- injection H3 as <- H3. exists (best :: i :: l1), l2. split; [cbn [app]; now rewrite <- H3|].
           intros j [<-|[<-|Hj]].
           ++ apply H4. now left.
           ++ specialize (H4 best (or_introl eq_refl)). lia.
           ++ apply H4. now right.
Qed.

Lemma table_nth : forall i, (0 <= i < 256)%Z -> nth (Z.to_nat i) COLOR_TABLE (0, 0, 0)%Z = palette_entry i.
Proof.
  intros i H. destruct (table_spec i H) as [r [g [b [E [_ [_ [_ <-]]]]]]]. now apply nth_error_nth.
Qed.
Lemma palette_ok : forall i, (0 <= i < 256)%Z -> triple_ok (palette_entry i).
Proof. intros i H. destruct (table_spec i H) as [r [g [b [_ [H1 [H2 [H3 <-]]]]]]]. unfold triple_ok. auto. Qed.

Lemma range16 : (0 :: tl (range 16) = range 16)%Z. Proof. reflexivity. Qed.

Lemma split_range : forall l1 i l2, range 16 = l1 ++ i :: l2 ->
  (0 <= i < 16)%Z /\ forall j, (0 <= j < i)%Z -> In j l1.
Proof.
  intros l1 i l2 H.
  assert (E : forall k, (k < 16)%nat -> nth_error (range 16) k = Some (Z.of_nat k)).
  { intros k Hk. do 16 (destruct k as [|k]; [reflexivity|]). lia. }
  assert (L : (List.length l1 < 16)%nat).
  { assert (List.length (range 16) = 16%nat) by reflexivity. rewrite H, app_length in H0. simpl in H0. lia. }
  pose proof (E _ L) as E1. rewrite H, nth_error_app2, Nat.sub_diag in E1 by lia. injection E1 as ->.
  split; [lia|]. intros j Hj. pose proof (E (Z.to_nat j) ltac:(lia)) as E2.
  rewrite H, nth_error_app1 in E2 by lia. rewrite Z2Nat.id in E2 by lia. eapply nth_error_In; eauto.
Qed.

Lemma nearest_spec : forall t, triple_ok t -> first_nearest t (nearest_standard t).
Proof.
  intros t Ht. unfold nearest_standard.
  set (f := fun i => geometric_difference t (nth (Z.to_nat i) COLOR_TABLE (0, 0, 0)%Z)).
  set (k := fun i => K t (palette_entry i)).
  destruct (min_by_spec f k (tl (range 16)) 0%Z) as [H1 [H2 [l1 [l2 [H3 H4]]]]].
  { rewrite range16. intros i j Hi Hj. rewrite in_range in Hi, Hj. unfold f, k.
    rewrite !table_nth by lia. apply geometric_order; auto; apply palette_ok; lia. }
  rewrite range16 in *. destruct (split_range _ _ _ H3) as [R1 R2].
  set (i := min_by f 0 (tl (range 16))) in *.
  split; auto. rewrite in_range in H1. split; intros j Hj; rewrite !distance_K.
  - apply sqrt_le_1_alt. unfold q. pose proof (H2 j (proj2 (in_range 16 j) ltac:(lia))) as L. unfold k in L.
    apply IZR_le in L. lra.
  - apply sqrt_lt_1_alt. pose proof (H4 j (R2 j Hj)) as L. unfold k in L.
    pose proof (K_bounds t (palette_entry i) Ht (palette_ok i ltac:(lia))) as B.
    unfold q. assert (0 <= IZR (K t (palette_entry i))) by (apply IZR_le; lia). apply IZR_lt in L. lra.
Qed.

Lemma first_nearest_unique : forall t i j, first_nearest t i -> first_nearest t j -> i = j.
Proof.
  intros t i j [R1 [M1 S1]] [R2 [M2 S2]].
  destruct (Z.lt_trichotomy i j) as [L|[L|L]]; auto; exfalso.
  - specialize (S2 i ltac:(lia)). specialize (M1 j R2). lra.
  - specialize (S1 j ltac:(lia)). specialize (M2 i R1). lra.
Qed.

Lemma rgb_ok : forall c, color_ok c -> triple_ok (c_rgb c).
Proof.
  intros c [H1 [H2 H3]]. unfold red, green, blue in *. destruct (c_rgb c) as [[r g] b]. simpl in *. now split.
Qed.


Lemma standard_emission : forall e c pen, color_ok c -> no_ansi_ctor c -> env_cs e = STANDARD ->
  exists i, first_nearest (c_rgb c) i /\ color_ansi e c = dec (standard_code (c_bg c) i) /\
    sgr (params (color_ansi e c)) pen = set_layer (c_bg c) (EIdx i) pen.
Proof.
  intros e c pen Hc Hn He. pose proof (nearest_spec _ (rgb_ok c Hc)) as N.
  exists (nearest_standard (c_rgb c)). split; auto.
  assert (A : color_ansi e c = dec (standard_code (c_bg c) (nearest_standard (c_rgb c)))).
  { rewrite color_ansi_free by assumption. rewrite He. cbv zeta. unfold standard_code. f_equal.
    destruct (Z.ltb_spec 7 (nearest_standard (c_rgb c))); destruct (Z.ltb_spec (nearest_standard (c_rgb c)) 8);
      destruct (c_bg c); lia. }
  split; auto. rewrite A. destruct N as [R _]. set (i := nearest_standard (c_rgb c)) in *. clearbody i.
  assert (C : (i = 0 \/ i = 1 \/ i = 2 \/ i = 3 \/ i = 4 \/ i = 5 \/ i = 6 \/ i = 7 \/ i = 8 \/ i = 9 \/ i = 10 \/
     i = 11 \/ i = 12 \/ i = 13 \/ i = 14 \/ i = 15)%Z) by lia.
  unfold set_layer.
  repeat (destruct C as [C|C]; [subst i; destruct (c_bg c); reflexivity|]). subst i. destruct (c_bg c); reflexivity.
Qed.

Lemma K_zero : forall a b, triple_ok a -> triple_ok b -> K a b = 0%Z -> a = b.
Proof.
  intros [[r1 g1] b1] [[r2 g2] b2] [H1 [H2 H3]] [H4 [H5 H6]]. unfold K.
  pose proof (sq_bound r1 r2 H1 H4). pose proof (sq_bound g1 g2 H2 H5). pose proof (sq_bound b1 b2 H3 H6).
  pose proof (mean_ok r1 r2 H1 H4) as M. unfold channel_ok in *.
  set (m := ((r1 + r2) / 2)%Z) in *. clearbody m. intro E.
  set (x := ((r1 - r2) ^ 2)%Z) in *. set (y := ((g1 - g2) ^ 2)%Z) in *. set (z := ((b1 - b2) ^ 2)%Z) in *.
  assert (0 <= m * x)%Z by (apply Z.mul_nonneg_nonneg; lia).
  assert (0 <= (255 - m) * z)%Z by (apply Z.mul_nonneg_nonneg; lia).
  assert (X : (x = 0)%Z) by lia. assert (Y : (y = 0)%Z) by lia. assert (W : (z = 0)%Z) by lia.
  subst x y z. rewrite Z.pow_2_r in X, Y, W.
  apply Z.mul_eq_0 in X. apply Z.mul_eq_0 in Y. apply Z.mul_eq_0 in W. f_equal; [f_equal|]; lia.
Qed.
Lemma K_refl : forall a, K a a = 0%Z.
Proof. intros [[r g] b]. unfold K. rewrite !Z.sub_diag. lia. Qed.

Definition distinct_check : bool :=
  forallb (fun i => forallb (fun j => negb (triple_eqb (palette_entry i) (palette_entry j)) || (i =? j)%Z) (range 16)) (range 16).
Lemma distinct_ok : distinct_check = true. Proof. vm_compute. reflexivity. Qed.
Lemma palette16_inj : forall i j, (0 <= i < 16)%Z -> (0 <= j < 16)%Z -> palette_entry i = palette_entry j -> i = j.
Proof.
  intros i j Hi Hj E. pose proof distinct_ok as D. unfold distinct_check in D. rewrite forallb_forall in D.
  specialize (D i (proj2 (in_range 16 i) Hi)). rewrite forallb_forall in D.
  specialize (D j (proj2 (in_range 16 j) Hj)). rewrite (proj2 (triple_eqb_iff _ _) E) in D. simpl in D.
  now apply Z.eqb_eq.
Qed.

Lemma standard_exact : forall e c i pen, no_ansi_ctor c -> env_cs e = STANDARD ->
  (0 <= i < 16)%Z -> c_rgb c = palette_entry i ->
  color_ansi e c = dec (standard_code (c_bg c) i) /\
  sgr (params (color_ansi e c)) pen = set_layer (c_bg c) (EIdx i) pen.
Proof.
  intros e c i pen Hn He Hi Hc.
  assert (OK : color_ok c).
  { pose proof (palette_ok i ltac:(lia)) as P. rewrite <- Hc in P. unfold color_ok, red, green, blue.
    destruct (c_rgb c) as [[r g] b]. exact P. }
  destruct (standard_emission e c pen OK Hn He) as [j [N [E1 E2]]].
  assert (j = i).
  { destruct N as [R [M _]]. specialize (M i Hi). rewrite Hc, !distance_K, K_refl in M.
    pose proof (K_bounds (palette_entry i) (palette_entry j) (palette_ok i ltac:(lia)) (palette_ok j ltac:(lia))) as B.
    apply sqrt_le_0 in M.
    - unfold q in M. assert (IZR (K (palette_entry i) (palette_entry j)) <= 0) by lra. apply le_IZR in H.
      symmetry. apply palette16_inj; try lia. apply K_zero; try (apply palette_ok; lia). lia.
    - unfold q. assert (0 <= IZR (K (palette_entry i) (palette_entry j))) by (apply IZR_le; lia). lra.
    - unfold q. lra. }
  subst j. auto.
Qed.

(** * 256 colors *)
(** level nearest to v among the six levels 0, 51, ..., 255 *)
Definition level_check (v : Z) : bool :=
  let k := eight_bit_level v in ((0 <=? k) && (k <=? 5) && (2 * Z.abs (51 * k - v) <? 51))%Z.
Lemma levels_ok : forallb level_check (range 256) = true.
Proof. vm_compute. reflexivity. Qed.
Lemma level_spec : forall v, channel_ok v ->
  (0 <= eight_bit_level v <= 5 /\ 2 * Z.abs (51 * eight_bit_level v - v) < 51)%Z.
Proof.
  intros v H. pose proof levels_ok as L. rewrite forallb_forall in L.
  specialize (L v (proj2 (in_range 256 v) ltac:(unfold channel_ok in H; lia))). unfold level_check in L.
  cbv zeta in L. rewrite !andb_true_iff, !Z.leb_le, Z.ltb_lt in L. lia.
Qed.
Lemma level_mono : forall v w, channel_ok v -> channel_ok w -> (v <= w)%Z ->
  (eight_bit_level v <= eight_bit_level w)%Z.
Proof. intros v w Hv Hw H. pose proof (level_spec v Hv). pose proof (level_spec w Hw). lia. Qed.


Lemma eight_bit_emission : forall e c pen, color_ok c -> no_ansi_ctor c -> env_cs e = EIGHT_BIT ->
  exists x y z, nearest_sixth (red c) x /\ nearest_sixth (green c) y /\ nearest_sixth (blue c) z /\
    (16 <= cube_index x y z <= 231)%Z /\
    color_ansi e c = idx_seq (c_bg c) (cube_index x y z) /\
    sgr (params (color_ansi e c)) pen = set_layer (c_bg c) (EIdx (cube_index x y z)) pen /\
    palette_entry (cube_index x y z) = (cube_level x, cube_level y, cube_level z).
Proof.
  intros e c pen [H1 [H2 H3]] Hn He.
  exists (eight_bit_level (red c)), (eight_bit_level (green c)), (eight_bit_level (blue c)).
  pose proof (level_spec _ H1) as L1. pose proof (level_spec _ H2) as L2. pose proof (level_spec _ H3) as L3.
  split; [exact L1|]. split; [exact L2|]. split; [exact L3|].
  assert (B : (16 <= cube_index (eight_bit_level (red c)) (eight_bit_level (green c)) (eight_bit_level (blue c)) <= 231)%Z)
    by (unfold cube_index; lia).
  split; auto.
  assert (A : color_ansi e c = idx_seq (c_bg c)
     (cube_index (eight_bit_level (red c)) (eight_bit_level (green c)) (eight_bit_level (blue c)))).
  { rewrite color_ansi_free by assumption. rewrite He, lead_dec. unfold idx_seq, cube_index, eight_bit_index, red, green, blue.
    destruct (c_rgb c) as [[r g] b]. destruct (c_bg c); reflexivity. }
  split; auto. rewrite A. split.
  - unfold params. rewrite split_idx_seq. cbn [map].
    assert (D : forall n, (0 <= n)%Z -> param_val (dec n) = n) by (intros; apply dec_val; assumption).
    rewrite D by lia. destruct (c_bg c); reflexivity.
  - set (x := eight_bit_level (red c)) in *. set (y := eight_bit_level (green c)) in *.
    set (z := eight_bit_level (blue c)) in *. clearbody x y z. unfold palette_entry, xterm_entry.
    destruct (Z.ltb_spec (cube_index x y z) 16); [lia|]. destruct (Z.ltb_spec (cube_index x y z) 232); [|lia].
    unfold cube_index. replace (16 + 36 * x + 6 * y + z - 16)%Z with (36 * x + (6 * y + z))%Z by lia.
    assert (E1 : ((36 * x + (6 * y + z)) / 36 = x)%Z) by (symmetry; apply Z.div_unique with (6 * y + z)%Z; lia).
    assert (E2 : ((36 * x + (6 * y + z)) / 6 = 6 * x + y)%Z) by (symmetry; apply Z.div_unique with z; lia).
    assert (E3 : ((6 * x + y) mod 6 = y)%Z) by (symmetry; apply Z.mod_unique with x; lia).
    assert (E4 : ((36 * x + (6 * y + z)) mod 6 = z)%Z) by (symmetry; apply Z.mod_unique with (6 * x + y)%Z; lia).
    now rewrite E1, E2, E3, E4.
Qed.

Lemma nearest_sixth_mono : forall v w k l, nearest_sixth v k -> nearest_sixth w l -> (v <= w)%Z -> (k <= l)%Z.
Proof. unfold nearest_sixth. lia. Qed.

Lemma eight_bit_exact : forall e c, no_ansi_ctor c -> env_cs e = EIGHT_BIT ->
  kept_level (red c) -> kept_level (green c) -> kept_level (blue c) ->
  exists n, (0 <= n < 256)%Z /\ color_ansi e c = idx_seq (c_bg c) n /\ palette_entry n = c_rgb c.
Proof.
  intros e c Hn He K1 K2 K3.
  assert (OK : forall v, kept_level v -> channel_ok v) by (unfold kept_level, channel_ok; intros; lia).
  destruct (eight_bit_emission e c rend0 (conj (OK _ K1) (conj (OK _ K2) (OK _ K3))) Hn He)
    as [x [y [z [N1 [N2 [N3 [B [E [_ P]]]]]]]]].
  exists (cube_index x y z). split; [lia|]. split; auto. rewrite P.
  assert (G : forall v k, kept_level v -> nearest_sixth v k -> cube_level k = v).
  { intros v k Hv Hk. unfold kept_level, nearest_sixth in *.
    assert (Ck : (k = if v =? 0 then 0 else (v - 55) / 40)%Z).
    { destruct Hv as [->|[->|[->| ->]]]; [change (k = 0)%Z|change (k = 3)%Z|change (k = 4)%Z|change (k = 5)%Z]; lia. }
    rewrite Ck. destruct Hv as [->|[->|[->| ->]]]; reflexivity. }
  rewrite (G _ _ K1 N1), (G _ _ K2 N2), (G _ _ K3 N3). unfold red, green, blue. destruct (c_rgb c) as [[? ?] ?]. reflexivity.
Qed.

(** The entry selected is the color itself exactly when every channel is one of the kept levels *)
Lemma eight_bit_kept : forall e c, color_ok c -> no_ansi_ctor c -> env_cs e = EIGHT_BIT ->
  exists n, (16 <= n <= 231)%Z /\ color_ansi e c = idx_seq (c_bg c) n /\
    (palette_entry n = c_rgb c <-> kept_level (red c) /\ kept_level (green c) /\ kept_level (blue c)).
Proof.
  intros e c Hc Hn He. destruct (eight_bit_emission e c rend0 Hc Hn He) as [x [y [z [N1 [N2 [N3 [B [E [_ P]]]]]]]]].
  exists (cube_index x y z). split; [exact B|]. split; [exact E|]. rewrite P.
  assert (G : forall v k, nearest_sixth v k -> (cube_level k = v <-> kept_level v)).
  { intros v k Hk. unfold kept_level, nearest_sixth in *.
    assert (C : (k = 0 \/ k = 1 \/ k = 2 \/ k = 3 \/ k = 4 \/ k = 5)%Z) by lia.
    destruct C as [->|[->|[->|[->|[->| ->]]]]];
      [change (cube_level 0) with 0%Z|change (cube_level 1) with 95%Z|change (cube_level 2) with 135%Z
      |change (cube_level 3) with 175%Z|change (cube_level 4) with 215%Z|change (cube_level 5) with 255%Z]; lia. }
  rewrite <- (G _ _ N1), <- (G _ _ N2), <- (G _ _ N3). unfold red, green, blue. destruct (c_rgb c) as [[r g] b]. cbn [fst snd].
  split; [intro H; injection H as H1 H2 H3; auto|intros [H1 [H2 H3]]; now rewrite H1, H2, H3].
Qed.

Lemma eight_bit_inexact : exists e c n m, env_cs e = EIGHT_BIT /\ color_ok c /\ c_ctor c = None /\
  palette_entry n = c_rgb c /\ color_ansi e c = idx_seq false m /\ palette_entry m <> c_rgb c.
Proof.
  exists {| env_cs := EIGHT_BIT; env_pow := fun x _ => x |}, (mkColor (95, 0, 0)%Z false fone TRUE_COLOR None), 52%Z, 88%Z.
  split; [reflexivity|]. split; [unfold color_ok, channel_ok; cbn; lia|]. split; [reflexivity|].
  split; [reflexivity|]. split; [vm_compute; reflexivity|]. cbn. discriminate.
Qed.
(** nor do the greys of the ramp *)
Lemma eight_bit_grey_inexact : exists e c n m, env_cs e = EIGHT_BIT /\ color_ok c /\ c_ctor c = None /\
  (232 <= n <= 255)%Z /\
  palette_entry n = c_rgb c /\ color_ansi e c = idx_seq false m /\ palette_entry m <> c_rgb c.
Proof.
  exists {| env_cs := EIGHT_BIT; env_pow := fun x _ => x |}, (mkColor (128, 128, 128)%Z false fone TRUE_COLOR None), 244%Z, 145%Z.
  split; [reflexivity|]. split; [unfold color_ok, channel_ok; cbn; lia|]. split; [reflexivity|].
  split; [lia|].
  split; [reflexivity|]. split; [vm_compute; reflexivity|]. cbn. discriminate.
Qed.

Lemma eight_bit_monotone : forall e c d, color_ok c -> color_ok d -> no_ansi_ctor c -> no_ansi_ctor d ->
  env_cs e = EIGHT_BIT -> brighter c d ->
  exists x y z x' y' z', (x <= x' /\ y <= y' /\ z <= z')%Z /\
    color_ansi e c = idx_seq (c_bg c) (cube_index x y z) /\
    color_ansi e d = idx_seq (c_bg d) (cube_index x' y' z').
Proof.
  intros e c d Hc Hd Nc Nd He [B1 [B2 B3]].
  destruct (eight_bit_emission e c rend0 Hc Nc He) as [x [y [z [N1 [N2 [N3 [_ [E _]]]]]]]].
  destruct (eight_bit_emission e d rend0 Hd Nd He) as [x' [y' [z' [N1' [N2' [N3' [_ [E' _]]]]]]]].
  exists x, y, z, x', y', z'. split; [|auto]. eauto 10 using nearest_sixth_mono.
Qed.
