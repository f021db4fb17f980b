(** Lemmas about the printing of floats. *)
From Coq Require Import ZArith List Bool String Lia Reals Lra.
From Flocq Require Import Core IEEE754.BinarySingleNaN.
From Verif Require Import PyBase PyLemmas F64 FloatLemmas BlendSpec BlendProofs DecProofs SvgGeoModel SvgGeoProofs ReprModel ReprSpec.
Import ListNotations.
Open Scope R_scope.
Open Scope list_scope.

(** * Digits *)
Lemma digit10_ok : forall c, is_digit c = true -> digit10 c = Some (c - 48)%Z.
Proof. intros c H. unfold digit10. unfold is_digit in H. now rewrite H. Qed.
Lemma dval_cons : forall c s, dval (c :: s) = ((c - 48) * 10 ^ zlen s + dval s)%Z.
Proof. intros c s. change (c :: s) with ([c] ++ s). rewrite dval_app. unfold dval at 1. cbn [fold_left]. lia. Qed.
Lemma whole_digits : forall s acc, forallb is_digit s = true -> whole acc s = Some (acc * 10 ^ zlen s + dval s)%Z.
Proof.
  induction s as [|c s IH]; intros acc H.
  - cbn [whole]. unfold dval, zlen. cbn [fold_left List.length]. f_equal. change (10 ^ Z.of_nat 0)%Z with 1%Z. lia.
  - cbn [forallb] in H. apply andb_prop in H. destruct H as [H1 H2]. cbn [whole]. rewrite (digit10_ok c H1), IH by exact H2. f_equal.
    rewrite dval_cons, zlen_cons. rewrite Z.pow_add_r by (pose proof (zlen_nonneg _ s); lia). change (10 ^ 1)%Z with 10%Z. ring.
Qed.
Lemma mantissa_digits : forall s pt m e r, forallb is_digit s = true ->
  mantissa pt m e (s ++ r) = mantissa pt (m * 10 ^ zlen s + dval s) (if pt then e - zlen s else e) r.
Proof.
  induction s as [|c s IH]; intros pt m e r H.
  - cbn [app]. unfold dval, zlen. cbn [fold_left List.length]. change (10 ^ Z.of_nat 0)%Z with 1%Z. f_equal; [lia|destruct pt; lia].
  - cbn [forallb] in H. apply andb_prop in H. destruct H as [H1 H2]. cbn [app mantissa]. rewrite (digit10_ok c H1), IH by exact H2.
    rewrite dval_cons, zlen_cons. rewrite Z.pow_add_r by (pose proof (zlen_nonneg _ s); lia). change (10 ^ 1)%Z with 10%Z. f_equal; [ring|destruct pt; lia].
Qed.
Lemma mantissa_all : forall s pt m e, forallb is_digit s = true ->
  mantissa pt m e s = Some (m * 10 ^ zlen s + dval s, if pt then e - zlen s else e)%Z.
Proof. intros s pt m e H. rewrite <- (app_nil_r s) at 1. rewrite mantissa_digits by exact H. reflexivity. Qed.
Lemma mantissa_point : forall m e r, mantissa false m e (46%Z :: r) = mantissa true m e r. Proof. reflexivity. Qed.
Lemma mantissa_zero : forall pt m e r, mantissa pt m e (48%Z :: r) = mantissa pt (10 * m + 0) (if pt then e - 1 else e) r. Proof. reflexivity. Qed.
Lemma mantissa_e : forall pt m e r, mantissa pt m e (101%Z :: r) = option_map (fun x => (m, e + x)%Z) (exponent r). Proof. intros [|] m e r; reflexivity. Qed.
Lemma repeat_digits : forall n, forallb is_digit (repeat_char 48 n) = true.
Proof. intro n. unfold repeat_char. induction (Z.to_nat n); [reflexivity|exact IHn0]. Qed.
Lemma repeat_val : forall n, dval (repeat_char 48 n) = 0%Z.
Proof. intro n. unfold repeat_char. induction (Z.to_nat n) as [|k IH]; [reflexivity|]. cbn [repeat]. rewrite dval_cons, IH. lia. Qed.
Lemma repeat_len : forall n, (0 <= n)%Z -> zlen (repeat_char 48 n) = n.
Proof. intros n H. unfold repeat_char, zlen. rewrite repeat_length. lia. Qed.

Lemma p10_pos : forall e, 0 < powerRZ 10 e. Proof. intro. apply powerRZ_lt. lra. Qed.
Lemma p10_add : forall a b, powerRZ 10 (a + b) = powerRZ 10 a * powerRZ 10 b. Proof. intros. apply powerRZ_add. lra. Qed.
Lemma p10_IZR : forall k, (0 <= k)%Z -> IZR (10 ^ k) = powerRZ 10 k.
Proof.
  intros k H. rewrite <- (Z2Nat.id k H). rewrite <- pow_powerRZ, <- pow_IZR. reflexivity.
Qed.
Lemma p10_inv : forall k, powerRZ 10 (- k) = / powerRZ 10 k.
Proof. intro k. apply powerRZ_neg'. Qed.

Definition means (r : option (Z * Z)) (v : R) : Prop := exists m e, r = Some (m, e) /\ v = IZR m * powerRZ 10 e.
Lemma means_some : forall m e v, v = IZR m * powerRZ 10 e -> means (Some (m, e)) v.
Proof. intros m e v H. exists m, e. auto. Qed.

Lemma means_eq : forall m e m' e', m' = m -> e' = e -> means (Some (m, e)) (IZR m' * powerRZ 10 e').
Proof. intros m e m' e' -> ->. now apply means_some. Qed.

Lemma place_reads : forall ds pt, forallb is_digit ds = true -> ds <> [] ->
  means (mantissa false 0 0 (place_point ds pt)) (IZR (dval ds) * powerRZ 10 (pt - zlen ds)).
Proof.
  intros ds pt D N. unfold place_point. pose proof (zlen_nonneg _ ds) as Ln.
  destruct ((-4 <? pt)%Z && (pt <=? 16)%Z) eqn:C.
  - destruct (Z.leb_spec pt 0).
    + change (lit "0." ++ repeat_char 48 (- pt) ++ ds) with (48%Z :: 46%Z :: (repeat_char 48 (- pt) ++ ds)).
      rewrite mantissa_zero, mantissa_point.
      rewrite mantissa_digits by apply repeat_digits. rewrite mantissa_all by exact D.
      rewrite repeat_val, repeat_len by lia. apply means_eq; [ring|lia].
    + destruct (Z.ltb_spec pt (zlen ds)).
      * assert (S : ds = firstn (Z.to_nat pt) ds ++ skipn (Z.to_nat pt) ds) by (symmetry; apply firstn_skipn).
        set (a := firstn (Z.to_nat pt) ds) in *. set (b := skipn (Z.to_nat pt) ds) in *.
        assert (La : zlen a = pt). { unfold a, zlen. rewrite firstn_length. unfold zlen in H0. lia. }
        assert (Lb : (zlen ds = zlen a + zlen b)%Z) by (rewrite S at 1; apply zlen_app).
        rewrite S in D. rewrite forallb_app in D. apply andb_prop in D. destruct D as [Da Db].
        change (lit ".") with [46%Z]. rewrite mantissa_digits by exact Da. cbn [app]. rewrite mantissa_point.
        rewrite mantissa_all by exact Db. 
        assert (V : dval ds = (dval a * 10 ^ zlen b + dval b)%Z) by (rewrite S at 1; apply dval_app).
        rewrite V. apply means_eq; [ring|lia].
      * rewrite mantissa_digits by exact D. rewrite mantissa_digits by apply repeat_digits.
        change (lit ".0") with [46; 48]%Z. rewrite mantissa_point, mantissa_zero. cbn [mantissa].
        rewrite repeat_val, repeat_len by lia. apply means_some.
        replace (10 * ((0 * 10 ^ zlen ds + dval ds) * 10 ^ (pt - zlen ds) + 0) + 0)%Z with (dval ds * 10 ^ (pt - zlen ds) * 10)%Z by ring.
        rewrite !mult_IZR, p10_IZR by lia. change (0 - 1)%Z with (- (1))%Z. rewrite (p10_inv 1), powerRZ_1. field.
  - destruct ds as [|d ds]; [congruence|]. cbn [firstn skipn]. cbn [forallb] in D. apply andb_prop in D. destruct D as [Dd D].
    set (ex := (pt - 1)%Z).
    assert (Tail : forall p m e, means (mantissa p m e (lit "e" ++ (if (ex <? 0)%Z then lit "-" else lit "+") ++ (if (Z.abs ex <? 10)%Z then lit "0" else []) ++ dec (Z.abs ex)))
       (IZR m * powerRZ 10 (e + ex))).
    { intros p m e. set (t := (if (Z.abs ex <? 10)%Z then lit "0" else []) ++ dec (Z.abs ex)).
      assert (W : whole 0 t = Some (Z.abs ex) /\ t <> []).
      { unfold t. split.
        - rewrite whole_digits.
          + rewrite dval_app. f_equal. rewrite dec_val by lia. destruct (Z.abs ex <? 10)%Z; unfold dval; cbn; lia.
          + rewrite forallb_app, dec_digits by lia. now destruct (Z.abs ex <? 10)%Z.
        - pose proof (dec_ne (Z.abs ex)). destruct (Z.abs ex <? 10)%Z; [discriminate|assumption]. }
      destruct W as [W Nt]. clearbody t. destruct t as [|t0 t]; [congruence|].
      change (lit "e") with [101%Z]. cbn [app]. rewrite mantissa_e.
      destruct (Z.ltb_spec ex 0).
      - change (lit "-") with [45%Z]. cbn [app exponent]. change (45 =? 45)%Z with true. cbv iota. rewrite W. cbn [option_map]. apply means_eq; [reflexivity|lia].
      - change (lit "+") with [43%Z]. cbn [app exponent]. change (43 =? 45)%Z with false. change (43 =? 43)%Z with true. cbv iota. rewrite W. cbn [option_map]. apply means_eq; [reflexivity|lia]. }
    cbn [app mantissa]. rewrite (digit10_ok d Dd). rewrite zlen_cons in *.
    destruct (Z.eqb_spec (1 + zlen ds) 1) as [E|E].
    + assert (ds = []) as -> by (destruct ds; [reflexivity|rewrite zlen_cons in E; pose proof (zlen_nonneg _ ds); lia]).
      cbn [app]. match goal with |- means (mantissa ?p ?m ?e _) _ => specialize (Tail p m e) end.
      replace (dval [d]) with (10 * 0 + (d - 48))%Z by (unfold dval; cbn [fold_left]; lia).
      replace (pt - (1 + zlen (@nil Z)))%Z with (0 + ex)%Z by (unfold ex; change (zlen (@nil Z)) with 0%Z; lia). exact Tail.
    + change (lit "." ++ ds) with (46%Z :: ds). cbn [app]. rewrite mantissa_point. rewrite mantissa_digits by exact D.
      match goal with |- means (mantissa ?p ?m ?e _) _ => specialize (Tail p m e) end.
      rewrite dval_cons. replace ((d - 48) * 10 ^ zlen ds + dval ds)%Z with ((10 * 0 + (d - 48)) * 10 ^ zlen ds + dval ds)%Z by ring.
      replace (pt - (1 + zlen ds))%Z with (0 - zlen ds + ex)%Z by (unfold ex; lia). exact Tail.
Qed.

(** * Trailing zeros *)
Lemma strip_zeros : forall ds, forallb is_digit ds = true -> exists n, (0 <= n)%Z /\ ds = rstrip_by is_zero_digit ds ++ repeat_char 48 n.
Proof.
  intros ds _. unfold rstrip_by.
  assert (G : forall l, exists n : nat, l = repeat 48%Z n ++ lstrip_by is_zero_digit l).
  { induction l as [|c l [n IH]]; [exists O; reflexivity|]. cbn [lstrip_by]. unfold is_zero_digit at 1. destruct (Z.eqb_spec c 48).
    - exists (S n). subst c. cbn [repeat app]. now rewrite <- IH.
    - exists O. reflexivity. }
  destruct (G (rev ds)) as [n E]. exists (Z.of_nat n). split; [lia|].
  rewrite <- (rev_involutive ds) at 1. rewrite E at 1. rewrite rev_app_distr. f_equal. unfold repeat_char. rewrite Nat2Z.id.
  clear. induction n as [|n IH]; [reflexivity|]. cbn [repeat rev]. rewrite IH. clear. induction n as [|n IH]; [reflexivity|]. cbn [repeat app]. now rewrite IH.
Qed.
Lemma digits_reads : forall q p, (0 < q)%Z ->
  means (mantissa false 0 0 (place_point (rstrip_by is_zero_digit (dec q)) (zlen (dec q) - p))) (IZR q * powerRZ 10 (- p)).
Proof.
  intros q p Hq. pose proof (dec_digits q ltac:(lia)) as D. pose proof (dec_val q ltac:(lia)) as V.
  destruct (strip_zeros (dec q) D) as [n [Hn E]]. set (ds := rstrip_by is_zero_digit (dec q)) in *.
  rewrite E in D. rewrite forallb_app in D. apply andb_prop in D. destruct D as [D _].
  assert (V2 : q = (dval ds * 10 ^ n)%Z) by (rewrite <- V at 1; rewrite E, dval_app, repeat_val, repeat_len by lia; ring).
  assert (N : ds <> []) by (intro Z0; rewrite Z0 in V2; unfold dval in V2; cbn in V2; lia).
  pose proof (place_reads ds (zlen (dec q) - p) D N) as R.
  assert (L : (zlen (dec q) = zlen ds + n)%Z) by (rewrite E, zlen_app, repeat_len by lia; reflexivity).
  replace (IZR q * powerRZ 10 (- p)) with (IZR (dval ds) * powerRZ 10 (zlen (dec q) - p - zlen ds)); [exact R|].
  transitivity (IZR (dval ds * 10 ^ n) * powerRZ 10 (- p)); [|now rewrite <- V2].
  rewrite mult_IZR, p10_IZR by lia. rewrite Rmult_assoc, <- p10_add. do 2 f_equal. lia.
Qed.

(** * The digits read back *)
Lemma fraction_value_of : forall x num den, is_finite x = true -> fraction_of x = (num, den) ->
  (0 <= num)%Z /\ (0 < den)%Z /\ Rabs (B2R x) = IZR num / IZR den.
Proof.
  intros x num den F E. unfold fraction_of in E. destruct x as [s|s| |s m e H]; try discriminate; cbn [fexact] in E.
  - change (0 <=? 0)%Z with true in E. cbv iota in E. injection E as <- <-. split; [lia|]. split; [lia|]. cbn [B2R]. rewrite Rabs_R0. unfold Rdiv. match goal with |- _ = IZR ?a * _ => change a with 0%Z end. ring.
  - assert (A : (Z.abs (if s then Z.neg m else Z.pos m) = Z.pos m)%Z) by (destruct s; reflexivity). rewrite A in E.
    assert (X : Rabs (B2R (B754_finite s m e H)) = IZR (Z.pos m) * bpow radix2 e).
    { cbn [B2R]. rewrite <- F2R_Zabs. unfold F2R. cbn [Fnum Fexp]. f_equal. f_equal. destruct s; reflexivity. }
    rewrite X. destruct (Z.leb_spec 0 e); injection E as <- <-.
    + split; [apply Z.mul_nonneg_nonneg; [lia|apply Z.pow_nonneg; lia]|]. split; [lia|]. rewrite mult_IZR, (IZR_Zpower radix2) by lia. field.
    + split; [lia|]. split; [apply Z.pow_pos_nonneg; lia|]. rewrite (IZR_Zpower radix2) by lia. rewrite bpow_opp. field.
      pose proof (bpow_gt_0 radix2 e). lra.
Qed.
Lemma zeros_nonneg : forall f a b, (0 <= zeros f a b)%Z.
Proof. induction f as [|f IH]; intros a b; cbn [zeros]; [lia|]. destruct (b <=? a)%Z; [lia|]. specialize (IH (a * 10)%Z b). lia. Qed.
Lemma dec_len_le : forall n, (1 <= n)%Z -> (10 ^ (zlen (dec n) - 1) <= n)%Z.
Proof.
  intros n H. pose proof (dec_val n ltac:(lia)) as V. pose proof (dec_digits n ltac:(lia)) as D. pose proof (dec_ne n) as N. pose proof (dec_hd n ltac:(lia)) as Hd.
  destruct (dec n) as [|c r]; [congruence|]. cbn [forallb] in D. apply andb_prop in D. destruct D as [D1 D2]. apply is_digit_range in D1.
  cbn [hd] in Hd. assert (c <> 48%Z). { intros ->. specialize (Hd eq_refl). injection Hd as ->. unfold dval in V. cbn in V. lia. }
  rewrite dval_cons in V. rewrite zlen_cons. replace (1 + zlen r - 1)%Z with (zlen r) by lia.
  assert (0 <= dval r)%Z. { pose proof (whole_digits r 0 D2). clear -D2. assert (G : forall s, forallb is_digit s = true -> (0 <= dval s)%Z).
    { induction s as [|a s IH]; intro H; [unfold dval; cbn; lia|]. cbn [forallb] in H. apply andb_prop in H. destruct H as [H1 H2]. apply is_digit_range in H1.
      rewrite dval_cons. specialize (IH H2). pose proof (Z.pow_nonneg 10 (zlen s) ltac:(lia)). nia. } now apply G. }
  pose proof (Z.pow_nonneg 10 (zlen r) ltac:(lia)). nia.
Qed.
Lemma half_even_range : forall a b, (0 <= a)%Z -> (0 < b)%Z -> (a / b <= half_even a b <= a / b + 1)%Z.
Proof.
  intros a b Ha Hb. unfold half_even. destruct (2 * (a mod b) <? b)%Z; [lia|]. destruct (b <? 2 * (a mod b))%Z; [lia|]. destruct (Z.even (a / b)); lia.
Qed.
Lemma decimal_float : forall q p, (0 <= q)%Z -> IZR q * powerRZ 10 (- p) <= big ->
  fin (float_of_decimal q p) (rnd (IZR q * powerRZ 10 (- p))).
Proof.
  intros q p Hq B. unfold float_of_decimal. destruct (Z.leb_spec 0 p).
  - assert (E : IZR q / IZR (10 ^ p) = IZR q * powerRZ 10 (- p)) by (rewrite p10_IZR, p10_inv by lia; reflexivity).
    rewrite <- E. apply fratio_spec; [exact Hq|apply Z.pow_pos_nonneg; lia|]. rewrite E. exact B.
  - assert (E : IZR (q * 10 ^ (- p)) / IZR 1 = IZR q * powerRZ 10 (- p)) by (rewrite mult_IZR, p10_IZR by lia; field).
    rewrite <- E. apply fratio_spec; [|lia|rewrite E; exact B]. apply Z.mul_nonneg_nonneg; [exact Hq|apply Z.pow_nonneg; lia].
Qed.
Lemma around_ok : forall num den n q x, (0 < num)%Z -> (0 < den)%Z -> (1 <= n)%Z -> x = IZR num / IZR den ->
  In q (around num den (n - magnitude num den)) -> (0 <= q)%Z /\ IZR q * powerRZ 10 (- (n - magnitude num den)) <= 2 * x + 1.
Proof.
  intros num den n q x Hn Hd H1 Ex I. set (p := (n - magnitude num den)%Z) in *. unfold around in I.
  destruct (scaled num den p) as [a b] eqn:S.
  assert (AB : (0 <= a)%Z /\ (0 < b)%Z /\ IZR a / IZR b = x * powerRZ 10 p).
  { unfold scaled in S. destruct (Z.leb_spec 0 p); injection S as <- <-.
    - split; [apply Z.mul_nonneg_nonneg; [lia|apply Z.pow_nonneg; lia]|]. split; [exact Hd|]. rewrite mult_IZR, p10_IZR by lia. rewrite Ex. field. apply IZR_lt in Hd. lra.
    - split; [lia|]. split; [apply Z.mul_pos_pos; [lia|apply Z.pow_pos_nonneg; lia]|]. rewrite mult_IZR, p10_IZR by lia. rewrite Ex, p10_inv.
      apply IZR_lt in Hd. pose proof (p10_pos p). field. lra. }
  destruct AB as [Ha [Hb Eab]]. pose proof (half_even_range a b Ha Hb) as HE. pose proof (Z.div_pos a b Ha Hb) as D0.
  assert (Q : (0 <= q <= a / b + 1)%Z).
  { destruct I as [<-|[<-|[]]]; [lia|]. destruct (half_even a b =? a / b)%Z; lia. }
  split; [lia|].
  assert (Dx : IZR (a / b) <= x * powerRZ 10 p).
  { rewrite <- Eab. apply Rmult_le_reg_r with (IZR b); [now apply IZR_lt|]. replace (IZR a / IZR b * IZR b) with (IZR a) by (field; apply IZR_lt in Hb; lra).
    rewrite <- mult_IZR. apply IZR_le. rewrite Z.mul_comm. apply Z.mul_div_le. lia. }
  assert (Qx : IZR q <= x * powerRZ 10 p + 1) by (apply Rle_trans with (IZR (a / b + 1)); [apply IZR_le; lia|rewrite plus_IZR; lra]).
  assert (P : IZR q * powerRZ 10 (- p) <= x + powerRZ 10 (- p)).
  { rewrite p10_inv. pose proof (p10_pos p) as PP. apply Rmult_le_reg_r with (powerRZ 10 p); [exact PP|].
    replace (IZR q * / powerRZ 10 p * powerRZ 10 p) with (IZR q) by (field; lra). replace ((x + / powerRZ 10 p) * powerRZ 10 p) with (x * powerRZ 10 p + 1) by (field; lra). exact Qx. }
  assert (X0 : 0 < x). { rewrite Ex. apply Rmult_lt_0_compat; [now apply IZR_lt|]. apply Rinv_0_lt_compat. now apply IZR_lt. }
  assert (T : powerRZ 10 (- p) <= x + 1); [|lra].
  destruct (Z.le_gt_cases 0 p) as [C|C].
  - rewrite p10_inv, <- p10_IZR by lia. assert (1 <= IZR (10 ^ p)). { apply IZR_le. pose proof (Z.pow_pos_nonneg 10 p ltac:(lia) C). lia. }
    assert (/ IZR (10 ^ p) <= 1); [|lra]. rewrite <- Rinv_1. apply Rinv_le_contravar; lra.
  - unfold magnitude in p. destruct (Z.leb_spec den num) as [L|L].
    + set (k := zlen (dec (num / den))) in *. assert (D1 : (1 <= num / den)%Z) by (apply Z.div_le_lower_bound; lia).
      pose proof (dec_len_le _ D1) as DL. fold k in DL.
      rewrite <- p10_IZR by lia. assert (10 ^ (- p) <= 10 ^ (k - 1))%Z by (apply Z.pow_le_mono_r; unfold p; lia).
      assert (IZR (num / den) <= x).
      { rewrite Ex. apply Rmult_le_reg_r with (IZR den); [now apply IZR_lt|]. replace (IZR num / IZR den * IZR den) with (IZR num) by (field; apply IZR_lt in Hd; lra).
        rewrite <- mult_IZR. apply IZR_le. rewrite Z.mul_comm. apply Z.mul_div_le. lia. }
      assert (IZR (10 ^ (- p)) <= IZR (num / den)) by (apply IZR_le; lia). lra.
    + exfalso. pose proof (zeros_nonneg (Z.to_nat 330) (num * 10) den). unfold p in C. lia.
Qed.
Lemma feqb_value : forall a b, is_finite a = true -> is_finite b = true -> feqb a b = true -> B2R a = B2R b.
Proof. intros a b Fa Fb H. unfold feqb in H. rewrite Beqb_correct in H by assumption. now apply Req_bool_true_iff in H || (revert H; case Req_bool_spec; [auto|discriminate]). Qed.

Lemma shortest_reads : forall x num den ns q p, is_finite x = true -> 0 < Rabs (B2R x) -> 2 * Rabs (B2R x) + 1 <= big ->
  fraction_of x = (num, den) -> Forall (fun n => 1 <= n)%Z ns -> shortest x num den (magnitude num den) ns = (q, p) ->
  (0 < q)%Z /\ rnd (IZR q * powerRZ 10 (- p)) = Rabs (B2R x).
Proof.
  intros x num den ns q p F P0 B Fr Hns. destruct (fraction_value_of x num den F Fr) as [N0 [D0 V]].
  assert (N1 : (0 < num)%Z). { destruct (Z.eq_dec num 0) as [->|]; [|lia]. rewrite V in P0. unfold Rdiv in P0. rewrite Rmult_0_l in P0. lra. }
  assert (Fa : is_finite (Babs x) = true) by (rewrite is_finite_Babs; exact F).
  assert (Pos : forall q p, (0 <= q)%Z -> rnd (IZR q * powerRZ 10 (- p)) = Rabs (B2R x) -> (0 < q)%Z).
  { intros q0 p0 H0 H. destruct (Z.eq_dec q0 0) as [->|]; [|lia]. rewrite Rmult_0_l in H. unfold rnd in H. rewrite round_0 in H by auto with typeclass_instances. lra. }
  induction Hns as [|n ns Hn Hns IH]; intro S; cbn [shortest] in S.
  - assert (G : (0 <= q)%Z /\ IZR q * powerRZ 10 (- p) = Rabs (B2R x)).
    { unfold fraction_of in Fr. destruct (fexact x) as [m e]. destruct (Z.leb_spec 0 e).
      - injection S as <- <-. split; [lia|]. injection Fr as <- <-. rewrite V. change (powerRZ 10 (- 0)) with 1. field.
      - injection S as <- <-. injection Fr as <- <-. split; [apply Z.mul_nonneg_nonneg; [lia|apply Z.pow_nonneg; lia]|].
        rewrite V. rewrite mult_IZR. rewrite p10_inv. rewrite <- p10_IZR by lia.
        replace (10 ^ (- e))%Z with (2 ^ (- e) * 5 ^ (- e))%Z by (rewrite <- Z.pow_mul_l; reflexivity). rewrite mult_IZR. field.
        split; apply Rgt_not_eq; apply IZR_lt; apply Z.pow_pos_nonneg; lia. }
    destruct G as [G1 G2]. assert (R : rnd (IZR q * powerRZ 10 (- p)) = Rabs (B2R x)).
    { rewrite G2. rewrite <- B2R_Babs. apply rnd_id. apply fmt_B2R. }
    split; [now apply (Pos q p)|exact R].
  - destruct (filter _ _) as [|q' r] eqn:Ef; [now apply IH|]. injection S as <- <-.
    assert (I : In q' (q' :: r)) by (now left). rewrite <- Ef in I. apply filter_In in I. destruct I as [I E].
    destruct (around_ok num den n q' (Rabs (B2R x)) N1 D0 Hn V I) as [Q0 Q1].
    destruct (decimal_float q' (n - magnitude num den) Q0 ltac:(lra)) as [FF FE].
    assert (R : rnd (IZR q' * powerRZ 10 (- (n - magnitude num den))) = Rabs (B2R x)).
    { rewrite <- FE, <- B2R_Babs. now apply feqb_value. }
    split; [now apply (Pos q' (n - magnitude num den)%Z)|exact R].
Qed.
Lemma numeral_neg : forall t v, means (mantissa false 0 0 t) v -> reads (45%Z :: t) (- v).
Proof.
  intros t v [m [e [E V]]]. exists (- m)%Z, e. unfold numeral_of. change (45 =? 45)%Z with true. cbv iota. rewrite E. cbn [option_map fst snd].
  split; [reflexivity|]. rewrite V, opp_IZR. ring.
Qed.
Lemma numeral_pos : forall t v, (forall r, t <> 45%Z :: r) -> t <> [] -> means (mantissa false 0 0 t) v -> reads t v.
Proof.
  intros t v H N [m [e [E V]]]. exists m, e. split; [|exact V]. unfold numeral_of. destruct t as [|c r]; [congruence|].
  destruct (Z.eqb_spec c 45) as [->|]; [exfalso; now apply (H r)|exact E].
Qed.
Lemma mantissa_starts : forall t v, means (mantissa false 0 0 t) v -> forall r, t <> 45%Z :: r.
Proof. intros t v [m [e [E _]]] r ->. cbn in E. discriminate. Qed.

Lemma B2R_sign : forall x : f64, is_finite x = true -> B2R x = if fsign x then - Rabs (B2R x) else Rabs (B2R x).
Proof.
  intros [s|s| |s m e H] F; try discriminate.
  - cbn [B2R fsign Bsign]. rewrite Rabs_R0. destruct s; ring.
  - unfold fsign. cbn [Bsign]. destruct s.
    + rewrite Rabs_left; [ring|]. cbn [B2R]. apply F2R_lt_0. reflexivity.
    + rewrite Rabs_pos_eq; [reflexivity|]. cbn [B2R]. apply F2R_ge_0. cbn. lia.
Qed.
Lemma place_nonempty : forall t v, means (mantissa false 0 0 t) v -> v <> 0 -> t <> [].
Proof. intros t v [m [e [E V]]] N ->. cbn in E. injection E as <- <-. apply N. rewrite V. ring. Qed.

Lemma first_ns : Forall (fun n => 1 <= n)%Z (map (Z.add 1) (range 17)).
Proof. apply Forall_forall. intros n Hn. apply in_map_iff in Hn. destruct Hn as [k [<- Hk]]. apply in_range in Hk. lia. Qed.
(** Printed floats read back *)
Lemma repr_reads : forall x, is_finite x = true -> 2 * Rabs (B2R x) + 1 <= big ->
  exists v, reads (float_repr x) v /\ rnd v = B2R x.
Proof.
  intros x F B. unfold float_repr. unfold f_nan, f_finite. replace (is_nan x) with false by (destruct x; try discriminate; reflexivity). rewrite F. cbn [negb].
  match goal with |- context [_ ++ ?b] => set (body := b) end.
  assert (S : exists v, body <> [] /\ means (mantissa false 0 0 body) v /\ rnd v = Rabs (B2R x)).
  { subst body. destruct (feqb x fzero) eqn:Z0.
    - exists 0. split; [discriminate|]. apply feqb_value in Z0; [|exact F|reflexivity].
      split; [apply (means_some 0 (-1)); ring|]. rewrite Z0. cbn [fzero B2R]. rewrite Rabs_R0. unfold rnd. apply round_0. auto with typeclass_instances.
    - assert (P0 : 0 < Rabs (B2R x)).
      { apply Rabs_pos_lt. intro E0. unfold feqb in Z0. rewrite Beqb_correct in Z0 by (exact F || reflexivity). rewrite E0 in Z0. cbn [fzero B2R] in Z0.
        rewrite Req_bool_true in Z0 by reflexivity. discriminate. }
      destruct (fraction_of x) as [num den] eqn:Fr. destruct (shortest _ _ _ _ _) as [q p] eqn:Sh.
      destruct (shortest_reads x num den _ q p F P0 B Fr first_ns Sh) as [Q R].
      pose proof (digits_reads q p Q) as M. eexists. split.
      + eapply place_nonempty; [exact M|]. pose proof (p10_pos (- p)). apply IZR_lt in Q. nra.
      + split; [exact M|exact R]. }
  clearbody body. destruct S as [v [Nt [M R]]]. rewrite (B2R_sign x F). unfold fsign. destruct (Bsign x).
  - exists (- v). split; [apply (numeral_neg body v M)|]. rewrite rnd_opp, R. reflexivity.
  - exists v. split; [|exact R]. cbn [app]. apply numeral_pos; auto. intros r. eapply mantissa_starts; eauto.
Qed.
