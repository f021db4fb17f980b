(** Lemmas: the quotient of two integers is correctly rounded; reading decimal texts. *)
From Coq Require Import ZArith List Bool String Lia Reals Lra.
From Flocq Require Import Core IEEE754.BinarySingleNaN.
From Verif Require Import PyBase PyLemmas F64 FloatLemmas ColorSpec BlendSpec BlendProofs DecSpec.
Import ListNotations.
Open Scope R_scope.

Notation fe := (SpecFloat.fexp fprec femax).
Lemma fmt_multiple : forall x, fmt x -> exists k, x = IZR k * bpow radix2 (-1074).
Proof.
  intros x H. pose proof (generic_format_FIX_FLT radix2 (-1074) 53 x H) as G.
  apply FIX_format_generic in G. destruct G as [f Hf Ef]. exists (Fnum f). rewrite Hf. unfold F2R. now rewrite Ef.
Qed.
Lemma fmt_step : forall w, fmt w -> w < succ radix2 fe w.
Proof.
  intros w F. destruct (Req_dec w 0) as [E|E].
  - rewrite E, succ_0. change (0 < ulp radix2 (FLT_exp (-1074) 53) 0). rewrite ulp_FLT_0 by reflexivity. apply bpow_gt_0.
  - now apply succ_gt_id.
Qed.
Lemma rnd_open : forall s q u v, (1075 <= s)%Z ->
  IZR q * bpow radix2 (- s) < u < IZR (q + 1) * bpow radix2 (- s) ->
  IZR q * bpow radix2 (- s) < v < IZR (q + 1) * bpow radix2 (- s) -> rnd u <= rnd v.
Proof.
  intros s q u v Hs Hu Hv. set (w := rnd v).
  assert (Fw : fmt w) by apply rnd_fmt.
  assert (Fs : fmt (succ radix2 fe w)) by (apply generic_format_succ; auto with typeclass_instances).
  assert (M : v <= (w + succ radix2 fe w) / 2).
  { destruct (Rle_or_lt v ((w + succ radix2 fe w) / 2)) as [H|H]; [exact H|exfalso].
    assert (X : succ radix2 fe w <= round radix2 fe (Znearest (fun x => negb (Z.even x))) v).
    { apply round_N_ge_midp; auto with typeclass_instances. rewrite pred_succ; auto with typeclass_instances. lra. }
    change (succ radix2 fe w <= w) in X. pose proof (fmt_step w Fw). lra. }
  destruct (fmt_multiple w Fw) as [k1 E1]. destruct (fmt_multiple _ Fs) as [k2 E2].
  assert (Ep : bpow radix2 (-1074) = 2 * (IZR (2 ^ (s - 1075)) * bpow radix2 (- s))).
  { rewrite (IZR_Zpower radix2) by lia. rewrite <- bpow_plus. replace (s - 1075 + - s)%Z with (-1075)%Z by lia.
    change (-1074)%Z with (1 + -1075)%Z. rewrite bpow_plus. change (bpow radix2 1) with 2. reflexivity. }
  assert (Em : (w + succ radix2 fe w) / 2 = IZR ((k1 + k2) * 2 ^ (s - 1075)) * bpow radix2 (- s)).
  { rewrite E2, E1, Ep. rewrite mult_IZR, plus_IZR. field. }
  rewrite Em in M. pose proof (bpow_gt_0 radix2 (- s)) as P.
  assert (L : (q < (k1 + k2) * 2 ^ (s - 1075))%Z).
  { apply lt_IZR. apply Rmult_lt_reg_r with (bpow radix2 (- s)); [exact P|]. lra. }
  apply round_N_le_midp; auto with typeclass_instances. rewrite Em.
  apply Rlt_le_trans with (IZR (q + 1) * bpow radix2 (- s)); [apply Hu|].
  apply Rmult_le_compat_r; [lra|]. apply IZR_le. lia.
Qed.

(** the quotient used for decimal texts is the correctly rounded one *)
Lemma fratio_spec : forall m d, (0 <= m)%Z -> (0 < d)%Z -> IZR m / IZR d <= big ->
  fin (fratio m d) (rnd (IZR m / IZR d)).
Proof.
  intros m d Hm Hd B. unfold fratio. set (s := (1200 + Z.log2_up d)%Z).
  assert (Hs : (1200 <= s)%Z) by (unfold s; pose proof (Z.log2_up_nonneg d); lia).
  set (q := (m * 2 ^ s / d)%Z). set (st := if (m * 2 ^ s mod d =? 0)%Z then 0%Z else 1%Z).
  set (v := IZR m / IZR d).
  assert (Hv0 : 0 <= v). { unfold v. apply Rmult_le_pos; [now apply IZR_le|]. apply Rlt_le, Rinv_0_lt_compat. now apply IZR_lt. }
  set (u := F2R (Float radix2 (2 * q + st) (- (s + 1)))).
  assert (DM : (m * 2 ^ s = d * q + m * 2 ^ s mod d)%Z) by (apply Z.div_mod; lia).
  pose proof (Z.mod_pos_bound (m * 2 ^ s) d Hd) as MB.
  assert (Dp : 0 < IZR d) by now apply IZR_lt.
  pose proof (bpow_gt_0 radix2 (- s)) as P.
  assert (Ps : IZR (2 ^ s) * bpow radix2 (- s) = 1).
  { rewrite (IZR_Zpower radix2) by lia. rewrite <- bpow_plus. replace (s + - s)%Z with 0%Z by lia. reflexivity. }
  assert (Ev : v * IZR d = (IZR d * IZR q + IZR (m * 2 ^ s mod d)) * bpow radix2 (- s)).
  { unfold v. rewrite <- mult_IZR, <- plus_IZR, <- DM, mult_IZR. replace (IZR m / IZR d * IZR d) with (IZR m) by (field; lra).
    rewrite Rmult_assoc, Ps. ring. }
  assert (Eu : u = (IZR q + IZR st / 2) * bpow radix2 (- s)).
  { unfold u, F2R. cbn [Fnum Fexp]. replace (- (s + 1))%Z with (-1 + - s)%Z by lia. rewrite bpow_plus.
    change (bpow radix2 (-1)) with (/ 2). rewrite plus_IZR, mult_IZR. field. }
  assert (R : rnd u = rnd v).
  { unfold st in Eu. destruct (m * 2 ^ s mod d =? 0)%Z eqn:Z0.
    - apply Z.eqb_eq in Z0. rewrite Z0 in Ev. f_equal. rewrite Eu.
      apply Rmult_eq_reg_r with (IZR d); [|lra]. rewrite Ev. field.
    - apply Z.eqb_neq in Z0.
      assert (Lv : IZR q * bpow radix2 (- s) < v < IZR (q + 1) * bpow radix2 (- s)).
      { split; apply Rmult_lt_reg_r with (IZR d); try exact Dp; rewrite Ev.
        - assert (0 < IZR (m * 2 ^ s mod d)) by (apply IZR_lt; lia). nra.
        - assert (IZR (m * 2 ^ s mod d) < IZR d) by (apply IZR_lt; lia). rewrite plus_IZR. nra. }
      assert (Lu : IZR q * bpow radix2 (- s) < u < IZR (q + 1) * bpow radix2 (- s)).
      { rewrite Eu, plus_IZR. split; apply Rmult_lt_compat_r; lra. }
      apply Rle_antisym; apply (rnd_open s q); auto; lia. }
  pose proof (binary_normalize_correct fprec femax fprec_gt_0 fprec_lt_emax mode_NE (2 * q + st) (- (s + 1)) false) as C.
  cbv zeta in C. fold u in C. simpl round_mode in C. fold (rnd u) in C. rewrite R in C.
  assert (BB : Rabs (rnd v) <= big) by (apply rnd_big; rewrite Rabs_pos_eq; assumption).
  rewrite Rlt_bool_true in C.
  - destruct C as [C1 [C2 _]]. split; assumption.
  - eapply Rle_lt_trans; [exact BB|]. unfold big. apply bpow_lt. reflexivity.
Qed.

(** * Decimal texts *)
Lemma digit_text_all : forall s, digit_text s -> all_digits s = true.
Proof.
  intros s H. unfold all_digits. apply forallb_forall. intros c I. pose proof (proj1 (Forall_forall _ _) H c I) as H1. cbv beta in H1.
  unfold is_digit. lia.
Qed.
Lemma digit_text_no : forall s c, digit_text s -> ~ (48 <= c <= 57)%Z -> ~ In c s.
Proof. intros s c H N I. exact (N (proj1 (Forall_forall _ _) H c I)). Qed.
Definition dec_char (c : Z) : Prop := (c = 46 \/ 48 <= c <= 57)%Z.
Lemma dec_drop : forall s b, Forall dec_char s -> drop_underscores b s = Some s.
Proof.
  induction s as [|c t IH]; intros b H; [reflexivity|]. inversion H; subst. cbn [drop_underscores].
  replace (c =? 95)%Z with false by (symmetry; unfold dec_char in *; lia). rewrite IH by assumption. reflexivity.
Qed.
Lemma dec_exp : forall s, Forall dec_char s -> split_exponent s = (s, None).
Proof.
  induction s as [|c t IH]; intros H; [reflexivity|]. inversion H; subst. cbn [split_exponent].
  replace ((c =? 101) || (c =? 69))%Z with false by (symmetry; unfold dec_char in *; lia). now rewrite IH.
Qed.
Lemma dec_lstrip : forall s, Forall dec_char s -> lstrip_by num_space s = s.
Proof.
  intros [|c t] H; [reflexivity|]. inversion H; subst. cbn [lstrip_by].
  replace (num_space c) with false; [reflexivity|]. symmetry. unfold num_space, is_space, dec_char in *. lia.
Qed.
Lemma dec_strip : forall s, Forall dec_char s -> strip_by num_space s = s.
Proof.
  intros s H. unfold strip_by, rstrip_by. rewrite (dec_lstrip s H), (dec_lstrip (rev s)); [apply rev_involutive|].
  now apply Forall_rev.
Qed.
Lemma dec_sign : forall s, Forall dec_char s -> split_sign s = (false, s).
Proof.
  intros [|c t] H; [reflexivity|]. inversion H; subst. unfold split_sign, dec_char in *.
  repeat (match goal with |- context [if ?b then _ else _] => replace b with false by (symmetry; lia) end). reflexivity.
Qed.
Lemma whole_value_acc : forall s a, IZR (fold_left (fun a c => a * 10 + (c - 48))%Z s a) = whole_value (IZR a) s.
Proof.
  induction s as [|c t IH]; intros a; [reflexivity|]. cbn [fold_left whole_value]. rewrite IH. f_equal.
  rewrite plus_IZR, mult_IZR. ring.
Qed.
Lemma fraction_acc : forall s a, whole_value a s = (a + fraction_value s) * 10 ^ List.length s.
Proof.
  induction s as [|c t IH]; intros a; cbn [whole_value fraction_value List.length pow]; [ring|]. rewrite IH. field.
Qed.
Lemma whole_value_app : forall s t a, whole_value a (s ++ t) = whole_value (whole_value a s) t.
Proof. induction s as [|c s IH]; intros t a; [reflexivity|]. cbn. apply IH. Qed.
Lemma digits_pos : forall s a, (0 <= a)%Z -> digit_text s -> (0 <= fold_left (fun a c => a * 10 + (c - 48))%Z s a)%Z.
Proof.
  induction s as [|c t IH]; intros a Ha H; [exact Ha|]. inversion H; subst. cbn [fold_left]. apply IH; [lia|assumption].
Qed.
Lemma py_float_decimal : forall i f, digit_text i -> digit_text f -> (i <> [] \/ f <> []) -> decimal_value i f <= big ->
  exists a, py_float (i ++ 46%Z :: f) = Ok a /\ fin a (nearest (decimal_value i f)).
Proof.
  intros i f Hi Hf N B.
  assert (D : Forall dec_char (i ++ 46%Z :: f)).
  { apply Forall_app. split; [|constructor; [left; reflexivity|]]; (eapply Forall_impl; [|eassumption]); intros c Hc; right; exact Hc. }
  unfold py_float. rewrite ascii_digits_low by (intros c I; rewrite Forall_forall in D; specialize (D c I); unfold dec_char in D; lia).
  rewrite (dec_strip _ D), (dec_drop _ false D), (dec_sign _ D), (dec_exp _ D).
  rewrite split_on_app by (apply digit_text_no; [assumption|lia]).
  rewrite split_on_single by (apply digit_text_no; [assumption|lia]).
  cbn [exponent_value]. rewrite (digit_text_all i Hi), (digit_text_all f Hf).
  replace (Nat.eqb (List.length i + List.length f) 0) with false
    by (symmetry; apply Nat.eqb_neq; destruct N as [N|N]; destruct i, f; try congruence; cbn; lia).
  cbn [andb negb]. cbv zeta.
  set (n := digits_value (i ++ f)).
  assert (En : IZR n = decimal_value i f * 10 ^ List.length f).
  { unfold n, digits_value. rewrite (whole_value_acc (i ++ f) 0), whole_value_app, fraction_acc. reflexivity. }
  assert (Pn : (0 <= n)%Z). { unfold n, digits_value. apply digits_pos; [lia|]. apply Forall_app. now split. }
  assert (Ep : IZR (10 ^ zlen f) = 10 ^ List.length f) by (unfold zlen; rewrite pow_IZR; reflexivity).
  assert (P10 : 0 < 10 ^ List.length f) by (apply pow_lt; lra).
  eexists. split; [reflexivity|].
  change (nearest (decimal_value i f)) with (rnd (decimal_value i f)).
  assert (L0 : (0 <= zlen f)%Z) by (unfold zlen; lia).
  destruct (0 <=? 0 - zlen f)%Z eqn:K.
  - assert (E0 : zlen f = 0%Z) by lia. rewrite E0. change (10 ^ (0 - 0))%Z with 1%Z. rewrite Z.mul_1_r.
    assert (E1 : List.length f = 0%nat) by (unfold zlen in E0; lia). rewrite E1 in En. cbn [pow] in En.
    replace (decimal_value i f) with (IZR n / IZR 1) by (rewrite En; field). apply fratio_spec; auto; [lia|].
    replace (IZR n / IZR 1) with (decimal_value i f) by (rewrite En; field). exact B.
  - replace (- (0 - zlen f))%Z with (zlen f) by lia.
    assert (Eq : IZR n / IZR (10 ^ zlen f) = decimal_value i f) by (rewrite En, Ep; field; lra).
    rewrite <- Eq. apply fratio_spec; auto; [apply Z.pow_pos_nonneg; lia|]. now rewrite Eq.
Qed.
