(** Lemmas: [float] reads exactly the texts of its grammar, correctly rounded. *)
From Coq Require Import ZArith List Bool String Lia Reals Lra.
From Flocq Require Import Core IEEE754.BinarySingleNaN.
From Verif Require Import PyBase PyLemmas F64 FloatLemmas ColorSpec BlendSpec BlendProofs SpanProofs DecSpec DecProofs NumSpec NumProofs.
Import ListNotations.
Open Scope Z_scope.
Open Scope list_scope.

(** * Underscores *)
Lemma drop_no95 : forall s p x, drop_underscores p s = Some x -> ~ In 95 x.
Proof.
  induction s as [|a t IH]; intros p x H; cbn [drop_underscores] in H; [injection H as <-; intros []|].
  destruct (a =? 95) eqn:A.
  - destruct t as [|d t']; [discriminate|]. destruct (p && is_digit d); [|discriminate]. eauto.
  - destruct (drop_underscores (is_digit a) t) as [o|] eqn:O; [|discriminate]. injection H as <-.
    intros [E|I]; [lia|]. exact (IH _ _ O I).
Qed.
Lemma drop_nil : forall s p, drop_underscores p s = Some [] -> s = [].
Proof.
  induction s as [|a t IH]; intros p H; [reflexivity|]. cbn [drop_underscores] in H. destruct (a =? 95).
  - destruct t as [|d t']; [discriminate|]. destruct (p && is_digit d); [|discriminate]. apply IH in H. discriminate.
  - destruct (drop_underscores (is_digit a) t); discriminate.
Qed.
Lemma drop_split : forall s p x c y, drop_underscores p s = Some (x ++ c :: y) -> is_digit c = false ->
  exists sx sy, s = sx ++ c :: sy /\ drop_underscores p sx = Some x /\ drop_underscores false sy = Some y.
Proof.
  induction s as [|a t IH]; intros p x c y H D; cbn [drop_underscores] in H; [destruct x; discriminate|].
  destruct (a =? 95) eqn:A.
  - destruct t as [|d t']; [discriminate|]. destruct (p && is_digit d) eqn:P; [|discriminate].
    destruct (IH _ _ _ _ H D) as [sx [sy [E [X Y]]]]. exists (a :: sx), sy. split; [now rewrite E|]. split; [|exact Y].
    cbn [drop_underscores]. rewrite A. destruct sx as [|d' sx].
    + exfalso. injection E as -> _. rewrite D, andb_false_r in P. discriminate.
    + injection E as <- _. now rewrite P.
  - destruct (drop_underscores (is_digit a) t) as [o|] eqn:O; [|discriminate]. injection H as H.
    destruct x as [|b x]; cbn [app] in H.
    + injection H as -> ->. rewrite D in O. exists [], t. auto.
    + injection H as <- ->. destruct (IH _ _ _ _ O D) as [sx [sy [E [X Y]]]]. exists (a :: sx), sy. split; [now rewrite E|].
      split; [|exact Y]. cbn [drop_underscores]. rewrite A, X. reflexivity.
Qed.
Lemma drop_join : forall sx p x c sy y, drop_underscores p sx = Some x -> is_digit c = false -> c <> 95 ->
  drop_underscores false sy = Some y -> drop_underscores p (sx ++ c :: sy) = Some (x ++ c :: y).
Proof.
  induction sx as [|a t IH]; intros p x c sy y H D N Y; cbn [app drop_underscores] in *.
  - injection H as <-. rewrite (proj2 (Z.eqb_neq c 95) N), D, Y. reflexivity.
  - destruct (a =? 95) eqn:A.
    + destruct t as [|d t']; [discriminate|]. cbn [app]. destruct (p && is_digit d) eqn:P; [|discriminate]. now apply IH.
    + destruct (drop_underscores (is_digit a) t) as [o|] eqn:O; [|discriminate]. injection H as <-.
      rewrite (IH _ _ c sy y O) by assumption. reflexivity.
Qed.
Lemma digit_self : forall c, is_digit c = true -> digit 10 c (c - 48).
Proof. intros c H. left. apply decimal_spec. now apply decimal_digit. Qed.
Lemma drop_digits : forall n s x, (List.length s <= n)%nat -> drop_underscores false s = Some x -> all_digits x = true ->
  opt_numeral s (map (fun c => c - 48) x).
Proof.
  induction n as [|n IH]; intros s x L H D.
  { destruct s; [injection H as <-; now left|cbn in L; lia]. }
  destruct s as [|c t]; [injection H as <-; now left|]. right. cbn [drop_underscores] in H.
  destruct (c =? 95) eqn:C; [destruct t; discriminate|].
  destruct (drop_underscores (is_digit c) t) as [o|] eqn:O; [|discriminate]. injection H as <-. unfold all_digits in *.
  cbn [forallb] in D. apply andb_true_iff in D. destruct D as [Dc D]. rewrite Dc in O. cbn [List.length] in L. cbn [map].
  pose proof (digit_self c Dc) as DG.
  destruct t as [|e t].
  - injection O as <-. now constructor.
  - cbn [drop_underscores] in O. destruct (e =? 95) eqn:E.
    + apply Z.eqb_eq in E. subst e. destruct t as [|d t']; [discriminate|]. destruct (is_digit d) eqn:DD; [|discriminate].
      cbn [List.length andb] in *. destruct (IH (d :: t') o) as [[X _]|N]; [cbn; lia|exact O|exact D|discriminate|].
      apply (num_more 10 c (c - 48) [95]); auto.
    + destruct (IH (e :: t) o) as [[X _]|N]; [exact (proj2 (Nat.succ_le_mono _ _) L)| |exact D|discriminate|].
      * cbn [drop_underscores]. rewrite E. exact O.
      * apply (num_more 10 c (c - 48) []); auto.
Qed.
Lemma flat_digit10 : forall c d, ascii_digit c = c -> digit 10 c d -> c = 48 + d /\ 0 <= d <= 9.
Proof.
  intros c d F [H|[H _]]; [|discriminate]. pose proof H as [R _]. apply ascii_digit_spec in H; [|exact R]. split; [congruence|exact R].
Qed.
Lemma numeral_drop : forall s ds, numeral 10 s ds -> flat s -> forall p, drop_underscores p s = Some (map (fun d => 48 + d) ds) /\
  Forall (fun d => 0 <= d <= 9) ds.
Proof.
  intros s ds H. induction H as [c d H|c d u s ds H U N IH]; intros F p.
  - inversion F as [|? ? F1 F2]; subst. destruct (flat_digit10 _ _ F1 H) as [-> R]. split; [|repeat constructor; lia].
    cbn [drop_underscores map]. replace (48 + d =? 95) with false by lia. reflexivity.
  - inversion F as [|? ? F1 F2]; subst. destruct (flat_digit10 _ _ F1 H) as [-> R]. cbn [drop_underscores map].
    replace (48 + d =? 95) with false by lia. replace (is_digit (48 + d)) with true by (unfold is_digit; lia).
    destruct U as [-> | ->]; cbn [app] in *.
    + destruct (IH F2 true) as [-> R']. split; [reflexivity|constructor; [lia|exact R']].
    + inversion F2 as [|? ? F3 F4]; subst. destruct (IH F4 false) as [E R']. split; [|constructor; [lia|exact R']].
      cbn [drop_underscores]. change (95 =? 95) with true. cbv iota. destruct (numeral_head _ _ _ N) as [x [t [e [-> X]]]].
      inversion F4 as [|? ? F5 F6]; subst. destruct (flat_digit10 _ _ F5 X) as [-> R2].
      replace (is_digit (48 + e)) with true by (unfold is_digit; lia). cbn [andb]. rewrite E. reflexivity.
Qed.

(** * Exponents *)
Lemma split_exponent_fwd : forall s m e, split_exponent s = (m, e) ->
  match e with None => s = m | Some t => exists x, (x = 101 \/ x = 69) /\ s = m ++ x :: t end.
Proof.
  induction s as [|c t IH]; intros m e H; cbn [split_exponent] in H; [injection H as <- <-; reflexivity|].
  destruct ((c =? 101) || (c =? 69)) eqn:C.
  - injection H as <- <-. exists c. split; [lia|reflexivity].
  - destruct (split_exponent t) as [m' e'] eqn:E. injection H as <- <-. specialize (IH _ _ eq_refl). destruct e' as [u|].
    + destruct IH as [x [X ->]]. exists x. auto.
    + now rewrite IH.
Qed.
Lemma split_exponent_bwd : forall m t, Forall (fun c => c <> 101 /\ c <> 69) m ->
  split_exponent m = (m, None) /\ forall x, (x = 101 \/ x = 69) -> split_exponent (m ++ x :: t) = (m, Some t).
Proof.
  intros m t H. induction H as [|c m [H1 H2] H [IH1 IH2]].
  - split; [reflexivity|]. intros x X. cbn [app split_exponent]. replace ((x =? 101) || (x =? 69)) with true by lia. reflexivity.
  - cbn [app split_exponent]. replace ((c =? 101) || (c =? 69)) with false by lia. rewrite IH1. split; [reflexivity|].
    intros x X. now rewrite IH2.
Qed.

(** * The quotient, for all sizes *)
Open Scope R_scope.
Lemma fratio_holds : forall m d, (0 <= m)%Z -> (0 < d)%Z -> holds (fratio m d) (IZR m / IZR d).
Proof.
  intros m d Hm Hd. unfold fratio. set (s := (1200 + Z.log2_up d)%Z).
  assert (Hs : (1200 <= s)%Z) by (unfold s; pose proof (Z.log2_up_nonneg d); lia).
  set (q := (m * 2 ^ s / d)%Z). set (st := if (m * 2 ^ s mod d =? 0)%Z then 0%Z else 1%Z).
  set (v := IZR m / IZR d).
  assert (Hv0 : 0 <= v). { unfold v. apply Rmult_le_pos; [now apply IZR_le|]. apply Rlt_le, Rinv_0_lt_compat. now apply IZR_lt. }
  set (u := F2R (Float radix2 (2 * q + st) (- (s + 1)))).
  assert (DM : (m * 2 ^ s = d * q + m * 2 ^ s mod d)%Z) by (apply Z.div_mod; lia).
  pose proof (Z.mod_pos_bound (m * 2 ^ s) d Hd) as MB.
  assert (Dp : 0 < IZR d) by now apply IZR_lt.
  pose proof (bpow_gt_0 radix2 (- s)) as P.
  assert (Ps : IZR (2 ^ s) * bpow radix2 (- s) = 1).
  { rewrite (IZR_Zpower radix2) by lia. rewrite <- bpow_plus. replace (s + - s)%Z with 0%Z by lia. reflexivity. }
  assert (Ev : v * IZR d = (IZR d * IZR q + IZR (m * 2 ^ s mod d)) * bpow radix2 (- s)).
  { unfold v. rewrite <- mult_IZR, <- plus_IZR, <- DM, mult_IZR. replace (IZR m / IZR d * IZR d) with (IZR m) by (field; lra).
    rewrite Rmult_assoc, Ps. ring. }
  assert (Eu : u = (IZR q + IZR st / 2) * bpow radix2 (- s)).
  { unfold u, F2R. cbn [Fnum Fexp]. replace (- (s + 1))%Z with (-1 + - s)%Z by lia. rewrite bpow_plus.
    change (bpow radix2 (-1)) with (/ 2). rewrite plus_IZR, mult_IZR. field. }
  assert (R : rnd u = rnd v).
  { unfold st in Eu. destruct (m * 2 ^ s mod d =? 0)%Z eqn:Z0.
    - apply Z.eqb_eq in Z0. rewrite Z0 in Ev. f_equal. rewrite Eu.
      apply Rmult_eq_reg_r with (IZR d); [|lra]. rewrite Ev. field.
    - apply Z.eqb_neq in Z0.
      assert (Lv : IZR q * bpow radix2 (- s) < v < IZR (q + 1) * bpow radix2 (- s)).
      { split; apply Rmult_lt_reg_r with (IZR d); try exact Dp; rewrite Ev.
        - assert (0 < IZR (m * 2 ^ s mod d)) by (apply IZR_lt; lia). nra.
        - assert (IZR (m * 2 ^ s mod d) < IZR d) by (apply IZR_lt; lia). rewrite plus_IZR. nra. }
      assert (Lu : IZR q * bpow radix2 (- s) < u < IZR (q + 1) * bpow radix2 (- s)).
      { rewrite Eu, plus_IZR. split; apply Rmult_lt_compat_r; lra. }
      apply Rle_antisym; apply (rnd_open s q); auto; lia. }
  pose proof (binary_normalize_correct fprec femax fprec_gt_0 fprec_lt_emax mode_NE (2 * q + st) (- (s + 1)) false) as C.
  cbv zeta in C. fold u in C. simpl round_mode in C. fold (rnd u) in C. rewrite R in C.
  unfold holds. change (nearest v) with (rnd v).
  destruct (Rlt_or_le (Rabs (rnd v)) (bpow radix2 1024)) as [B|B].
  - left. split; [exact B|]. rewrite Rlt_bool_true in C by exact B. destruct C as [C1 [C2 _]]. now split.
  - right. split; [exact B|]. rewrite Rlt_bool_false in C by exact B. split; [|intro; lra].
    intros _.
    assert (Qp : (0 <= q)%Z) by (unfold q; apply Z.div_pos; [|lia]; apply Z.mul_nonneg_nonneg; [lia|]; apply Z.pow_nonneg; lia).
    assert (Sg : Rlt_bool u 0 = false).
    { apply Rlt_bool_false. rewrite Eu. apply Rmult_le_pos; [|lra]. assert (0 <= IZR q) by now apply IZR_le.
      unfold st. destruct (_ =? 0)%Z; lra. }
    rewrite Sg in C. unfold binary_overflow in C. simpl in C.
    destruct (binary_normalize fprec femax fprec_gt_0 fprec_lt_emax mode_NE (2 * q + st) (- (s + 1)) false); try discriminate.
    injection C as ->. reflexivity.
Qed.
Lemma holds_opp : forall a v, holds a v -> holds (Bopp a) (- v).
Proof.
  intros a v H. unfold holds. assert (E : nearest (- v) = - nearest v).
  { unfold nearest. rewrite <- round_NE_opp. reflexivity. }
  rewrite E, Rabs_Ropp. destruct H as [[B [F V]]|[B [P M]]].
  - left. split; [exact B|]. split; [now rewrite is_finite_Bopp|]. now rewrite B2R_Bopp, V.
  - right. split; [exact B|]. split; intro H.
    + rewrite M by lra. reflexivity.
    + rewrite P by lra. reflexivity.
Qed.
Open Scope Z_scope.

(** * Float texts *)
Lemma opt_numeral_ascii : forall s ds, opt_numeral (map ascii_digit s) ds <-> opt_numeral s ds.
Proof.
  intros s ds. unfold opt_numeral. pose proof (numeral_ascii 10 s ds) as N. unfold ascii_digits in N. rewrite N.
  split; (intros [[E D]|H]; [left; split; [|exact D]|now right]).
  - destruct s; [reflexivity|discriminate].
  - now subst s.
Qed.
Lemma exponent_ascii : forall s e, exponent (map ascii_digit s) e <-> exponent s e.
Proof.
  intros s e. unfold exponent. split; (intros [[E D]|[x [sg [k [body [ds [X [S [N [E V]]]]]]]]]]; [left; split; [|exact D]|right]).
  - destruct s; [reflexivity|discriminate].
  - destruct s as [|c s]; [discriminate|]. injection E as Ec E. apply ascii_other in Ec; [|lia]. subst c.
    apply map_eq_app in E. destruct E as [sg' [body' [-> [Es Eb]]]]. pose proof (map_sign _ _ _ Es S) as Q. subst sg'.
    exists x, sg, k, body', ds. repeat split; auto. subst body. now apply numeral_ascii.
  - now subst s.
  - subst s. exists x, sg, k, (map ascii_digit body), ds. repeat split; auto.
    + now apply numeral_ascii.
    + cbn [map]. rewrite map_app, (sign_map sg k S), ascii_digit_low by lia. reflexivity.
Qed.
Lemma float_text_ascii : forall s v, float_text (ascii_digits s) v <-> float_text s v.
Proof.
  intros s v. unfold float_text, ascii_digits. split.
  - intros [l [sg [k [i [ds [f [fs [x [e [r [L [S [I [F [N [X [R [E V]]]]]]]]]]]]]]]]]].
    apply map_eq_app in E. destruct E as [l' [s1 [-> [El E]]]]. apply map_eq_app in E. destruct E as [sg' [s2 [-> [Es E]]]].
    apply map_eq_app in E. destruct E as [i' [s3 [-> [Ei E]]]]. destruct s3 as [|c s3]; [discriminate|]. injection E as Ec E.
    apply ascii_other in Ec; [|lia]. subst c. apply map_eq_app in E. destruct E as [f' [s4 [-> [Ef E]]]].
    apply map_eq_app in E. destruct E as [x' [r' [-> [Ex Er]]]]. pose proof (map_sign _ _ _ Es S) as Q. subst sg' i f x.
    exists l', sg, k, i', ds, f', fs, x', e, r'. rewrite opt_numeral_ascii in I, F. rewrite exponent_ascii in X.
    repeat split; auto; try (eapply map_blanks; eauto).
    destruct N as [N|N]; [left|right]; intro Q0; apply N; now subst.
  - intros [l [sg [k [i [ds [f [fs [x [e [r [L [S [I [F [N [X [R [-> V]]]]]]]]]]]]]]]]]].
    exists l, sg, k, (map ascii_digit i), ds, (map ascii_digit f), fs, (map ascii_digit x), e, r.
    rewrite !opt_numeral_ascii, exponent_ascii. repeat split; auto.
    + destruct N as [N|N]; [left|right]; intros H; apply N; [destruct i|destruct f]; auto; discriminate.
    + rewrite !map_app. cbn [map]. rewrite !map_app. rewrite (proj1 (blanks_map l L)), (proj1 (blanks_map r R)), (sign_map sg k S).
      rewrite (ascii_digit_low 46) by lia. reflexivity.
Qed.

Lemma undrop_sign : forall m sg k t, drop_underscores false m = Some (sg ++ t) -> sign sg k ->
  exists mt, m = sg ++ mt /\ drop_underscores false mt = Some t.
Proof.
  intros m sg k t H [[[->| ->] _]|[-> _]]; cbn [app] in *.
  - eauto.
  - destruct (drop_split m false [] 43 t H eq_refl) as [sx [sy [-> [X Y]]]]. apply drop_nil in X. subst sx. exists sy. auto.
  - destruct (drop_split m false [] 45 t H eq_refl) as [sx [sy [-> [X Y]]]]. apply drop_nil in X. subst sx. exists sy. auto.
Qed.
Lemma drop_sign : forall sg k mt t, sign sg k -> drop_underscores false mt = Some t -> drop_underscores false (sg ++ mt) = Some (sg ++ t).
Proof.
  intros sg k mt t [[[->| ->] _]|[-> _]] H; cbn [app].
  - exact H.
  - apply (drop_join [] false [] 43); auto; lia.
  - apply (drop_join [] false [] 45); auto; lia.
Qed.
Lemma digits_value_map : forall a, digits_value a = value 10 (map (fun c => c - 48) a).
Proof.
  intro a. unfold digits_value, value. generalize 0 as acc. induction a as [|c a IH]; intro acc; [reflexivity|]. cbn [map fold_left].
  rewrite IH. f_equal. lia.
Qed.
Lemma split_on_two : forall s a b, split_on 46 s = [a; b] <-> s = a ++ 46 :: b /\ ~ In 46 a /\ ~ In 46 b.
Proof.
  intros s a b. split.
  - intro H. pose proof (join_split_on 46 s) as J. pose proof (split_on_no_sep 46 s) as N. rewrite H in J, N.
    inversion N as [|? ? N1 N2]; subst. inversion N2; subst. auto.
  - intros [-> [A B]]. rewrite split_on_app by exact A. now rewrite split_on_single by exact B.
Qed.
Lemma exponent_fwd : forall x t m ex, (x = 101 \/ x = 69) -> drop_underscores false m = Some t -> exponent_value (Some t) = Some ex ->
  exponent (x :: m) ex.
Proof.
  intros x t m ex X D H. cbn [exponent_value] in H. destruct (split_sign t) as [neg d] eqn:SS.
  destruct (split_sign_fwd _ _ _ SS) as [sg [S ->]]. destruct (undrop_sign m sg _ d D S) as [md [-> Dd]].
  destruct d as [|c d]; [discriminate|]. destruct (all_digits (c :: d)) eqn:A; [|discriminate].
  destruct (drop_digits _ md (c :: d) (le_n _) Dd A) as [[_ N]|N]; [discriminate|].
  right. exists x, sg, (if neg then -1 else 1), md, (map (fun c => c - 48) (c :: d)). repeat split; auto.
  rewrite <- digits_value_map. injection H as <-. destruct neg; lia.
Qed.

(** the value computed *)
Lemma value_nonneg : forall ds, Forall (fun d => 0 <= d <= 9) ds -> 0 <= value 10 ds.
Proof.
  intros ds H. unfold value. assert (G : forall acc, 0 <= acc -> 0 <= fold_left (fun n d => 10 * n + d) ds acc); [|apply G; lia].
  induction H as [|d ds D H IH]; intros acc A; [exact A|]. cbn [fold_left]. apply IH. lia.
Qed.
Lemma float_value : forall n k, 0 <= n ->
  holds (if 0 <=? k then fratio (n * 10 ^ k) 1 else fratio n (10 ^ (- k))) (IZR n * powerRZ 10 k)%R.
Proof.
  intros n k Hn. destruct (0 <=? k) eqn:K.
  - replace (IZR n * powerRZ 10 k)%R with (IZR (n * 10 ^ k) / IZR 1)%R.
    + apply fratio_holds; [|lia]. apply Z.mul_nonneg_nonneg; [exact Hn|]. apply Z.pow_nonneg. lia.
    + rewrite mult_IZR. rewrite <- (Z2Nat.id k) by lia. rewrite <- pow_IZR, <- pow_powerRZ. field.
  - assert (P : 0 < 10 ^ (- k)) by (apply Z.pow_pos_nonneg; lia).
    replace (IZR n * powerRZ 10 k)%R with (IZR n / IZR (10 ^ (- k)))%R; [now apply fratio_holds|].
    unfold Rdiv. f_equal. replace k with (- (- k)) at 2 by lia. rewrite powerRZ_neg'. f_equal.
    rewrite <- (Z2Nat.id (- k)) by lia. rewrite <- pow_IZR, <- pow_powerRZ. reflexivity.
Qed.
Lemma signed_value : forall (neg : bool) v x, holds v x -> holds (if neg then Bopp v else v) (IZR (if neg then -1 else 1) * x)%R.
Proof.
  intros neg v x H. destruct neg.
  - replace (IZR (-1) * x)%R with (- x)%R by ring. now apply holds_opp.
  - now rewrite Rmult_1_l.
Qed.

Lemma all_digits_range : forall a, all_digits a = true -> Forall (fun d => 0 <= d <= 9) (map (fun c => c - 48) a).
Proof.
  intros a H. unfold all_digits in H. rewrite forallb_forall in H. apply Forall_map, Forall_forall. intros c I. specialize (H c I).
  unfold is_digit in H. lia.
Qed.
Lemma opt_of_drop : forall s x, drop_underscores false s = Some x -> all_digits x = true -> opt_numeral s (map (fun c => c - 48) x).
Proof. intros s x H D. exact (drop_digits _ s x (le_n _) H D). Qed.
Lemma py_float_reads : forall s a, py_float s = Ok a -> exists v, float_text s v /\ holds a v.
Proof.
  intros s a H. cut (exists v, float_text (ascii_digits s) v /\ holds a v).
  { intros [v [T V]]. exists v. split; [now apply float_text_ascii|exact V]. }
  unfold py_float in H. revert H. generalize (ascii_digits s) as t. clear s. intros t H.
  destruct (strip_split num_space t) as [l [r [E [L [R _]]]]]. set (m := strip_by num_space t) in *.
  destruct (drop_underscores false m) as [m'|] eqn:DU; [|discriminate].
  destruct (split_sign m') as [neg m1] eqn:SS. destruct (split_sign_fwd _ _ _ SS) as [sg [S E1]].
  destruct (split_exponent m1) as [mm e] eqn:SE. apply split_exponent_fwd in SE.
  destruct (split_on 46 mm) as [|a' [|b' [|]]] eqn:SO; try discriminate. apply split_on_two in SO. destruct SO as [SO _].
  destruct (exponent_value e) as [ex|] eqn:EV; [|discriminate].
  destruct (all_digits a' && all_digits b' && negb (Nat.eqb (List.length a' + List.length b') 0)) eqn:AD; [|discriminate].
  apply andb_true_iff in AD. destruct AD as [AD NZ]. apply andb_true_iff in AD. destruct AD as [Aa Ab].
  cbv zeta in H. injection H as <-.
  subst m'. destruct (undrop_sign m sg _ m1 DU S) as [mt [E2 D1]].
  assert (NE : a' <> [] \/ b' <> []).
  { destruct a' as [|]; [|left; discriminate]. destruct b' as [|]; [discriminate|right; discriminate]. }
  (* the parts of the text *)
  assert (PARTS : exists i f x, mt = i ++ 46 :: f ++ x /\ drop_underscores false i = Some a' /\ drop_underscores false f = Some b' /\ exponent x ex).
  { destruct e as [t'|].
    - destruct SE as [x [X ->]]. rewrite SO in D1. rewrite <- app_assoc in D1. cbn [app] in D1.
      destruct (drop_split mt false a' 46 (b' ++ x :: t') D1 eq_refl) as [i [sy [-> [Di Dy]]]].
      assert (DX : is_digit x = false) by (unfold is_digit; lia).
      destruct (drop_split sy false b' x t' Dy DX) as [f [se [-> [Df De]]]].
      exists i, f, (x :: se). repeat split; auto. now apply (exponent_fwd x t').
    - subst m1. rewrite SO in D1. destruct (drop_split mt false a' 46 b' D1 eq_refl) as [i [f [-> [Di Df]]]].
      exists i, f, []. rewrite app_nil_r. repeat split; auto. left. injection EV as <-. auto. }
  destruct PARTS as [i [f [x [-> [Di [Df X]]]]]].
  pose proof (opt_of_drop _ _ Di Aa) as Ni. pose proof (opt_of_drop _ _ Df Ab) as Nf.
  eexists. split.
  - exists l, sg, (if neg then -1 else 1), i, (map (fun c => c - 48) a'), f, (map (fun c => c - 48) b'), x, ex, r.
    repeat split; auto.
    + eapply Forall_impl; [|exact L]. intros c Hc. now apply blank_spec.
    + destruct NE as [NE|NE]; [left|right]; intros ->; [injection Di as <-|injection Df as <-]; now apply NE.
    + eapply Forall_impl; [|exact R]. intros c Hc. now apply blank_spec.
    + rewrite E at 1. rewrite E2. repeat (rewrite <- !app_assoc; cbn [app]). reflexivity.
  - rewrite Rmult_assoc. apply signed_value. rewrite <- map_app, <- digits_value_map.
    replace (zlen (map (fun c => c - 48) b')) with (zlen b') by (unfold zlen; now rewrite map_length).
    apply float_value. rewrite digits_value_map. apply value_nonneg, all_digits_range. unfold all_digits in *.
    now rewrite forallb_app, Aa, Ab.
Qed.

Lemma opt_numeral_drop : forall s ds, opt_numeral s ds -> flat s -> drop_underscores false s = Some (map (fun d => 48 + d) ds) /\
  Forall (fun d => 0 <= d <= 9) ds.
Proof. intros s ds [[-> ->]|H] F; [split; [reflexivity|constructor]|now apply numeral_drop]. Qed.
Lemma all_digits_map : forall ds, Forall (fun d => 0 <= d <= 9) ds -> all_digits (map (fun d => 48 + d) ds) = true.
Proof.
  intros ds H. unfold all_digits. apply forallb_forall. intros c I. apply in_map_iff in I. destruct I as [d [<- I]].
  rewrite Forall_forall in H. specialize (H d I). unfold is_digit. lia.
Qed.
Lemma map_back : forall ds, map (fun c => c - 48) (map (fun d => 48 + d) ds) = ds.
Proof. intro ds. rewrite map_map. rewrite <- (map_id ds) at 2. apply map_ext. intro d. lia. Qed.
Lemma digits_not : forall ds c, Forall (fun d => 0 <= d <= 9) ds -> ~ 48 <= c <= 57 -> ~ In c (map (fun d => 48 + d) ds).
Proof.
  intros ds c H N I. apply in_map_iff in I. destruct I as [d [<- I]]. rewrite Forall_forall in H. specialize (H d I). lia.
Qed.
Lemma exponent_bwd : forall x e, exponent x e -> flat x ->
  (x = [] /\ e = 0) \/ exists c t m, (c = 101 \/ c = 69) /\ x = c :: m /\ drop_underscores false m = Some t /\ exponent_value (Some t) = Some e /\
    exists d u, x = u ++ [d] /\ num_space d = false.
Proof.
  intros x e [H|[c [sg [k [body [ds [X [S [N [-> ->]]]]]]]]]] F; [now left|]. right.
  inversion F as [|? ? F1 F2]; subst. apply flat_app in F2. destruct F2 as [Fs Fb].
  destruct (numeral_drop _ _ N Fb false) as [D R].
  exists c, (sg ++ map (fun d => 48 + d) ds), (sg ++ body). split; [exact X|]. split; [reflexivity|].
  split; [now apply (drop_sign sg k)|]. split.
  - cbn [exponent_value]. destruct ds as [|d ds].
    { exfalso. inversion N. }
    rewrite (split_sign_bwd sg k _ S).
    + cbn [map]. change (48 + d :: map (fun d => 48 + d) ds) with (map (fun d => 48 + d) (d :: ds)).
      rewrite all_digits_map by exact R. rewrite digits_value_map, map_back. f_equal.
      destruct S as [[_ ->]|[_ ->]]; [change (1 =? -1) with false|change (-1 =? -1) with true]; cbv iota; ring.
    + cbn [map]. inversion R; subst. lia.
  - destruct (numeral_last _ _ _ N) as [d [u [v [-> D']]]]. exists d, (c :: sg ++ u). split; [|eapply digit_not_blank; eauto].
    cbn [app]. now rewrite <- app_assoc.
Qed.
Lemma opt_numeral_head : forall s ds, opt_numeral s ds -> s = [] \/ exists c t d, s = c :: t /\ digit 10 c d.
Proof. intros s ds [[-> _]|H]; [now left|right]. exact (numeral_head _ _ _ H). Qed.
Lemma py_float_means : forall s v, float_text s v -> exists a, py_float s = Ok a /\ holds a v.
Proof.
  intros s v H. apply float_text_ascii in H. unfold py_float. pose proof (flat_ascii s) as FL. revert H FL.
  generalize (ascii_digits s) as t. clear s. intros t H FL.
  destruct H as [l [sg [k [i [ds [f [fs [x [e [r [L [S [I [F [N [X [R [-> ->]]]]]]]]]]]]]]]]]].
  assert (FF : flat i /\ flat f /\ flat x).
  { rewrite !flat_app in FL. destruct FL as [_ [_ [Fi FL]]]. inversion FL as [|? ? _ FL2]; subst. change (flat (f ++ x ++ r)) in FL2.
    rewrite !flat_app in FL2. tauto. }
  destruct FF as [Fi [Ff Fx]].
  destruct (opt_numeral_drop _ _ I Fi) as [Di Ri]. destruct (opt_numeral_drop _ _ F Ff) as [Df Rf].
  set (m := sg ++ i ++ 46 :: f ++ x).
  replace (l ++ sg ++ i ++ 46 :: f ++ x ++ r) with (l ++ m ++ r).
  2:{ unfold m. repeat (rewrite <- ?app_assoc; cbn [app]). reflexivity. }
  assert (BR : bare num_space m).
  { split.
    - unfold m. assert (HD : exists c t, i ++ 46 :: f ++ x = c :: t /\ num_space c = false).
      { destruct (opt_numeral_head _ _ I) as [->|[c [t [d [-> D]]]]].
        - exists 46, (f ++ x). split; reflexivity.
        - exists c, (t ++ 46 :: f ++ x). split; [reflexivity|]. eapply digit_not_blank; eauto. }
      destruct HD as [c [t [-> C]]]. destruct S as [[[->| ->] _]|[-> _]]; cbn [app]; [exact C|reflexivity|reflexivity].
    - assert (HD : exists c t, m = t ++ [c] /\ num_space c = false).
      { unfold m. destruct (exponent_bwd x e X Fx) as [[-> _]|[c [t [mm [_ [_ [_ [_ [d [u [-> D]]]]]]]]]]].
        - rewrite app_nil_r. destruct F as [[-> _]|F].
          + exists 46, (sg ++ i). split; [now rewrite <- app_assoc|reflexivity].
          + destruct (numeral_last _ _ _ F) as [c [t [d [-> D]]]]. exists c, (sg ++ i ++ 46 :: t).
            split; [|eapply digit_not_blank; eauto]. repeat (rewrite <- !app_assoc; cbn [app]). reflexivity.
        - exists d, (sg ++ i ++ 46 :: f ++ u). split; [|exact D]. repeat (rewrite <- !app_assoc; cbn [app]). reflexivity. }
      destruct HD as [c [t [-> C]]]. rewrite rev_app_distr. exact C. }
  rewrite strip_app; [| | | |exact BR].
  2:{ eapply Forall_impl; [|exact L]. intros c Hc. now apply blank_spec. }
  2:{ eapply Forall_impl; [|exact R]. intros c Hc. now apply blank_spec. }
  2:{ unfold m. intro Q. apply app_eq_nil in Q. destruct Q as [_ Q]. apply app_eq_nil in Q. destruct Q as [_ Q]. discriminate. }
  set (di := map (fun d => 48 + d) ds) in *. set (df := map (fun d => 48 + d) fs) in *.
  assert (NE : negb (Nat.eqb (List.length di + List.length df) 0) = true).
  { unfold di, df. rewrite !map_length. destruct N as [N|N].
    - destruct I as [[-> _]|I]; [congruence|]. destruct ds; [inversion I|reflexivity].
    - destruct F as [[-> _]|F]; [congruence|]. destruct fs; [inversion F|]. cbn [List.length]. rewrite Nat.add_succ_r. reflexivity. }
  assert (Ai : all_digits di = true) by now apply all_digits_map.
  assert (Af : all_digits df = true) by now apply all_digits_map.
  assert (SG : (if k =? -1 then -1 else 1) = k) by (destruct S as [[_ ->]|[_ ->]]; reflexivity).
  assert (NOEXP : Forall (fun c => c <> 101 /\ c <> 69) (di ++ 46 :: df)).
  { apply Forall_app. split; [|constructor; [lia|]]; apply Forall_forall; intros c Hc; split; intros ->; revert Hc;
      unfold di, df; apply digits_not; auto; lia. }
  assert (TWO : split_on 46 (di ++ 46 :: df) = [di; df]).
  { apply split_on_two. repeat split; unfold di, df; apply digits_not; auto; lia. }
  assert (VAL : forall w, w = e - zlen df -> holds (if k =? -1 then Bopp (if 0 <=? w then fratio (digits_value (di ++ df) * 10 ^ w) 1
            else fratio (digits_value (di ++ df)) (10 ^ (- w)))
       else if 0 <=? w then fratio (digits_value (di ++ df) * 10 ^ w) 1 else fratio (digits_value (di ++ df)) (10 ^ (- w)))
      (IZR k * IZR (value 10 (ds ++ fs)) * powerRZ 10 (e - zlen fs))%R).
  { intros w ->. rewrite Rmult_assoc. rewrite <- SG at 2. apply signed_value.
    assert (EV : digits_value (di ++ df) = value 10 (ds ++ fs)).
    { unfold di, df. rewrite <- map_app, digits_value_map, map_back. reflexivity. }
    rewrite EV. replace (zlen df) with (zlen fs) by (unfold df, zlen; now rewrite map_length).
    apply float_value, value_nonneg, Forall_app. now split. }
  assert (FIN : forall tl et ex, drop_underscores false (f ++ x) = Some (df ++ tl) ->
     split_exponent (di ++ 46 :: df ++ tl) = (di ++ 46 :: df, et) -> exponent_value et = Some ex -> ex = e ->
     exists a, match drop_underscores false m with
       | None => Err ValueError
       | Some s =>
           let '(neg, s) := split_sign s in
           let '(m, e) := split_exponent s in
           match split_on 46 m, exponent_value e with
           | [a; b], Some ex =>
               if all_digits a && all_digits b && negb (Nat.eqb (List.length a + List.length b) 0)
               then
                 let n := digits_value (a ++ b) in
                 let k := ex - zlen b in
                 let v := if 0 <=? k then fratio (n * 10 ^ k) 1 else fratio n (10 ^ (- k)) in
                 Ok (if neg then Bopp v else v)
               else Err ValueError
           | _, _ => Err ValueError
           end
       end = Ok a /\ holds a (IZR k * IZR (value 10 (ds ++ fs)) * powerRZ 10 (e - zlen fs))%R).
  { intros tl et ex D1 D2 D3 ->.
    assert (D4 : drop_underscores false m = Some (sg ++ di ++ 46 :: df ++ tl)).
    { unfold m. apply (drop_sign sg k); [exact S|]. apply drop_join; auto; lia. }
    rewrite D4. rewrite (split_sign_bwd sg k _ S).
    - rewrite D2, TWO, D3, Ai, Af, NE. cbn [andb]. cbv zeta. eexists. split; [reflexivity|]. now apply VAL.
    - unfold di. destruct ds as [|d ds']; cbn [map app]; [lia|]. inversion Ri; subst. lia. }
  destruct (exponent_bwd x e X Fx) as [[-> E0]|[c [t [mm [C [-> [Dm [EV _]]]]]]]].
  - apply (FIN [] None 0).
    + rewrite !app_nil_r. exact Df.
    + rewrite app_nil_r. apply (split_exponent_bwd _ [] NOEXP).
    + reflexivity.
    + now symmetry.
  - apply (FIN (c :: t) (Some t) e).
    + apply drop_join; auto; [unfold is_digit|]; lia.
    + change (di ++ 46 :: df ++ c :: t) with (di ++ (46 :: df) ++ c :: t). rewrite app_assoc. now apply split_exponent_bwd.
    + exact EV.
    + reflexivity.
Qed.
