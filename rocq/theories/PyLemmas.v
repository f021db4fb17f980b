(** Lemmas about PyBase. *)
From Coq Require Import ZArith List Bool Lia String FinFun.
From Verif Require Import PyBase.
Open Scope Z_scope.

#[global] Arguments Z.add : simpl never.
#[global] Arguments Z.sub : simpl never.
#[global] Arguments Z.mul : simpl never.
#[global] Arguments Z.opp : simpl never.
#[global] Arguments Z.div : simpl never.
#[global] Arguments Z.modulo : simpl never.
#[global] Arguments Z.pow : simpl never.
#[global] Arguments Z.of_nat : simpl never.
#[global] Arguments Z.to_nat : simpl never.
#[global] Arguments Z.max : simpl never.
#[global] Arguments Z.min : simpl never.

Lemma str_eqb_eq : forall a b, str_eqb a b = true <-> a = b.
Proof.
  induction a as [|x a IH]; destruct b as [|y b]; simpl; split; intro H; try congruence; auto.
  - apply andb_true_iff in H. destruct H as [H1 H2]. apply Z.eqb_eq in H1. apply IH in H2. congruence.
  - injection H as -> ->. rewrite Z.eqb_refl. simpl. now apply IH.
Qed.
Lemma str_eqb_refl : forall a, str_eqb a a = true.
Proof. intro a. now apply str_eqb_eq. Qed.
Lemma str_eqb_neq : forall a b, str_eqb a b = false <-> a <> b.
Proof.
  intros a b. split; intro H.
  - intro E. apply str_eqb_eq in E. congruence.
  - destruct (str_eqb a b) eqn:E; auto. apply str_eqb_eq in E. contradiction.
Qed.
Lemma str_eqb_sym : forall a b, str_eqb a b = str_eqb b a.
Proof.
  intros a b. destruct (str_eqb b a) eqn:E.
  - apply str_eqb_eq in E. subst. apply str_eqb_refl.
  - apply str_eqb_neq in E. apply str_eqb_neq. congruence.
Qed.

Lemma str_in_In : forall x l, str_in x l = true <-> In x l.
Proof.
  intros x l. unfold str_in. rewrite existsb_exists. split.
  - intros [y [H1 H2]]. apply str_eqb_eq in H2. now subst.
  - intro H. exists x. split; auto. apply str_eqb_refl.
Qed.

Lemma startswith_app : forall p s, startswith p (p ++ s) = true.
Proof. induction p; simpl; intros; auto. now rewrite Z.eqb_refl, IHp. Qed.
Lemma startswith_iff : forall p s, startswith p s = true <-> exists t, s = p ++ t.
Proof.
  induction p as [|x p IH]; intros s; simpl.
  - split; eauto.
  - destruct s as [|y s].
    + split; try congruence. intros [t H]. discriminate.
    + rewrite andb_true_iff, Z.eqb_eq, IH. split.
      * intros [-> [t ->]]. now exists t.
      * intros [t H]. injection H as -> ->. split; eauto.
Qed.
Lemma endswith_iff : forall p s, endswith p s = true <-> exists t, s = t ++ p.
Proof.
  intros p s. unfold endswith. rewrite startswith_iff. split; intros [t H].
  - exists (rev t). rewrite <- (rev_involutive s), H, rev_app_distr, rev_involutive. reflexivity.
  - exists (rev t). rewrite H, rev_app_distr. reflexivity.
Qed.

Lemma zlen_app : forall A (a b : list A), zlen (a ++ b) = zlen a + zlen b.
Proof. intros. unfold zlen. rewrite app_length. lia. Qed.
Lemma zlen_nonneg : forall A (a : list A), 0 <= zlen a.
Proof. intros. unfold zlen. lia. Qed.
Lemma zlen_nil : forall A, zlen (@nil A) = 0.
Proof. reflexivity. Qed.
Lemma zlen_cons : forall A (x : A) a, zlen (x :: a) = 1 + zlen a.
Proof. intros. unfold zlen. simpl List.length. lia. Qed.
Lemma zlen_map : forall A B (f : A -> B) l, zlen (map f l) = zlen l.
Proof. intros. unfold zlen. now rewrite map_length. Qed.
Lemma zlen_0 : forall A (l : list A), zlen l = 0 -> l = [].
Proof. intros A [|a l]; auto. rewrite zlen_cons. pose proof (zlen_nonneg A l). lia. Qed.

(** split_on *)
Lemma split_on_ne : forall c s, split_on c s <> [].
Proof.
  intros c s. induction s as [|x s IH]; simpl; try congruence.
  destruct (x =? c); try congruence. destruct (split_on c s); congruence.
Qed.
Lemma split_on_single : forall c s, ~ In c s -> split_on c s = [s].
Proof.
  induction s as [|x s IH]; simpl; intros H; auto.
  destruct (x =? c) eqn:E.
  - apply Z.eqb_eq in E. subst. exfalso. auto.
  - rewrite IH; auto.
Qed.
Lemma split_on_app : forall c a s, ~ In c a -> split_on c (a ++ c :: s) = a :: split_on c s.
Proof.
  induction a as [|x a IH]; simpl; intros s H.
  - now rewrite Z.eqb_refl.
  - destruct (x =? c) eqn:E.
    + apply Z.eqb_eq in E. subst. exfalso. auto.
    + rewrite IH; auto.
Qed.
Lemma split_on_join : forall c l, l <> [] -> Forall (fun p => ~ In c p) l ->
  split_on c (join [c] l) = l.
Proof.
  induction l as [|a l IH]; intros Hne H; [congruence|].
  inversion_clear H as [|? ? Ha Hl].
  destruct l as [|b l]; simpl.
  - now apply split_on_single.
  - change (a ++ c :: join [c] (b :: l)) with (a ++ c :: join [c] (b :: l)).
    rewrite split_on_app; auto. f_equal. apply IH; auto. congruence.
Qed.
Lemma join_split_on : forall c s, join [c] (split_on c s) = s.
Proof.
  induction s as [|x s IH]; simpl; auto.
  pose proof (split_on_ne c s) as Hne.
  destruct (x =? c) eqn:E.
  - apply Z.eqb_eq in E. subst.
    destruct (split_on c s) as [|h r] eqn:Es; [congruence|].
    simpl in *. now rewrite IH.
  - destruct (split_on c s) as [|h r] eqn:Es; [congruence|].
    destruct r; simpl in *; now rewrite IH.
Qed.
Lemma split_on_no_sep : forall c s, Forall (fun p => ~ In c p) (split_on c s).
Proof.
  induction s as [|x s IH]; simpl; auto.
  destruct (x =? c) eqn:E.
  - constructor; auto.
  - apply Z.eqb_neq in E. destruct (split_on c s) as [|h r].
    + constructor; auto. simpl. intros [H|[]]. auto.
    + inversion_clear IH. constructor; auto. simpl. intros [H'|H']; auto.
Qed.
Lemma split_on_length : forall c s, zlen (split_on c s) = 1 + count_char c s.
Proof.
  intros c s. unfold count_char. induction s as [|x s IH]; simpl; auto.
  rewrite (Z.eqb_sym c x). pose proof (split_on_ne c s).
  destruct (x =? c).
  - unfold zlen in *. cbn [List.length]. lia.
  - unfold zlen in *. destruct (split_on c s) as [|h r]; [congruence|]. exact IH.
Qed.

Lemma join_cons : forall sep a b l, join sep (a :: b :: l) = a ++ sep ++ join sep (b :: l).
Proof. reflexivity. Qed.

(** Decimal printing *)
Definition dval (s : str) : Z := fold_left (fun a c => a * 10 + (c - 48)) s 0.

Lemma dval_acc : forall s a,
  fold_left (fun a c => a * 10 + (c - 48)) s a = a * 10 ^ zlen s + dval s.
Proof.
  unfold dval. induction s as [|c s IH]; intros a.
  - simpl. rewrite zlen_nil. lia.
  - simpl. rewrite IH, (IH (0 * 10 + (c - 48))), zlen_cons.
    pose proof (zlen_nonneg _ s). rewrite Z.pow_add_r by lia. nia.
Qed.
Lemma dval_app : forall s t, dval (s ++ t) = dval s * 10 ^ zlen t + dval t.
Proof. intros. unfold dval. rewrite fold_left_app. rewrite dval_acc. reflexivity. Qed.

Lemma dec_fuel_spec : forall fuel n acc, 0 <= n < 10 ^ Z.of_nat fuel -> (0 < fuel)%nat ->
  exists ds, dec_fuel fuel n acc = ds ++ acc /\ dval ds = n /\ forallb is_digit ds = true
             /\ ds <> [] /\ (hd 0 ds = 48 -> ds = [48]).
Proof.
  induction fuel as [|f IH]; intros n acc Hn Hf; [lia|].
  cbn [dec_fuel].
  assert (Hm : 0 <= n mod 10 < 10) by (apply Z.mod_pos_bound; lia).
  destruct (n <? 10) eqn:E.
  - apply Z.ltb_lt in E. exists [48 + n mod 10]. rewrite Z.mod_small by lia.
    split; [reflexivity|]. split; [unfold dval; cbn [fold_left]; lia|]. split.
    + cbn [forallb]. unfold is_digit. replace (48 <=? 48 + n) with true by (symmetry; apply Z.leb_le; lia).
      replace (48 + n <=? 57) with true by (symmetry; apply Z.leb_le; lia). reflexivity.
    + split; [congruence|]. simpl. intros ->. reflexivity.
  - apply Z.ltb_ge in E.
    assert (Hf2 : (0 < f)%nat).
    { destruct f; [|lia]. change (10 ^ Z.of_nat 1) with 10 in Hn. lia. }
    assert (H2 : 0 <= n / 10 < 10 ^ Z.of_nat f).
    { split. apply Z.div_pos; lia. apply Z.div_lt_upper_bound; [lia|].
      rewrite Nat2Z.inj_succ, Z.pow_succ_r in Hn by lia. lia. }
    destruct (IH (n / 10) ((48 + n mod 10) :: acc) H2 Hf2) as [ds [H1 [H3 [H4 [H5 H6]]]]].
    exists (ds ++ [48 + n mod 10]). rewrite H1, <- app_assoc. split; [reflexivity|].
    split; [|split; [|split]].
    + rewrite dval_app, H3. unfold zlen. cbn [List.length]. change (Z.of_nat 1) with 1.
      unfold dval. cbn [fold_left]. pose proof (Z.div_mod n 10). lia.
    + rewrite forallb_app, H4. cbn [forallb]. unfold is_digit.
      replace (48 <=? 48 + n mod 10) with true by (symmetry; apply Z.leb_le; lia).
      replace (48 + n mod 10 <=? 57) with true by (symmetry; apply Z.leb_le; lia). reflexivity.
    + destruct ds; simpl; congruence.
    + destruct ds as [|d ds]; [congruence|]. simpl in *. intros Hd. specialize (H6 Hd).
      injection H6 as -> ->. exfalso. unfold dval in H3. cbn [fold_left] in H3. pose proof (Z.div_str_pos n 10). lia.
Qed.

Lemma dec_nonneg_spec : forall n, 0 <= n ->
  dval (dec_nonneg n) = n /\ forallb is_digit (dec_nonneg n) = true /\ dec_nonneg n <> []
  /\ (hd 0 (dec_nonneg n) = 48 -> dec_nonneg n = [48]).
Proof.
  intros n Hn. unfold dec_nonneg.
  assert (Hb : 0 <= n < 10 ^ Z.of_nat (S (Z.to_nat (Z.log2 n)))).
  { split; auto. rewrite Nat2Z.inj_succ, Z2Nat.id by apply Z.log2_nonneg.
    destruct (Z.eq_dec n 0) as [->|Hz]; [cbn; lia|].
    pose proof (Z.log2_spec n ltac:(lia)).
    pose proof (Z.pow_le_mono_l 2 10 (Z.succ (Z.log2 n)) ltac:(lia)). lia. }
  destruct (dec_fuel_spec _ n [] Hb ltac:(lia)) as [ds [H1 [H2 [H3 [H4 H5]]]]].
  rewrite H1, app_nil_r. auto.
Qed.

Lemma dec_pos : forall n, 0 <= n -> dec n = dec_nonneg n.
Proof. intros n H. unfold dec. destruct (n <? 0) eqn:E; auto. apply Z.ltb_lt in E. lia. Qed.
Lemma dec_digits : forall n, 0 <= n -> forallb is_digit (dec n) = true.
Proof. intros. rewrite dec_pos by auto. now apply dec_nonneg_spec. Qed.
Lemma dec_val : forall n, 0 <= n -> dval (dec n) = n.
Proof. intros. rewrite dec_pos by auto. now apply dec_nonneg_spec. Qed.
Lemma dec_ne : forall n, dec n <> [].
Proof.
  intros n. unfold dec. destruct (n <? 0) eqn:E; [congruence|].
  apply Z.ltb_ge in E. now apply dec_nonneg_spec.
Qed.
Lemma dec_hd : forall n, 0 <= n -> hd 0 (dec n) = 48 -> dec n = [48].
Proof. intros n H. rewrite dec_pos by auto. now apply dec_nonneg_spec. Qed.

Lemma is_digit_range : forall c, is_digit c = true <-> 48 <= c <= 57.
Proof. intro c. unfold is_digit. rewrite andb_true_iff, !Z.leb_le. lia. Qed.

Lemma forallb_digit_In : forall s c, forallb is_digit s = true -> In c s -> 48 <= c <= 57.
Proof. intros s c H Hi. rewrite forallb_forall in H. apply is_digit_range. auto. Qed.

Lemma dec_no_char : forall n c, 0 <= n -> (c < 48 \/ 57 < c) -> ~ In c (dec n).
Proof.
  intros n c Hn Hc Hi. pose proof (forallb_digit_In _ _ (dec_digits n Hn) Hi). lia.
Qed.
(** the digits of Unicode *)
Lemma decimal_range : forall c d, decimal c = Some d -> 0 <= d <= 9.
Proof.
  intros c d H. unfold decimal in H. destruct (find _ _) as [z|] eqn:F; [|discriminate].
  apply find_some in F. destruct F as [_ F]. injection H as <-. lia.
Qed.
Lemma decimal_zeros_from : forall z, In z DECIMAL_ZEROS -> z = 48 \/ 1632 <= z.
Proof.
  assert (H : forallb (fun z => (z =? 48) || (1632 <=? z)) DECIMAL_ZEROS = true) by (vm_compute; reflexivity).
  rewrite forallb_forall in H. intros z I. specialize (H z I). lia.
Qed.
Lemma decimal_low : forall c, c < 1632 -> decimal c = if is_digit c then Some (c - 48) else None.
Proof.
  intros c L. unfold is_digit. destruct ((48 <=? c) && (c <=? 57)) eqn:D.
  - unfold decimal, DECIMAL_ZEROS. cbn [find]. change (48 + 9) with 57. now rewrite D.
  - unfold decimal. destruct (find _ _) as [z|] eqn:F; [|reflexivity]. exfalso. apply find_some in F.
    destruct F as [I F]. apply decimal_zeros_from in I. lia.
Qed.
Lemma decimal_digit : forall c, is_digit c = true -> decimal c = Some (c - 48).
Proof. intros c H. rewrite decimal_low by (unfold is_digit in H; lia). now rewrite H. Qed.
Lemma is_decimal_digit : forall c, is_digit c = true -> is_decimal c = true.
Proof. intros c H. unfold is_decimal. now rewrite decimal_digit. Qed.
Lemma is_decimal_low : forall c, c < 1632 -> is_decimal c = is_digit c.
Proof. intros c H. unfold is_decimal. rewrite decimal_low by assumption. now destruct (is_digit c). Qed.
Lemma is_decimal_char : forall c, is_decimal c = true -> is_digit_char c = true.
Proof. intros c H. unfold is_digit_char. now rewrite H. Qed.
Lemma is_digit_char_low : forall c, c < 178 -> is_digit_char c = is_digit c.
Proof.
  intros c H. unfold is_digit_char. rewrite is_decimal_low by lia.
  assert (X : existsb (fun r => (fst r <=? c) && (c <=? snd r)) OTHER_DIGITS = false).
  { destruct (existsb _ _) eqn:E; [|reflexivity]. exfalso. apply existsb_exists in E. destruct E as [r [I E]].
    assert (F : forallb (fun r => 178 <=? fst r) OTHER_DIGITS = true) by (vm_compute; reflexivity).
    rewrite forallb_forall in F. specialize (F r I). lia. }
  rewrite X. apply orb_false_r.
Qed.
Lemma ascii_digit_low : forall c, c < 1632 -> ascii_digit c = c.
Proof.
  intros c H. unfold ascii_digit. rewrite decimal_low by assumption. destruct (is_digit c); [|reflexivity]. ring.
Qed.
Lemma ascii_digits_low : forall s, (forall c, In c s -> c < 1632) -> ascii_digits s = s.
Proof.
  induction s as [|c s IH]; intro H; [reflexivity|]. cbn [ascii_digits map]. rewrite ascii_digit_low by (apply H; now left).
  f_equal. apply IH. intros d I. apply H. now right.
Qed.
Lemma ascii_digit_decimal : forall c, is_decimal c = true -> is_digit (ascii_digit c) = true.
Proof.
  intros c H. unfold is_decimal in H. unfold ascii_digit. destruct (decimal c) as [d|] eqn:D; [|discriminate].
  apply decimal_range in D. unfold is_digit. lia.
Qed.

Lemma dec_isdigit : forall n, 0 <= n -> isdigit (dec n) = true.
Proof.
  intros n Hn. pose proof (dec_ne n). pose proof (dec_digits n Hn) as D.
  unfold isdigit. destruct (dec n) as [|c s]; [congruence|]. rewrite forallb_forall in *. intros x I.
  apply is_decimal_char, is_decimal_digit. now apply D.
Qed.

Lemma dec_inj : forall a b, 0 <= a -> 0 <= b -> dec a = dec b -> a = b.
Proof. intros a b Ha Hb H. rewrite <- (dec_val a), <- (dec_val b), H; auto. Qed.

(** int() of digits *)
Lemma parse_digits_all : forall s acc us, forallb is_digit s = true -> (s <> [] \/ us = false) ->
  parse_digits 10 acc us s = Some (fold_left (fun a c => a * 10 + (c - 48)) s acc).
Proof.
  induction s as [|c s IH]; intros acc us H Hu.
  - simpl. destruct Hu as [Hu|Hu]; [congruence|]. now rewrite Hu.
  - simpl in H. apply andb_true_iff in H. destruct H as [Hc Hs].
    cbn [parse_digits fold_left]. apply is_digit_range in Hc.
    replace (c =? 95) with false by (symmetry; apply Z.eqb_neq; lia).
    unfold digit_val. replace (is_digit c) with true by (symmetry; now apply is_digit_range).
    replace (c - 48 <? 10) with true by (symmetry; apply Z.ltb_lt; lia).
    apply IH; auto.
Qed.

Lemma is_space_digit : forall c, 48 <= c <= 57 -> is_space c = false.
Proof.
  intros c H. unfold is_space.
  repeat match goal with
         | |- context [?a <=? ?b] => replace (a <=? b) with false by (symmetry; apply Z.leb_gt; lia) ||
                                     replace (a <=? b) with true by (symmetry; apply Z.leb_le; lia)
         | |- context [?a =? ?b] => replace (a =? b) with false by (symmetry; apply Z.eqb_neq; lia)
         end. now rewrite ?andb_false_r.
Qed.

Lemma num_space_digit : forall c, 48 <= c <= 57 -> num_space c = false.
Proof. intros c H. unfold num_space. now rewrite is_space_digit. Qed.

Lemma lstrip_by_none : forall f s, (forall c, In c s -> f c = false) -> lstrip_by f s = s.
Proof. intros f [|c s] H; simpl; auto. rewrite H; simpl; auto. Qed.
Lemma strip_by_none : forall f s, (forall c, In c s -> f c = false) -> strip_by f s = s.
Proof.
  intros f s H. unfold strip_by, rstrip_by. rewrite (lstrip_by_none f s) by auto.
  rewrite lstrip_by_none, rev_involutive; auto.
  intros c Hc. apply H. now apply in_rev.
Qed.
Lemma strip_by_ends : forall f a s b, f a = false -> f b = false ->
  strip_by f (a :: s ++ [b]) = a :: s ++ [b].
Proof.
  intros f a s b Ha Hb. unfold strip_by, rstrip_by. simpl. rewrite Ha. simpl.
  rewrite rev_app_distr. simpl. rewrite Hb. simpl.
  rewrite rev_app_distr, rev_involutive. reflexivity.
Qed.

Lemma parse_int_decimals : forall s, forallb is_decimal s = true -> s <> [] ->
  parse_int 10 s = Some (dval (ascii_digits s)).
Proof.
  intros s H0 Hne0. unfold parse_int.
  assert (H : forallb is_digit (ascii_digits s) = true).
  { unfold ascii_digits. rewrite forallb_forall in *. intros c I. apply in_map_iff in I. destruct I as [x [<- I]].
    now apply ascii_digit_decimal, H0. }
  assert (Hne : ascii_digits s <> []) by (destruct s; [congruence|discriminate]).
  clear H0 Hne0. revert H Hne. generalize (ascii_digits s) as t. clear s. intros s H Hne.
  rewrite strip_by_none by (intros c Hc; apply num_space_digit; now apply (forallb_digit_In s)).
  destruct s as [|c s]; [congruence|].
  pose proof (forallb_digit_In _ c H (or_introl eq_refl)).
  unfold split_sign.
  replace (c =? 43) with false by (symmetry; apply Z.eqb_neq; lia).
  replace (c =? 45) with false by (symmetry; apply Z.eqb_neq; lia).
  change (10 =? 16) with false. cbv iota beta zeta.
  rewrite parse_digits_all by (auto; left; congruence). reflexivity.
Qed.
Lemma ascii_digits_digits : forall s, forallb is_digit s = true -> ascii_digits s = s.
Proof. intros s H. apply ascii_digits_low. intros c I. pose proof (forallb_digit_In _ _ H I). lia. Qed.
Lemma parse_int_digits : forall s, forallb is_digit s = true -> s <> [] ->
  parse_int 10 s = Some (dval s).
Proof.
  intros s H N. rewrite parse_int_decimals; auto.
  - now rewrite ascii_digits_digits.
  - rewrite forallb_forall in *. intros c I. now apply is_decimal_digit, H.
Qed.

Lemma py_int_dec : forall n, 0 <= n -> py_int (dec n) = Ok n.
Proof.
  intros n H. unfold py_int.
  rewrite parse_int_digits, dec_val; auto using dec_digits, dec_ne.
Qed.

(** the text of a decimal number *)
Definition decimals (s : str) : bool := match s with [] => false | _ => forallb is_decimal s end.
Lemma dval_nonneg : forall s, forallb is_digit s = true -> 0 <= dval s.
Proof.
  intros s H. unfold dval. assert (G : forall l a, forallb is_digit l = true -> 0 <= a ->
        0 <= fold_left (fun a c => a * 10 + (c - 48)) l a).
  { induction l as [|d l IH]; intros a Hl Ha; simpl; auto.
    simpl in Hl. apply andb_true_iff in Hl. destruct Hl as [Hd Hl].
    apply is_digit_range in Hd. apply IH; auto. lia. }
  apply G; auto. lia.
Qed.
Lemma decimals_py_int : forall s, decimals s = true -> py_int s = Ok (dval (ascii_digits s)) /\ 0 <= dval (ascii_digits s).
Proof.
  intros s H. destruct s as [|c s]; [discriminate|]. unfold decimals in H. split.
  - unfold py_int. rewrite parse_int_decimals; auto. congruence.
  - apply dval_nonneg. unfold ascii_digits. rewrite forallb_forall in *. intros x I. apply in_map_iff in I.
    destruct I as [y [<- I]]. now apply ascii_digit_decimal, H.
Qed.

(** slices *)
Lemma slice_all : forall s, slice None None s = s.
Proof.
  intros s. unfold slice. rewrite Z.sub_0_r. unfold zlen. rewrite Nat2Z.id. simpl.
  apply firstn_all.
Qed.
Lemma clamp_range : forall n i, 0 <= n -> 0 <= clamp_index n i <= n.
Proof.
  intros n i H. unfold clamp_index.
  destruct (i <? 0) eqn:E1; [destruct (i + n <? 0) eqn:E2; [lia|]; destruct (n <? i + n) eqn:E3|
    rewrite E1; destruct (n <? i) eqn:E3];
  rewrite ?Z.ltb_lt, ?Z.ltb_ge in *; lia.
Qed.

(** range *)
Lemma range_length : forall n, List.length (range n) = Z.to_nat n.
Proof. intros. unfold range. now rewrite map_length, seq_length. Qed.
Lemma in_range : forall n i, In i (range n) <-> 0 <= i < n.
Proof.
  intros n i. unfold range. rewrite in_map_iff. split.
  - intros [k [H1 H2]]. apply in_seq in H2. lia.
  - intros H. exists (Z.to_nat i). split; [lia|]. apply in_seq. lia.
Qed.
Lemma nth_range : forall n k, (k < Z.to_nat n)%nat -> nth_error (range n) k = Some (Z.of_nat k).
Proof.
  intros n k H. unfold range.
  rewrite nth_error_map. rewrite (nth_error_nth' _ 0%nat) by now rewrite seq_length.
  rewrite seq_nth by auto. reflexivity.
Qed.
Lemma range_NoDup : forall n, NoDup (range n).
Proof.
  intro n. unfold range. apply Injective_map_NoDup.
  - intros a b H. lia.
  - apply seq_NoDup.
Qed.
