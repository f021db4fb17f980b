(** Lemmas: [int] and [float] read exactly the texts of their grammars. *)
From Coq Require Import ZArith List Bool String Lia Reals Lra.
From Flocq Require Import Core IEEE754.BinarySingleNaN.
From Verif Require Import PyBase PyLemmas F64 FloatLemmas ColorSpec BlendSpec BlendProofs DecSpec DecProofs NumSpec.
Import ListNotations.
Open Scope Z_scope.
Open Scope list_scope.

(** * Digits of all scripts *)
Lemma zeros_apart : forall z z', In z DECIMAL_ZEROS -> In z' DECIMAL_ZEROS -> z = z' \/ z + 9 < z' \/ z' + 9 < z.
Proof.
  assert (H : forallb (fun z => forallb (fun z' => (z =? z') || (z + 9 <? z') || (z' + 9 <? z)) DECIMAL_ZEROS) DECIMAL_ZEROS = true)
    by (vm_compute; reflexivity).
  rewrite forallb_forall in H. intros z z' I I'. specialize (H z I). rewrite forallb_forall in H. specialize (H z' I'). lia.
Qed.
Lemma decimal_spec : forall c d, decimal c = Some d <-> digit_of c d.
Proof.
  intros c d. unfold decimal, digit_of. split.
  - destruct (find _ _) as [z|] eqn:F; [|discriminate]. intro H. injection H as <-. apply find_some in F. destruct F as [I F].
    split; [lia|]. exists z. split; [exact I|lia].
  - intros [D [z [I ->]]]. destruct (find _ _) as [z'|] eqn:F.
    + apply find_some in F. destruct F as [I' F]. destruct (zeros_apart z z' I I') as [->|[L|L]]; [|lia|lia]. f_equal. lia.
    + exfalso. pose proof (find_none _ _ F z I) as N. cbv beta in N. lia.
Qed.
Lemma ascii_other : forall c x, ascii_digit c = x -> ~ 48 <= x <= 57 -> c = x.
Proof.
  intros c x H N. unfold ascii_digit in H. destruct (decimal c) as [d|] eqn:D; [|exact H]. apply decimal_range in D. lia.
Qed.
Lemma ascii_digit_spec : forall c d, 0 <= d <= 9 -> (ascii_digit c = 48 + d <-> digit_of c d).
Proof.
  intros c d R. rewrite <- decimal_spec. unfold ascii_digit. split; intro H.
  - destruct (decimal c) as [e|] eqn:E.
    + f_equal. lia.
    + exfalso. subst c. rewrite decimal_digit in E; [discriminate|unfold is_digit; lia].
  - rewrite H. reflexivity.
Qed.
Lemma digit_of_self : forall d, 0 <= d <= 9 -> digit_of (48 + d) d.
Proof. intros d H. split; [exact H|]. exists 48. split; [now left|reflexivity]. Qed.
Lemma digit_of_ascii : forall c d, digit_of (ascii_digit c) d <-> digit_of c d.
Proof.
  intros c d. split; intro H.
  - apply decimal_spec in H. pose proof (decimal_range _ _ H) as R. unfold ascii_digit in H. destruct (decimal c) as [e|] eqn:E.
    + pose proof (decimal_range _ _ E). rewrite decimal_digit in H by (unfold is_digit; lia). injection H as H.
      apply decimal_spec. rewrite E. f_equal. lia.
    + congruence.
  - pose proof H as [R _]. apply ascii_digit_spec in H; [|exact R]. rewrite H. now apply digit_of_self.
Qed.
Lemma ascii_same : forall c, ~ (exists d, digit_of c d) -> ascii_digit c = c.
Proof.
  intros c N. unfold ascii_digit. destruct (decimal c) as [d|] eqn:D; [|reflexivity]. exfalso. apply N. exists d. now apply decimal_spec.
Qed.
Lemma digit_ascii : forall base c d, digit base (ascii_digit c) d <-> digit base c d.
Proof.
  intros base c d. unfold digit. rewrite digit_of_ascii. split; (intros [H|[B H]]; [now left|right; split; [exact B|]]).
  - assert (E : c = ascii_digit c) by (apply ascii_other; [reflexivity|]; lia). rewrite <- E in H. exact H.
  - assert (E : ascii_digit c = c).
    { apply ascii_digit_low. lia. }
    rewrite E. exact H.
Qed.

(** * Blanks *)
Lemma blank_spec : forall c, num_space c = true <-> blank c.
Proof.
  intro c. unfold num_space, is_space, blank. cbn [In]. split; intro H; lia.
Qed.
Lemma blank_ascii : forall c, num_space (ascii_digit c) = num_space c.
Proof.
  intro c. unfold ascii_digit. destruct (decimal c) as [d|] eqn:D; [|reflexivity]. pose proof (decimal_range _ _ D) as R.
  rewrite num_space_digit by lia. symmetry. apply not_true_is_false. intro H. apply blank_spec in H.
  assert (E : forallb (fun c => negb (is_decimal c)) [9; 10; 11; 12; 13; 32; 133; 160; 5760; 8192; 8193; 8194; 8195; 8196; 8197; 8198; 8199; 8200;
        8201; 8202; 8232; 8233; 8239; 8287; 12288] = true) by (vm_compute; reflexivity).
  rewrite forallb_forall in E. specialize (E c H). unfold is_decimal in E. rewrite D in E. discriminate.
Qed.

(** what stripping removes *)
Lemma lstrip_split : forall f s, exists l, s = l ++ lstrip_by f s /\ Forall (fun c => f c = true) l /\
  match lstrip_by f s with [] => True | c :: _ => f c = false end.
Proof.
  intros f s. induction s as [|c s [l [E [F H]]]]; [exists []; repeat split; constructor|]. cbn [lstrip_by].
  destruct (f c) eqn:C.
  - exists (c :: l). split; [now rewrite E at 1|]. split; [now constructor|exact H].
  - exists []. repeat split; [constructor|exact C].
Qed.
Lemma lstrip_app : forall f l s, Forall (fun c => f c = true) l -> match s with [] => True | c :: _ => f c = false end ->
  lstrip_by f (l ++ s) = s.
Proof.
  intros f l s H N. induction H as [|c l C H IH]; cbn [app lstrip_by].
  - destruct s as [|c s]; [reflexivity|]. cbn [lstrip_by]. now rewrite N.
  - now rewrite C.
Qed.
(** [m] has no [f] at its ends *)
Definition bare (f : Z -> bool) (m : str) : Prop :=
  match m with [] => True | c :: _ => f c = false end /\ match rev m with [] => True | c :: _ => f c = false end.
Lemma strip_split : forall f s, exists l r, s = l ++ strip_by f s ++ r /\ Forall (fun c => f c = true) l /\ Forall (fun c => f c = true) r /\
  bare f (strip_by f s).
Proof.
  intros f s. unfold strip_by, rstrip_by, bare. destruct (lstrip_split f s) as [l [E [F H]]].
  destruct (lstrip_split f (rev (lstrip_by f s))) as [r [E' [F' H']]].
  set (m := lstrip_by f (rev (lstrip_by f s))) in *. set (t := lstrip_by f s) in *.
  assert (T : t = rev m ++ rev r) by (rewrite <- rev_app_distr, <- E', rev_involutive; reflexivity).
  exists l, (rev r). rewrite rev_involutive. repeat split.
  - now rewrite <- T.
  - exact F.
  - now apply Forall_rev.
  - rewrite T in H. destruct (rev m); [exact I|exact H].
  - exact H'.
Qed.
Lemma strip_app : forall f l m r, Forall (fun c => f c = true) l -> Forall (fun c => f c = true) r -> m <> [] -> bare f m ->
  strip_by f (l ++ m ++ r) = m.
Proof.
  intros f l m r L R N [H1 H2]. unfold strip_by, rstrip_by. rewrite lstrip_app; [|exact L|].
  - rewrite rev_app_distr, lstrip_app, rev_involutive; [reflexivity|now apply Forall_rev|exact H2].
  - destruct m as [|c m]; [congruence|exact H1].
Qed.

(** * Numerals *)
Lemma numeral_ascii : forall base s ds, numeral base (ascii_digits s) ds <-> numeral base s ds.
Proof.
  intros base. assert (A : forall s ds, numeral base s ds -> forall t, s = ascii_digits t -> numeral base t ds).
  { intros s ds H. induction H as [c d H|c d u s ds H U N IH]; intros t E.
    - destruct t as [|c' [|? ?]]; try discriminate. injection E as ->. constructor. now apply digit_ascii.
    - destruct t as [|c' t]; [discriminate|]. injection E as -> E. apply (proj1 (digit_ascii base c' d)) in H.
      destruct U as [-> | ->]; cbn [app] in E.
      + apply (num_more base c' d []); [exact H|now left|apply IH; exact E].
      + destruct t as [|x t]; [discriminate|]. injection E as Ex E. symmetry in Ex. apply ascii_other in Ex; [|lia]. subst x.
        apply (num_more base c' d [95]); [exact H|now right|apply IH; exact E]. }
  intros s ds. split; [intro H; now apply (A _ _ H)|]. intro H. induction H as [c d H|c d u s ds H U N IH].
  - constructor. now apply digit_ascii.
  - apply (proj2 (digit_ascii base c d)) in H. destruct U as [-> | ->].
    + apply (num_more base (ascii_digit c) d []); auto.
    + apply (num_more base (ascii_digit c) d [95]); auto.
Qed.
(** on ASCII: the values of digits *)
Lemma digit_val_spec : forall base c d, (base = 10 \/ base = 16) -> c < 1632 ->
  (digit base c d <-> exists e, digit_val c = Some e /\ e < base /\ d = e).
Proof.
  intros base c d B L. unfold digit. rewrite <- decimal_spec, decimal_low by exact L. unfold digit_val, is_digit.
  destruct ((48 <=? c) && (c <=? 57)) eqn:D.
  - split.
    + intros [H|[_ H]]; [injection H as <-|lia]. exists (c - 48). repeat split; lia.
    + intros [e [H [_ ->]]]. left. injection H as <-. reflexivity.
  - destruct ((97 <=? c) && (c <=? 122)) eqn:D1; [|destruct ((65 <=? c) && (c <=? 90)) eqn:D2].
    + split; [intros [H|[-> H]]; [discriminate|]; exists (c - 87); repeat split; lia|].
      intros [e [H [K ->]]]. injection H as <-. right. destruct B as [->| ->]; lia.
    + split; [intros [H|[-> H]]; [discriminate|]; exists (c - 55); repeat split; lia|].
      intros [e [H [K ->]]]. injection H as <-. right. destruct B as [->| ->]; lia.
    + split; [intros [H|[-> H]]; [discriminate|lia]|]. intros [e [H _]]. discriminate.
Qed.
Lemma digit_not_underscore : forall base c d, digit base c d -> c <> 95.
Proof.
  intros base c d [H|[_ H]]; [|lia]. intros ->. apply decimal_spec in H. vm_compute in H. discriminate.
Qed.
Lemma digit_unique : forall base c d e, digit base c d -> digit base c e -> d = e.
Proof.
  intros base c d e [H|[B H]] [K|[B' K]].
  - apply decimal_spec in H, K. congruence.
  - apply decimal_spec in H. rewrite decimal_low in H by lia. destruct (is_digit c) eqn:D; [|discriminate]. unfold is_digit in D. lia.
  - apply decimal_spec in K. rewrite decimal_low in K by lia. destruct (is_digit c) eqn:D; [|discriminate]. unfold is_digit in D. lia.
  - lia.
Qed.

(** all characters below the first digits beyond ASCII, as after [ascii_digits]; or not digits at all *)
Definition flat (s : str) : Prop := Forall (fun c => ascii_digit c = c) s.
Lemma flat_ascii : forall s, flat (ascii_digits s).
Proof.
  intro s. unfold flat, ascii_digits. apply Forall_forall. intros c I. apply in_map_iff in I. destruct I as [x [<- _]].
  unfold ascii_digit at 2. destruct (decimal x) as [d|] eqn:D.
  - pose proof (decimal_range _ _ D). unfold ascii_digit. rewrite D. rewrite decimal_digit by (unfold is_digit; lia). lia.
  - unfold ascii_digit. now rewrite !D.
Qed.
Lemma flat_digit : forall base c d, (base = 10 \/ base = 16) -> ascii_digit c = c ->
  (digit base c d <-> exists e, digit_val c = Some e /\ e < base /\ d = e).
Proof.
  intros base c d B F. destruct (Z_lt_ge_dec c 1632) as [L|L]; [now apply digit_val_spec|].
  assert (N : decimal c = None).
  { unfold ascii_digit in F. destruct (decimal c) as [x|] eqn:X; [|reflexivity]. apply decimal_range in X. lia. }
  unfold digit. rewrite <- decimal_spec, N. unfold digit_val, is_digit. split.
  - intros [H|[_ H]]; [discriminate|lia].
  - replace ((48 <=? c) && (c <=? 57)) with false by lia. replace ((97 <=? c) && (c <=? 122)) with false by lia.
    replace ((65 <=? c) && (c <=? 90)) with false by lia. intros [e [H _]]. discriminate.
Qed.

Lemma parse_digits_fwd : forall base, (base = 10 \/ base = 16) -> forall n s acc v, (List.length s <= n)%nat -> flat s ->
  parse_digits base acc true s = Some v -> exists ds, numeral base s ds /\ v = fold_left (fun n d => base * n + d) ds acc.
Proof.
  intros base B. induction n as [|n IH]; intros s acc v L F H.
  { destruct s; [discriminate|cbn in L; lia]. }
  destruct s as [|c t]; [discriminate|]. cbn [parse_digits] in H. destruct (c =? 95) eqn:C; [discriminate|].
  destruct (digit_val c) as [d|] eqn:D; [|discriminate]. destruct (d <? base) eqn:LB; [|discriminate].
  inversion F as [|? ? F1 F2]; subst.
  assert (DG : digit base c d) by (apply flat_digit; auto; exists d; repeat split; auto; lia).
  cbn [List.length] in L.
  destruct t as [|x t].
  - cbn [parse_digits] in H. injection H as <-. exists [d]. split; [now constructor|cbn [fold_left]; lia].
  - destruct (x =? 95) eqn:X.
    + cbn [parse_digits] in H. rewrite X in H. apply Z.eqb_eq in X. subst x. inversion F2; subst. cbn [List.length] in L.
      destruct (IH t _ _ ltac:(lia) H3 H) as [ds [N V]]. exists (d :: ds). split; [apply (num_more base c d [95]); auto|].
      cbn [fold_left]. rewrite V. f_equal. lia.
    + assert (H' : parse_digits base (acc * base + d) true (x :: t) = Some v).
      { cbn [parse_digits] in *. rewrite X in *. exact H. }
      destruct (IH (x :: t) _ _ ltac:(lia) F2 H') as [ds [N V]]. exists (d :: ds). split; [apply (num_more base c d []); auto|].
      cbn [fold_left]. rewrite V. f_equal. lia.
Qed.
Lemma parse_digits_bwd : forall base, (base = 10 \/ base = 16) -> forall s ds, numeral base s ds -> flat s -> forall acc us,
  parse_digits base acc us s = Some (fold_left (fun n d => base * n + d) ds acc).
Proof.
  intros base B s ds H. induction H as [c d H|c d u s ds H U N IH]; intros F acc us.
  - inversion F; subst. pose proof (digit_not_underscore _ _ _ H) as NU. apply flat_digit in H; auto. destruct H as [e [D [L ->]]].
    cbn [parse_digits fold_left]. rewrite (proj2 (Z.eqb_neq c 95) NU), D. replace (e <? base) with true by lia. f_equal. lia.
  - inversion F as [|? ? F1 F2]; subst. pose proof (digit_not_underscore _ _ _ H) as NU. apply flat_digit in H; auto. destruct H as [e [D [L ->]]].
    cbn [parse_digits fold_left]. rewrite (proj2 (Z.eqb_neq c 95) NU), D. replace (e <? base) with true by lia.
    destruct U as [-> | ->]; cbn [app] in *.
    + rewrite IH by exact F2. replace (acc * base + e) with (base * acc + e) by lia. reflexivity.
    + inversion F2; subst. cbn [parse_digits]. rewrite IH by assumption. replace (acc * base + e) with (base * acc + e) by lia. reflexivity.
Qed.
Lemma numeral_head : forall base s ds, numeral base s ds -> exists c t d, s = c :: t /\ digit base c d.
Proof. intros base s ds H. destruct H as [c d H|c d u s ds H U N]; eauto. Qed.
Lemma numeral_last : forall base s ds, numeral base s ds -> exists c t d, s = t ++ [c] /\ digit base c d.
Proof.
  intros base s ds H. induction H as [c d H|c d u s ds H U N IH].
  - exists c, [], d. auto.
  - destruct IH as [x [t [e [-> E]]]]. exists x, (c :: u ++ t), e. split; [|exact E]. cbn [app]. now rewrite <- app_assoc.
Qed.
Lemma digit_not_blank : forall base c d, digit base c d -> num_space c = false.
Proof.
  intros base c d H. rewrite <- blank_ascii. destruct H as [H|[_ H]].
  - pose proof H as [R _]. apply ascii_digit_spec in H; [|exact R]. rewrite H. apply num_space_digit. lia.
  - rewrite ascii_digit_low by lia. unfold num_space, is_space. lia.
Qed.

(** * Signs and prefixes *)
Lemma map_sign : forall s sg k, map ascii_digit s = sg -> sign sg k -> s = sg.
Proof.
  intros s sg k E H. destruct H as [[[->| ->] _]|[-> _]].
  - destruct s; [reflexivity|discriminate].
  - destruct s as [|c [|]]; try discriminate. injection E as E. apply ascii_other in E; [|lia]. now subst.
  - destruct s as [|c [|]]; try discriminate. injection E as E. apply ascii_other in E; [|lia]. now subst.
Qed.
Lemma map_prefix : forall base s p, map ascii_digit s = p -> prefix base p -> prefix base s.
Proof.
  intros base s p E [->|[B [z [x [Z [X P]]]]]].
  - left. destruct s; [reflexivity|discriminate].
  - right. split; [exact B|]. destruct P as [-> | ->].
    + destruct s as [|c [|y [|]]]; try discriminate. injection E as <- E2. exists c, x. rewrite digit_of_ascii in Z.
      apply ascii_other in E2; [|lia]. subst y. auto.
    + destruct s as [|c [|y [|w [|]]]]; try discriminate. injection E as <- E2 E3. exists c, x. rewrite digit_of_ascii in Z.
      apply ascii_other in E2; [|lia]. apply ascii_other in E3; [|lia]. subst y w. auto.
Qed.
Lemma map_blanks : forall s l, map ascii_digit s = l -> Forall blank l -> Forall blank s.
Proof.
  intros s l <- H. rewrite Forall_map in H. eapply Forall_impl; [|exact H]. intros c Hc. cbv beta in Hc.
  apply blank_spec. rewrite <- blank_ascii. now apply blank_spec.
Qed.
Lemma blanks_map : forall l, Forall blank l -> map ascii_digit l = l /\ Forall blank l.
Proof.
  intros l H. split; [|exact H]. induction H as [|c l B H IH]; [reflexivity|]. cbn [map]. rewrite IH. f_equal.
  apply blank_spec in B. unfold ascii_digit. destruct (decimal c) as [d|] eqn:D; [|reflexivity]. exfalso.
  apply decimal_spec in D. assert (E : digit 10 c d) by now left. apply digit_not_blank in E. congruence.
Qed.
Lemma sign_map : forall s k, sign s k -> map ascii_digit s = s.
Proof. intros s k [[[->| ->] _]|[-> _]]; vm_compute; reflexivity. Qed.
Lemma prefix_map : forall base s, prefix base s -> prefix base (map ascii_digit s).
Proof.
  intros base s [->|[B [z [x [Z [X P]]]]]]; [left; reflexivity|]. right. split; [exact B|]. exists (ascii_digit z), x.
  rewrite digit_of_ascii. split; [exact Z|]. split; [exact X|]. assert (E : ascii_digit x = x) by (apply ascii_digit_low; lia).
  destruct P as [-> | ->]; cbn [map]; rewrite E; [now left|right]. reflexivity.
Qed.

Lemma int_text_ascii : forall base s n, int_text base (ascii_digits s) n <-> int_text base s n.
Proof.
  intros base s n. unfold int_text. split.
  - intros [l [sg [k [pre [body [ds [r [L [S [P [N [R [E V]]]]]]]]]]]]].
    unfold ascii_digits in E. apply map_eq_app in E. destruct E as [l' [s1 [-> [El E]]]].
    apply map_eq_app in E. destruct E as [sg' [s2 [-> [Es E]]]]. apply map_eq_app in E. destruct E as [pre' [s3 [-> [Ep E]]]].
    apply map_eq_app in E. destruct E as [body' [r' [-> [Eb Er]]]].
    exists l', sg', k, pre', body', ds, r'. pose proof (map_sign _ _ _ Es S) as X. subst sg'. repeat split; auto.
    + eapply map_blanks; eauto.
    + eapply map_prefix; eauto.
    + subst body. now apply numeral_ascii.
    + eapply map_blanks; eauto.
  - intros [l [sg [k [pre [body [ds [r [L [S [P [N [R [-> V]]]]]]]]]]]]].
    exists l, sg, k, (map ascii_digit pre), (ascii_digits body), ds, r. repeat split; auto.
    + now apply prefix_map.
    + now apply numeral_ascii.
    + unfold ascii_digits. rewrite !map_app. rewrite (proj1 (blanks_map l L)), (proj1 (blanks_map r R)), (sign_map sg k S). reflexivity.
Qed.

Lemma split_sign_fwd : forall s neg t, split_sign s = (neg, t) -> exists sg, sign sg (if neg then -1 else 1) /\ s = sg ++ t.
Proof.
  intros s neg t H. unfold split_sign in H. destruct s as [|c s]; [injection H as <- <-; exists []; split; [left; auto|reflexivity]|].
  destruct (c =? 43) eqn:P; [|destruct (c =? 45) eqn:M]; injection H as <- <-.
  - exists [43]. apply Z.eqb_eq in P. subst c. split; [left; auto|reflexivity].
  - exists [45]. apply Z.eqb_eq in M. subst c. split; [right; auto|reflexivity].
  - exists []. split; [left; auto|reflexivity].
Qed.
Lemma split_sign_bwd : forall sg k t, sign sg k -> match t with [] => True | c :: _ => c <> 43 /\ c <> 45 end ->
  split_sign (sg ++ t) = (k =? -1, t).
Proof.
  intros sg k t [[[->| ->] ->]|[-> ->]] N; cbn [app split_sign].
  - destruct t as [|c t]; [reflexivity|]. cbn [split_sign]. destruct N as [N1 N2].
    rewrite (proj2 (Z.eqb_neq c 43) N1), (proj2 (Z.eqb_neq c 45) N2). reflexivity.
  - reflexivity.
  - reflexivity.
Qed.
Lemma drop_0x_fwd : forall s, exists pre, prefix 16 pre /\ s = pre ++ drop_0x s.
Proof.
  intro s. unfold drop_0x. destruct s as [|a [|b t]]; try (exists []; split; [now left|reflexivity]).
  destruct ((a =? 48) && ((b =? 120) || (b =? 88))) eqn:E; [|exists []; split; [now left|reflexivity]].
  assert (A : a = 48) by lia. assert (B : b = 120 \/ b = 88) by lia. subst a.
  assert (Z : digit_of 48 0) by (apply (digit_of_self 0); lia).
  destruct t as [|c t]; [exists [48; b]; split; [right; split; [reflexivity|]; exists 48, b; auto|reflexivity]|].
  destruct (c =? 95) eqn:C.
  - apply Z.eqb_eq in C. subst c. exists [48; b; 95]. split; [right; split; [reflexivity|]; exists 48, b; auto|reflexivity].
  - exists [48; b]. split; [right; split; [reflexivity|]; exists 48, b; auto|reflexivity].
Qed.
Lemma flat_zero : forall z, ascii_digit z = z -> digit_of z 0 -> z = 48.
Proof. intros z F H. apply ascii_digit_spec in H; lia. Qed.
Lemma drop_0x_bwd : forall pre body ds, prefix 16 pre -> flat pre -> numeral 16 body ds -> drop_0x (pre ++ body) = body.
Proof.
  intros pre body ds P F N. destruct P as [->|[_ [z [x [Z [X P]]]]]].
  - cbn [app]. destruct N as [c d H|c d u s ds H U N]; [reflexivity|].
    assert (W : forall y t, u ++ s = y :: t -> (y =? 120) || (y =? 88) = false).
    { intros y t E. destruct U as [-> | ->]; cbn [app] in E.
      - destruct (numeral_head _ _ _ N) as [c' [t' [d' [-> D']]]]. injection E as <- _.
        destruct D' as [D'|[_ D']]; [|lia]. destruct (c' =? 120) eqn:A.
        + apply Z.eqb_eq in A. subst c'. apply decimal_spec in D'. vm_compute in D'. discriminate.
        + destruct (c' =? 88) eqn:A2; [|reflexivity]. apply Z.eqb_eq in A2. subst c'. apply decimal_spec in D'. vm_compute in D'. discriminate.
      - injection E as <- _. reflexivity. }
    destruct (u ++ s) as [|y t] eqn:E; [reflexivity|]. cbn [drop_0x]. rewrite (W y t eq_refl), andb_false_r. reflexivity.
  - destruct (numeral_head _ _ _ N) as [c [t [d [-> D]]]]. pose proof (digit_not_underscore _ _ _ D) as NU.
    assert (F1 : ascii_digit z = z) by (destruct P as [-> | ->]; inversion F; assumption).
    apply flat_zero in Z; [|exact F1]. subst z.
    assert (XX : (x =? 120) || (x =? 88) = true) by lia.
    destruct P as [-> | ->]; cbn [app drop_0x]; rewrite XX; cbn [andb Z.eqb Pos.eqb].
    + now rewrite (proj2 (Z.eqb_neq c 95) NU).
    + reflexivity.
Qed.

Lemma flat_app : forall a b, flat (a ++ b) <-> flat a /\ flat b.
Proof. intros. apply Forall_app. Qed.
Lemma sign_head : forall base sg k c t d, sign sg k -> digit base c d -> exists c' t', sg ++ c :: t = c' :: t' /\ num_space c' = false.
Proof.
  intros base sg k c t d [[[->| ->] _]|[-> _]] D; cbn [app].
  - exists c, t. split; [reflexivity|]. eapply digit_not_blank; eauto.
  - exists 43, (c :: t). split; reflexivity.
  - exists 45, (c :: t). split; reflexivity.
Qed.
Lemma prefix_head : forall base pre body ds, prefix base pre -> numeral base body ds -> exists c t d, pre ++ body = c :: t /\ digit base c d.
Proof.
  intros base pre body ds [->|[_ [z [x [Z [X P]]]]]] N.
  - exact (numeral_head _ _ _ N).
  - destruct P as [-> | ->]; cbn [app]; eexists z, _, 0; (split; [reflexivity|now left]).
Qed.
Lemma int_spec : forall base s n, (base = 10 \/ base = 16) -> parse_int base s = Some n <-> int_text base s n.
Proof.
  intros base s n B. rewrite <- int_text_ascii. unfold parse_int. pose proof (flat_ascii s) as F. revert F.
  generalize (ascii_digits s) as t. clear s. intros t F. split.
  - intro H. destruct (strip_split num_space t) as [l [r [E [L [R _]]]]]. set (m := strip_by num_space t) in *.
    destruct (split_sign m) as [neg m1] eqn:SS. destruct (split_sign_fwd _ _ _ SS) as [sg [S E1]].
    assert (P : exists pre, prefix base pre /\ m1 = pre ++ (if base =? 16 then drop_0x m1 else m1)).
    { destruct B as [-> | ->]; [exists []; split; [now left|reflexivity]|]. apply drop_0x_fwd. }
    destruct P as [pre [P E2]]. set (m2 := if base =? 16 then drop_0x m1 else m1) in *.
    assert (F2 : flat m2).
    { rewrite E, E1, E2, !flat_app in F. tauto. }
    destruct (parse_digits base 0 true m2) as [v|] eqn:PD; [|discriminate]. injection H as <-.
    destruct (parse_digits_fwd base B _ m2 0 v (le_n _) F2 PD) as [ds [N V]].
    exists l, sg, (if neg then -1 else 1), pre, m2, ds, r. split; [|split; [exact S|split; [exact P|split; [exact N|split; [|split]]]]].
    + eapply Forall_impl; [|exact L]. intros c Hc. now apply blank_spec.
    + eapply Forall_impl; [|exact R]. intros c Hc. now apply blank_spec.
    + rewrite E at 1. rewrite E1, E2 at 1. now rewrite <- !app_assoc.
    + unfold value. rewrite <- V. destruct neg; lia.
  - intros [l [sg [k [pre [body [ds [r [L [S [P [N [R [-> V]]]]]]]]]]]]].
    assert (FF : flat pre /\ flat body) by (rewrite !flat_app in F; tauto). destruct FF as [Fp Fb].
    replace (l ++ sg ++ pre ++ body ++ r) with (l ++ (sg ++ pre ++ body) ++ r) by now rewrite <- !app_assoc.
    destruct (prefix_head _ _ _ _ P N) as [c [t [d [HC HD]]]].
    rewrite strip_app.
    + rewrite (split_sign_bwd sg k _ S).
      * assert (E : (if base =? 16 then drop_0x (pre ++ body) else pre ++ body) = body).
        { destruct B as [-> | ->].
          - destruct P as [-> | [P _]]; [reflexivity|discriminate].
          - change (16 =? 16) with true. cbv iota. eapply drop_0x_bwd; eauto. }
        rewrite E. rewrite (parse_digits_bwd base B body ds N Fb 0 true). f_equal. unfold value in V. rewrite V.
        destruct S as [[_ ->]|[_ ->]]; [change (1 =? -1) with false|change (-1 =? -1) with true]; cbv iota; ring.
      * rewrite HC. split; intros ->; (destruct HD as [HD|[_ HD]]; [apply decimal_spec in HD; vm_compute in HD; discriminate|lia]).
    + eapply Forall_impl; [|exact L]. intros x Hx. now apply blank_spec.
    + eapply Forall_impl; [|exact R]. intros x Hx. now apply blank_spec.
    + rewrite HC. intro X. apply app_eq_nil in X. destruct X as [_ X]. discriminate.
    + split.
      * rewrite HC. destruct (sign_head _ _ _ c t d S HD) as [c' [t' [-> X]]]. exact X.
      * destruct (numeral_last _ _ _ N) as [x [u [e [-> X]]]]. rewrite !app_assoc, rev_app_distr. cbn [rev app].
        eapply digit_not_blank; eauto.
Qed.
Lemma py_int_spec : forall s n, py_int s = Ok n <-> int_text 10 s n.
Proof.
  intros s n. rewrite <- int_spec by auto. unfold py_int. destruct (parse_int 10 s); split; intro H; try discriminate; congruence.
Qed.
Lemma py_int16_spec : forall s n, py_int16 s = Ok n <-> int_text 16 s n.
Proof.
  intros s n. rewrite <- int_spec by auto. unfold py_int16. destruct (parse_int 16 s); split; intro H; try discriminate; congruence.
Qed.
