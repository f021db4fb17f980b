(** Proofs about the commands in what is drawn: parsed strings, and whole histories. *)
From Coq Require Import ZArith List Bool Lia String.
From Verif Require Import PyBase PyLemmas F64 SpaceModel ColorTab ColorModel AnsiRe SpanModel SpanSpec SpanProofs ParseProofs2 ParseProofs3 ScreenModel ScreenProofs CommandSpec CommandProofs.
Import ListNotations.
Open Scope Z_scope.

(** * The characters of numbers *)
Definition numc (c : Z) : Prop :=
  is_digit c = true \/ num_space c = true \/ c = 43 \/ c = 45 \/ c = 46 \/ c = 95 \/ c = 69 \/ c = 101.
Lemma lstrip_chars : forall f s c, In c s -> In c (lstrip_by f s) \/ f c = true.
Proof.
  induction s as [|a s IH]; intros c H; [contradiction|]. cbn [lstrip_by]. destruct (f a) eqn:E; [|now left].
  destruct H as [->|H]; auto.
Qed.
Lemma strip_chars : forall f s c, In c s -> In c (strip_by f s) \/ f c = true.
Proof.
  intros f s c H. unfold strip_by, rstrip_by. destruct (lstrip_chars f s c H) as [K|K]; auto.
  apply in_rev in K. destruct (lstrip_chars f _ c K) as [K'|K']; auto. left. now apply in_rev in K'.
Qed.
Lemma digits_numc : forall base s acc us v, base <= 10 -> parse_digits base acc us s = Some v -> Forall numc s.
Proof.
  intros base. induction s as [|c s IH]; intros acc us v Hb H; cbn [parse_digits] in H; auto.
  destruct (Z.eqb_spec c 95) as [->|N].
  - destruct us; [discriminate|]. constructor; [unfold numc; tauto|eauto].
  - destruct (digit_val c) as [d|] eqn:D; [|discriminate]. destruct (Z.ltb_spec d base) as [L|L]; [|discriminate].
    constructor; [|eauto]. left. unfold digit_val in D. destruct (is_digit c); auto.
    destruct ((97 <=? c) && (c <=? 122)) eqn:E; [apply andb_true_iff in E; destruct E as [E _]; apply Z.leb_le in E; injection D as <-; lia|].
    destruct ((65 <=? c) && (c <=? 90)) eqn:F; [apply andb_true_iff in F; destruct F as [F _]; apply Z.leb_le in F; injection D as <-; lia|discriminate].
Qed.
Lemma sign_numc : forall s, Forall numc (snd (split_sign s)) -> Forall numc s.
Proof.
  intros [|c s]; cbn; auto. destruct (Z.eqb_spec c 43) as [->|N]; cbn; [intro; constructor; auto; unfold numc; tauto|].
  destruct (Z.eqb_spec c 45) as [->|N']; cbn; auto. intro; constructor; auto; unfold numc; tauto.
Qed.
Lemma strip_numc : forall s, Forall numc (strip_by num_space s) -> Forall numc s.
Proof.
  intros s H. rewrite Forall_forall in *. intros c Hc. destruct (strip_chars num_space s c Hc); auto. unfold numc. tauto.
Qed.
Lemma int_numc : forall s v, py_int s = Ok v -> Forall numc (ascii_digits s).
Proof.
  intros s v H. unfold py_int in H. destruct (parse_int 10 s) as [n|] eqn:E; [|discriminate]. clear H v.
  unfold parse_int in E. apply strip_numc, sign_numc. destruct (split_sign _) as [neg r]. cbn [snd].
  change (10 =? 16) with false in E. cbv iota in E.
  destruct (parse_digits 10 0 true r) as [v|] eqn:D; [|discriminate]. eapply digits_numc; [|exact D]. lia.
Qed.
Lemma all_digits_numc : forall s, all_digits s = true -> Forall numc s.
Proof. intros s H. apply Forall_forall. intros c Hc. unfold all_digits in H. rewrite forallb_forall in H. left. auto. Qed.
Lemma float_numc : forall s v, py_float s = Ok v -> Forall numc (ascii_digits s).
Proof.
  intros s v H. unfold py_float in H. apply strip_numc.
  destruct (drop_underscores false (strip_by num_space (ascii_digits s))) as [u|] eqn:D; [|discriminate].
  assert (G : Forall numc u).
  { apply sign_numc. destruct (split_sign u) as [neg w]. cbn [snd].
    assert (X : forall z m e, split_exponent z = (m, e) -> Forall numc m -> (forall r, e = Some r -> Forall numc r) -> Forall numc z).
    { induction z as [|c w0 IH]; intros m e E Hm He; auto. cbn [split_exponent] in E.
      destruct ((c =? 101) || (c =? 69)) eqn:C.
      - injection E as <- <-. constructor; auto. apply orb_true_iff in C. destruct C as [C|C]; apply Z.eqb_eq in C; subst; unfold numc; tauto.
      - destruct (split_exponent w0) as [m' e'] eqn:E'. injection E as <- <-. constructor; [exact (Forall_inv Hm)|].
        eapply IH; eauto. now apply Forall_inv_tail in Hm. }
    destruct (split_exponent w) as [m e] eqn:E. eapply X; [exact E| |].
    - destruct (split_on 46 m) as [|a [|b [|? ?]]] eqn:S; try discriminate.
      destruct (exponent_value e); [|discriminate]. destruct (all_digits a && all_digits b && _) eqn:Q; [|discriminate].
      apply andb_true_iff in Q. destruct Q as [Q _]. apply andb_true_iff in Q. destruct Q as [Qa Qb].
      rewrite <- (join_split_on 46 m), S. cbn [join]. rewrite !Forall_app. repeat split; try now apply all_digits_numc.
      constructor; [unfold numc; tauto|constructor].
    - intros r ->. destruct (split_on 46 m) as [|a [|b [|? ?]]]; try discriminate.
      destruct (exponent_value (Some r)) as [ex|] eqn:V; [|discriminate]. unfold exponent_value in V.
      apply sign_numc. destruct (split_sign r) as [n d]. cbn [snd]. destruct d as [|d0 d]; [discriminate|].
      destruct (all_digits (d0 :: d)) eqn:A; [|discriminate]. now apply all_digits_numc. }
  clear H. revert D G. generalize false as prev. generalize (strip_by num_space (ascii_digits s)) as w.
  intro w. revert u. induction w as [|c w IH]; intros u prev D G; auto. cbn [drop_underscores] in D.
  destruct (Z.eqb_spec c 95) as [->|N].
  - destruct w as [|d w]; [discriminate|]. destruct (prev && is_digit d); [|discriminate].
    constructor; [unfold numc; tauto|]. eapply IH; eauto.
  - destruct (drop_underscores (is_digit c) w) as [u'|] eqn:E; [|discriminate]. injection D as <-.
    constructor; [exact (Forall_inv G)|]. eapply IH; eauto. now apply Forall_inv_tail in G.
Qed.

Section Strings.
Variable ctl : Z -> Prop.
Variable extra : list Z.
Hypothesis Hx : In 95 extra /\ In 69 extra /\ In 101 extra.
Notation okc := (okc ctl extra).
Notation code_ok := (code_ok ctl extra).
(** control characters other than ESC are among [ctl] *)
Definition soft (t : str) : Prop := forall c, In c t -> c <> 27 -> control_char c -> ctl c.

Lemma decimal_range : forall c d, decimal c = Some d -> 48 <= c <= 57 \/ 160 <= c.
Proof.
  intros c d H. unfold decimal in H. destruct (find _ DECIMAL_ZEROS) as [z|] eqn:F; [|discriminate]. clear H.
  apply find_some in F. destruct F as [I F]. apply andb_true_iff in F. destruct F as [F1 F2]. apply Z.leb_le in F1, F2.
  assert (G : z = 48 \/ 160 <= z).
  { assert (A : forallb (fun z => (z =? 48) || (160 <=? z)) DECIMAL_ZEROS = true) by (vm_compute; reflexivity).
    rewrite forallb_forall in A. specialize (A z I). apply orb_true_iff in A. destruct A as [A|A]; [apply Z.eqb_eq in A|apply Z.leb_le in A]; auto. }
  lia.
Qed.
Lemma num_okc : forall s, Forall numc (ascii_digits s) -> soft s -> Forall okc s.
Proof.
  intros s H Hs. rewrite Forall_forall in *. intros c Hc.
  assert (N : numc (ascii_digit c)) by (apply H; unfold ascii_digits; now apply in_map).
  unfold ascii_digit in N. destruct (decimal c) as [d|] eqn:D; [apply decimal_range in D; unfold CommandProofs.okc; lia|].
  unfold numc in N. unfold CommandProofs.okc.
  destruct N as [N|[N|[N|[N|[N|[N|[N|N]]]]]]]; subst; try tauto; try lia.
  - unfold is_digit in N. apply andb_true_iff in N. destruct N as [N1 N2]. apply Z.leb_le in N1, N2. lia.
  - unfold num_space in N. apply andb_true_iff in N. destruct N as [N M]. apply negb_true_iff in M.
    assert (K : control_char c -> c <> 27 -> ctl c) by (intros; apply Hs; auto).
    unfold control_char in K.
    destruct (Z_lt_le_dec c 160); [|lia].
    assert (L : 9 <= c <= 13 \/ c = 32 \/ c = 133).
    { unfold is_space in N. rewrite !orb_true_iff, !andb_true_iff, !Z.leb_le, !Z.eqb_eq in N.
      apply andb_false_iff in M. rewrite !Z.leb_gt in M. lia. }
    destruct L as [L|[L|L]]; [|tauto|]; (do 6 right); (split; [lia|apply K; lia]).
Qed.
Lemma isdigit_okc : forall s, isdigit s = true -> Forall okc s.
Proof.
  intros s H. unfold isdigit in H. destruct s as [|a s]; [discriminate|]. rewrite forallb_forall in H.
  apply Forall_forall. intros c Hc. specialize (H c Hc). unfold is_digit_char in H. apply orb_true_iff in H.
  assert (G : 48 <= c <= 57 \/ 160 <= c).
  { destruct H as [H|H].
    - unfold is_decimal in H. destruct (decimal c) eqn:D; [|discriminate]. eapply decimal_range; eauto.
    - apply existsb_exists in H. destruct H as [r [I R]]. apply andb_true_iff in R. destruct R as [R _]. apply Z.leb_le in R.
      assert (A : forallb (fun r : Z * Z => 160 <=? fst r) OTHER_DIGITS = true) by (vm_compute; reflexivity).
      rewrite forallb_forall in A. specialize (A r I). apply Z.leb_le in A. lia. }
  unfold CommandProofs.okc. lia.
Qed.

(** * Colors in strings *)
Definition nosemi (p : str) : Prop := ~ In 59 p.
(** the parts of a color that may still become valid *)
Definition unfinished (ps : list str) : Prop :=
  match ps with
  | [] => False
  | [_] => True
  | _ :: p1 :: _ => (p1 = lit "2" -> (List.length ps < 5)%nat) /\ (p1 = lit "5" -> (List.length ps < 3)%nat)
  end.
Definition colored (ps : list str) : Prop :=
  (exists p0, ps = [p0] /\ isdigit p0 = true)
  \/ (exists p0 p2, ps = [p0; lit "5"; p2] /\ isdigit p0 = true)
  \/ (exists p0 p2 p3 p4, ps = [p0; lit "2"; p2; p3; p4]).

Lemma join_semi : forall p q r, isdigit (join (lit ";") (p :: q :: r)) = false.
Proof. intros. cbn [join]. change (lit ";") with [59]. apply isdigit_semi. Qed.
Lemma valid_cases : forall ps part b, ps = [] \/ (unfinished ps /\ isdigit (hd [] ps) = true) -> (ps = [] -> isdigit part = true) ->
  Forall nosemi (ps ++ [part]) -> is_valid_color (join (lit ";") (ps ++ [part])) = Ok b ->
  if b then colored (ps ++ [part]) else unfinished (ps ++ [part]) /\ isdigit (hd [] (ps ++ [part])) = true.
Proof.
  intros ps part b Hp Hpart Hn H. destruct ps as [|p0 ps].
  - cbn in *. destruct b; [left; eauto|]. auto.
  - destruct Hp as [Hp|[Hp Hd]]; [discriminate|]. cbn [hd] in Hd.
    assert (Sp : split_on 59 (join [59] ((p0 :: ps) ++ [part])) = (p0 :: ps) ++ [part]) by (apply split_on_join; [discriminate|exact Hn]).
    unfold is_valid_color in H. change (lit ";") with [59] in H. rewrite Sp in H.
    replace (isdigit (join [59] ((p0 :: ps) ++ [part]))) with false in H
      by (symmetry; destruct ps; cbn [app]; apply (join_semi)).
    destruct ps as [|p1 ps].
    + change ([p0] ++ [part]) with [p0; part] in *. cbn [nth_error] in H. change (zlen [p0; part]) with 2 in H.
      assert (b = false) as -> by (destruct (str_eqb part (lit "2")); [|destruct (str_eqb part (lit "5"))]; injection H as <-; reflexivity).
      cbn. split; [split; intro K; lia|auto].
    + cbn [app nth_error] in H. cbn in Hp. destruct Hp as [H2 H5].
      assert (Z2 : zlen (p0 :: p1 :: ps ++ [part]) = Z.of_nat (List.length ps) + 3).
      { unfold zlen. cbn [List.length]. rewrite app_length. cbn [List.length]. lia. }
      rewrite Z2 in H. cbn [app hd].
      destruct (str_eqb p1 (lit "2")) eqn:E2.
      * apply str_eqb_eq in E2. subst p1. specialize (H2 eq_refl). cbn [List.length] in H2. injection H as <-.
        destruct ((Z.of_nat (List.length ps) + 3 =? 5) || (Z.of_nat (List.length ps) + 3 =? 6)) eqn:Q.
        -- right. right. assert (L : List.length ps = 2%nat).
           { apply orb_true_iff in Q. destruct Q as [Q|Q]; apply Z.eqb_eq in Q; lia. }
           destruct ps as [|p2 [|p3 [|? ?]]]; try discriminate L. exists p0, p2, p3, part. reflexivity.
        -- apply orb_false_iff in Q. destruct Q as [Q _]. apply Z.eqb_neq in Q. split; [|exact Hd]. cbn.
           rewrite app_length. cbn [List.length]. split; intro K; [lia|discriminate K].
      * destruct (str_eqb p1 (lit "5")) eqn:E5.
        -- apply str_eqb_eq in E5. subst p1. specialize (H5 eq_refl). cbn [List.length] in H5. injection H as <-.
           assert (L : List.length ps = 0%nat) by lia. destruct ps; [|discriminate L]. cbn. right. left. eauto.
        -- injection H as <-. split; [|exact Hd]. cbn. split; intro K; subst p1; discriminate.
Qed.
Lemma join_split_semi : forall s, join (lit ";") (split_on 59 s) = s.
Proof. intro s. apply join_split_on. Qed.
Lemma colored_ok : forall ps c, colored ps -> Forall nosemi ps -> Forall soft ps -> from_ansi (join (lit ";") ps) fone = Ok c -> code_ok c.
Proof.
  intros ps c Hc Hn Hs H. unfold from_ansi in H. cbv zeta in H.
  assert (NE : ps <> []) by (destruct Hc as [[? [-> _]]|[[? [? [-> _]]]|[? [? [? [? ->]]]]]]; discriminate).
  assert (Sp : split_on 59 (join (lit ";") ps) = ps) by (apply split_on_join; auto).
  rewrite !Sp in H. clear Sp.
  destruct Hc as [[p0 [-> D]]|[[p0 [p2 [-> D]]]|[p0 [p2 [p3 [p4 ->]]]]]].
  - cbn [last_of last] in H. change (last_of [p0]) with p0 in H.
    destruct (contains_char 46 p0) eqn:K.
    { exfalso. apply isdigit_no_dot in D. destruct D as [D _]. apply D. revert K. clear. unfold contains_char.
      intro K. apply existsb_exists in K. destruct K as [x [I E]]. apply Z.eqb_eq in E. now subst. }
    cbn [bindr] in H; cbv beta iota zeta in H. change (3 <? zlen [p0]) with false in H. cbv iota in H.
    destruct (py_int _) as [ix|]; cbn [bindr] in H; cbv beta iota zeta in H; [|discriminate].
    change (zlen [p0] =? 1) with true in H. cbv iota in H.
    destruct (if (30 <=? ix) && (ix <? 38) then _ else _) as [i1 b1].
    destruct (if (90 <=? i1) && (i1 <? 98) then _ else _) as [i2 b2].
    destruct (negb _); [discriminate|]. destruct (nth_error COLOR_TABLE (Z.to_nat i2)) as [rgb|]; [|discriminate].
    unfold new_color in H. destruct (valid_rgb rgb); [|discriminate]. injection H as <-. cbn.
    right. split; [intros ->; discriminate|]. now apply isdigit_okc.
  - assert (P : Forall okc p2 -> code_ok c).
    { intro O2. assert (C : c_ctor c = Some (join (lit ";") [p0; lit "5"; p2])).
      { change (last_of [p0; lit "5"; p2]) with p2 in H.
        destruct (contains_char 46 p2).
        - destruct (py_float p2) as [al|]; cbn [bindr] in H; cbv beta iota zeta in H; [|discriminate].
          change (removelast [p0; lit "5"; p2]) with [p0; lit "5"] in H.
          change (3 <? zlen [p0; lit "5"]) with false in H. cbv iota in H.
          destruct (py_int _) as [ix|]; cbn [bindr] in H; cbv beta iota zeta in H; [|discriminate].
          change (zlen [p0; lit "5"] =? 1) with false in H. cbv iota in H.
          destruct (negb _); [discriminate|]. destruct (nth_error COLOR_TABLE (Z.to_nat ix)) as [rgb|]; [|discriminate].
          unfold new_color in H. destruct (valid_rgb rgb); [|discriminate]. injection H as <-. reflexivity.
        - cbn [bindr] in H; cbv beta iota zeta in H. change (3 <? zlen [p0; lit "5"; p2]) with false in H. cbv iota in H.
          destruct (py_int _) as [ix|]; cbn [bindr] in H; cbv beta iota zeta in H; [|discriminate].
          change (zlen [p0; lit "5"; p2] =? 1) with false in H. cbv iota in H.
          destruct (negb _); [discriminate|]. destruct (nth_error COLOR_TABLE (Z.to_nat ix)) as [rgb|]; [|discriminate].
          unfold new_color in H. destruct (valid_rgb rgb); [|discriminate]. injection H as <-. reflexivity. }
      unfold CommandProofs.code_ok. rewrite C. right. split.
      - destruct p0; discriminate.
      - pose proof (isdigit_okc p0 D). cbn [join].
        repeat first [assumption | apply Forall_app; split | apply Forall_cons; [unfold CommandProofs.okc; cbn; lia|] | apply Forall_nil]. }
    apply P. clear P.
    assert (S2 : soft p2) by (apply Forall_inv_tail, Forall_inv_tail, Forall_inv in Hs; exact Hs).
    change (last_of [p0; lit "5"; p2]) with p2 in H.
    destruct (contains_char 46 p2).
    + destruct (py_float p2) as [al|] eqn:F; cbn [bindr] in H; cbv beta iota zeta in H; [|discriminate]. apply float_numc in F. now apply num_okc.
    + cbn [bindr] in H; cbv beta iota zeta in H. change (3 <? zlen [p0; lit "5"; p2]) with false in H. cbv iota in H.
      change (last_of [p0; lit "5"; p2]) with p2 in H.
      destruct (py_int p2) as [ix|] eqn:F; cbn [bindr] in H; cbv beta iota zeta in H; [|discriminate]. apply int_numc in F. now apply num_okc.
  - change (last_of [p0; lit "2"; p2; p3; p4]) with p4 in H. destruct (contains_char 46 p4).
    + destruct (py_float p4) as [al|]; cbn [bindr] in H; cbv beta iota zeta in H; [|discriminate].
      change (removelast [p0; lit "2"; p2; p3; p4]) with [p0; lit "2"; p2; p3] in H.
      change (3 <? zlen [p0; lit "2"; p2; p3]) with true in H. cbv iota in H.
      destruct (negb _); [discriminate|]. cbn [nth_error] in H.
      destruct (py_int p2); cbn [bindr] in H; cbv beta iota zeta in H; [|discriminate]. destruct (py_int p3); discriminate.
    + cbn [bindr] in H; cbv beta iota zeta in H. change (3 <? zlen [p0; lit "2"; p2; p3; p4]) with true in H. cbv iota in H.
      destruct (negb _) eqn:N; [discriminate|]. cbn [nth_error] in H.
      destruct (py_int p2) as [r|] eqn:F2; cbn [bindr] in H; cbv beta iota zeta in H; [|discriminate].
      destruct (py_int p3) as [g|] eqn:F3; cbn [bindr] in H; cbv beta iota zeta in H; [|discriminate].
      destruct (py_int p4) as [b|] eqn:F4; cbn [bindr] in H; cbv beta iota zeta in H; [|discriminate].
      unfold new_color in H. destruct (valid_rgb _); [|discriminate]. injection H as <-. unfold CommandProofs.code_ok. cbn [c_ctor].
      right. cbn [firstn nth] in N. apply negb_false_iff, andb_true_iff in N. destruct N as [N _].
      assert (O0 : Forall okc p0 /\ p0 <> []).
      { apply orb_true_iff in N. destruct N as [N|N]; apply str_eqb_eq in N; subst p0; (split; [|discriminate]);
          cbn; repeat (apply Forall_cons; [unfold CommandProofs.okc; lia|]); apply Forall_nil. }
      destruct O0 as [O0 O1].
      apply int_numc in F2, F3, F4.
      assert (S : soft p2 /\ soft p3 /\ soft p4).
      { do 2 apply Forall_inv_tail in Hs. pose proof (Forall_inv Hs). apply Forall_inv_tail in Hs. pose proof (Forall_inv Hs).
        apply Forall_inv_tail in Hs. pose proof (Forall_inv Hs). auto. }
      destruct S as [S2 [S3 S4]]. apply num_okc in F2, F3, F4; auto.
      split; [destruct p0; [congruence|discriminate]|].
      cbn [join]. repeat first [assumption | apply Forall_app; split | apply Forall_cons; [unfold CommandProofs.okc; cbn; lia|] | apply Forall_nil].
Qed.

Definition opts_ok (o : options) : Prop := ocode ctl extra (o_fg o) /\ ocode ctl extra (o_bg o).
Lemma join_snoc_semi : forall ps p, ps <> [] -> (join (lit ";") ps ++ lit ";") ++ p = join (lit ";") (ps ++ [p]).
Proof.
  induction ps as [|a ps IH]; intros p H; [congruence|]. destruct ps as [|b ps]; [cbn; now rewrite <- app_assoc|].
  cbn [app]. rewrite !join_cons, <- !app_assoc. f_equal. f_equal. rewrite app_assoc. rewrite IH by discriminate. reflexivity.
Qed.
Lemma ocode_none : ocode ctl extra None.
Proof. intros c K. discriminate. Qed.
Lemma parts_ok : forall parts (in_color : bool) buf o, Forall nosemi parts -> Forall soft parts -> opts_ok o ->
  (if in_color then exists ps, buf = join (lit ";") ps ++ lit ";" /\ Forall nosemi ps /\ Forall soft ps /\ unfinished ps /\ isdigit (hd [] ps) = true
   else buf = []) ->
  opts_ok (fst (parse_parts parts in_color buf o)).
Proof.
  induction parts as [|part parts IH]; intros in_color buf o Hn Hs Ho Hb; cbn [parse_parts]; auto.
  pose proof (Forall_inv Hn) as Hn0. apply Forall_inv_tail in Hn. pose proof (Forall_inv Hs) as Hs0. apply Forall_inv_tail in Hs.
  destruct (starts_color part) as [sc|x] eqn:SC; [|exact Ho].
  destruct (in_color || sc) eqn:IC.
  - assert (B : exists ps, buf ++ part = join (lit ";") (ps ++ [part]) /\ Forall nosemi ps /\ Forall soft ps /\
      (ps = [] \/ (unfinished ps /\ isdigit (hd [] ps) = true)) /\ (ps = [] -> isdigit part = true)).
    { destruct in_color.
      - destruct Hb as [ps [-> [A [B [C D]]]]]. assert (N : ps <> []) by (intros ->; exact C).
        exists ps. rewrite join_snoc_semi by auto. repeat split; auto.
      - subst buf. exists []. cbn. repeat split; auto. intros _. cbn in IC. subst sc. unfold starts_color in SC.
        destruct (isdigit part); auto. discriminate. }
    destruct B as [ps [E [A [B [C D]]]]]. cbv zeta. rewrite E.
    assert (A' : Forall nosemi (ps ++ [part])) by (apply Forall_app; auto).
    assert (B' : Forall soft (ps ++ [part])) by (apply Forall_app; auto).
    destruct (is_valid_color (join (lit ";") (ps ++ [part]))) as [[]|x] eqn:V; [| |exact Ho].
    + pose proof (valid_cases ps part true C D A' V) as K. cbn in K.
      destruct (from_ansi (join (lit ";") (ps ++ [part])) fone) as [c|x] eqn:F; [|exact Ho].
      pose proof (colored_ok _ _ K A' B' F) as Kc. apply IH; auto.
      destruct Ho as [O1 O2]. destruct (is_background_color _); split; cbn; auto; intros d Kd; injection Kd as <-; auto.
    + pose proof (valid_cases ps part false C D A' V) as K. cbn in K. apply IH; auto. exists (ps ++ [part]). tauto.
  - apply orb_false_iff in IC. destruct IC as [-> ->].
    destruct (dict_get SETTERS_TO_STYLES part) as [k|]; [apply IH; auto|].
    destruct (dict_get UNSETTERS_TO_STYLES part) as [[k| | |]|]; try (apply IH; auto); try exact Ho;
      destruct Ho; split; cbn; auto; apply ocode_none.
Qed.
Lemma split_chars : forall s p c, In p (split_on 59 s) -> In c p -> In c s.
Proof.
  induction s as [|a s IH]; intros p c Hp Hc; cbn [split_on] in Hp.
  - destruct Hp as [<-|[]]. exact Hc.
  - destruct (a =? 59).
    + destruct Hp as [<-|Hp]; [contradiction|]. right. eauto.
    + destruct (split_on 59 s) as [|h r] eqn:E; [destruct Hp as [<-|[]]; destruct Hc as [->|[]]; now left|].
      destruct Hp as [<-|Hp].
      * destruct Hc as [->|Hc]; [now left|]. right. eapply IH; [left; reflexivity|auto].
      * right. eapply IH; [right; eauto|auto].
Qed.
Lemma sequence_ok : forall seq o, soft seq -> opts_ok o -> opts_ok (fst (parse_sequence seq o)).
Proof.
  intros seq o Hs Ho. unfold parse_sequence. apply parts_ok; auto.
  - apply split_on_no_sep.
  - apply Forall_forall. intros p Hp c Hc. apply Hs. eapply split_chars; eauto.
Qed.
Lemma loop_ok : forall ms o idx, Forall (fun m : str * str * Z => soft (fst (fst m)) /\ controls ctl (snd (fst m))) ms -> opts_ok o ->
  Forall (span_ok ctl extra) (fst (fst (yield_loop ms o idx))).
Proof.
  induction ms as [|[[seq plain] stop] ms IH]; intros o idx Hm Ho; cbn [yield_loop]; [cbn; auto|].
  destruct (Forall_inv Hm) as [H1 H2]. apply Forall_inv_tail in Hm. cbn in H1, H2.
  pose proof (sequence_ok seq o H1 Ho) as K. destruct (parse_sequence seq o) as [o' [[p|]|x]]; cbn in K; cbn; auto.
  unfold span_of_options. destruct (o_bad o'); [cbn; auto|]. specialize (IH o' stop Hm K).
  destruct (yield_loop ms o' stop) as [[ss i] x]. cbn in *. constructor; auto. destruct K. split; auto.
Qed.
End Strings.

(** * The matches of a line *)
Lemma until_esc_chars : forall s a b c, until_esc s = (a, b) -> In c a -> In c s /\ c <> 27.
Proof.
  induction s as [|d s IH]; intros a b c E H; cbn [until_esc] in E; [injection E as <- <-; contradiction|].
  destruct (Z.eqb_spec d ESC) as [->|N]; [injection E as <- <-; contradiction|].
  destruct (until_esc s) as [a' b'] eqn:E'. injection E as <- <-. destruct H as [->|H]; [split; [now left|exact N]|].
  destruct (IH a' b' c eq_refl H). split; auto. now right.
Qed.
Lemma body_chars : forall s acc body plain, match_style_body acc s = Some (body, plain) ->
  (forall c, In c body -> In c acc \/ In c s) /\ (forall c, In c plain -> In c s /\ c <> 27).
Proof.
  induction s as [|d s IH]; intros acc body plain H; cbn [match_style_body] in H; [discriminate|].
  assert (G : forall r, (if d =? NL then None else match_style_body (d :: acc) s) = Some r -> Some (body, plain) = Some r ->
    (forall c, In c body -> In c acc \/ In c (d :: s)) /\ (forall c, In c plain -> In c (d :: s) /\ c <> 27)).
  { intros r E F. rewrite <- F in E. destruct (d =? NL); [discriminate|]. apply IH in E. destruct E as [E1 E2]. split.
    - intros c Hc. apply E1 in Hc. destruct Hc as [[->|Hc]|Hc]; auto; right; [now left|now right].
    - intros c Hc. apply E2 in Hc. destruct Hc. split; auto. now right. }
  destruct (is_mH d).
  - destruct (until_esc s) as [run rest] eqn:U. destruct run as [|r0 run]; [exact (G _ H eq_refl)|].
    destruct rest as [|q rest]; [exact (G _ H eq_refl)|]. injection H as <- <-. split.
    + intros c Hc. apply in_rev in Hc. auto.
    + intros c Hc. destruct (until_esc_chars _ _ _ c U Hc). split; auto. now right.
  - exact (G _ H eq_refl).
Qed.
Lemma skipn_In : forall A (x : A) n l, In x (skipn n l) -> In x l.
Proof. induction n; intros [|a l] H; cbn in *; auto. Qed.
Lemma finditer_chars : forall s p k m, In m (finditer_aux s p k) ->
  (forall c, In c (fst (fst m)) -> In c s) /\ (forall c, In c (snd (fst m)) -> In c s /\ c <> 27).
Proof.
  induction s as [|d s IH]; intros p k m H; cbn [finditer_aux] in H; [contradiction|].
  assert (G : forall p' k', In m (finditer_aux s p' k') -> (forall c, In c (fst (fst m)) -> In c (d :: s)) /\ (forall c, In c (snd (fst m)) -> In c (d :: s) /\ c <> 27)).
  { intros p' k' K. apply IH in K. destruct K as [K1 K2]. split; intros c Hc; [right; auto|]. apply K2 in Hc. destruct Hc. split; auto. now right. }
  destruct k as [|k]; [|eapply G; eauto].
  destruct (match_style (d :: s)) as [[body plain]|] eqn:E; [|eapply G; eauto].
  destruct H as [<-|H]; [|eapply G; eauto]. cbn [fst snd]. unfold match_style in E.
  destruct (startswith [ESC; 91] (d :: s)); [|discriminate]. apply body_chars in E. destruct E as [E1 E2].
  split; intros c Hc.
  - apply E1 in Hc. destruct Hc as [[]|Hc]. eapply skipn_In; exact Hc.
  - apply E2 in Hc. destruct Hc as [Hc N]. split; auto. eapply skipn_In; exact Hc.
Qed.
Lemma rstrip_chars : forall f s c, In c (rstrip_by f s) -> In c s.
Proof.
  intros f s c H. unfold rstrip_by in H. apply in_rev in H. apply in_rev.
  revert H. generalize (rev s) as t. induction t as [|a t IH]; cbn; auto. destruct (f a); auto.
Qed.
Lemma rstrip_esc : forall s c, In c (rstrip_by is_esc (s ++ [ESC])) -> In c s.
Proof.
  intros s c H. unfold rstrip_by in H. rewrite rev_app_distr in H. cbn in H. apply (rstrip_chars is_esc). exact H.
Qed.
Lemma firstn_In : forall A (x : A) n l, In x (firstn n l) -> In x l.
Proof. induction n; intros [|a l] H; cbn in *; auto; try contradiction. destruct H; auto. Qed.
Lemma slice_chars : forall (s : str) a c, In c (slice a None s) -> In c s.
Proof.
  intros s a c H. unfold slice in H. apply firstn_In in H. eapply skipn_In; exact H.
Qed.

(** * Strings and histories *)
Lemma line_ok : forall ctl extra line l, In 95 extra /\ In 69 extra /\ In 101 extra -> controls ctl line -> parse_line line = Ok l ->
  Forall (span_ok ctl extra) l.
Proof.
  intros ctl extra line l Hx Hc H. unfold parse_line, yield_from in H.
  set (line' := if endswith [ESC] line then line else line ++ [ESC]) in H.
  assert (L : forall c, In c line' -> c <> 27 -> In c line).
  { intros c K N. unfold line' in K. destruct (endswith [ESC] line); auto. apply in_app_iff in K. destruct K as [K|[K|[]]]; auto. exfalso. apply N. symmetry. exact K. }
  assert (M : Forall (fun m : str * str * Z => soft ctl (fst (fst m)) /\ controls ctl (snd (fst m))) (finditer line')).
  { apply Forall_forall. intros m Hm. apply finditer_chars in Hm. destruct Hm as [M1 M2]. split.
    - intros c Hc' N K. apply Hc; auto.
    - intros c Hc' K. apply M2 in Hc'. destruct Hc'. apply Hc; auto. }
  pose proof (loop_ok ctl extra Hx (finditer line') no_options 0 M (conj (ocode_none _ _) (ocode_none _ _))) as O.
  destruct (yield_loop (finditer line') no_options 0) as [[ss idx] [x|]]; cbn [fst] in O.
  - discriminate.
  - cbn in H. destruct (idx <? zlen (rstrip_by is_esc line')); injection H as <-; auto.
    apply Forall_app. split; auto. constructor; auto. split; [apply ocode_none|]. split; [apply ocode_none|].
    intros c K. cbn in K. apply slice_chars in K. apply Hc. unfold line' in K. destruct (endswith [ESC] line).
    + now apply rstrip_chars in K.
    + now apply rstrip_esc in K.
Qed.
Lemma plain_ok : forall ctl extra c, plain_code c -> code_ok ctl extra c.
Proof.
  intros ctl extra c H. unfold plain_code in H. unfold code_ok. destruct (c_ctor c) as [k|]; auto.
  destruct H as [H|[H1 H2]]; auto. right. split; auto. rewrite forallb_forall in H2. apply Forall_forall. intros d Hd.
  specialize (H2 d Hd). apply orb_true_iff in H2. unfold okc. left.
  destruct H2 as [H2|H2]; [unfold is_digit in H2; apply andb_true_iff in H2; destruct H2 as [A B]; apply Z.leb_le in A, B; lia|apply Z.eqb_eq in H2; lia].
Qed.
Section History.
Variable c1 : bool.
Variable ctl : Z -> Prop.
Variable extra : list Z.
Hypothesis Hnl : ctl NL.
Definition kept (k : screen * ccache * str) : Prop :=
  let '(s, c, out) := k in buf_ok c1 ctl extra (sc_buf s) /\ cache_ok ctl extra c /\ tame c1 ctl extra Ground out Ground.
Lemma deed_kept : forall e k d, deed_ok ctl d -> (spans_only d \/ (In 95 extra /\ In 69 extra /\ In 101 extra)) -> kept k -> kept (do_deed e k d).
Proof.
  intros e [[s c] out] d Hd Hx [B [C T]]. destruct d as [data tb force|p line tb force|fill|size fill|origin]; cbn [do_deed].
  - destruct Hd as [D1 D2]. destruct (write_bulk e c s data tb force) as [[s' c'] r] eqn:E.
    assert (D : Forall (fun en : pos * list span => Forall (span_ok ctl extra) (snd en)) data).
    { eapply Forall_impl; [|exact D1]. intros en Hen. eapply Forall_impl; [|exact Hen]. intros sp [[P1 P2] P3].
      split; [|split]; auto; intros x K; apply plain_ok; auto. }
    eapply write_ok in E; eauto; [|apply plain_ok; auto]. cbn. tauto.
  - destruct Hd as [D1 D2]. destruct Hx as [[]|Hx]. destruct (parse_line line) as [l|] eqn:L; [|cbn; auto].
    destruct (write_bulk e c s [(p, l)] tb force) as [[s' c'] r] eqn:E.
    assert (D : Forall (fun en : pos * list span => Forall (span_ok ctl extra) (snd en)) [(p, l)]).
    { constructor; auto. cbn. eapply line_ok; eauto. }
    eapply write_ok in E; eauto; [|apply plain_ok; auto]. cbn. tauto.
  - cbn. split; auto. apply fill_ok; auto.
  - destruct size as [w h]. cbn. split; auto. apply fill_ok; auto.
  - pose proof (render_tame c1 ctl extra s origin B) as R. destruct (render s origin false) as [o s'] eqn:E.
    cbn [fst] in R. unfold render in E. destruct origin as [ox oy]. injection E as <- <-. cbn. split; [constructor|]. split; auto.
    eapply tame_app; eauto.
Qed.
Lemma history_kept : forall e ds k, Forall (deed_ok ctl) ds -> (Forall spans_only ds \/ (In 95 extra /\ In 69 extra /\ In 101 extra)) -> kept k ->
  kept (fold_left (do_deed e) ds k).
Proof.
  intros e. induction ds as [|d ds IH]; intros k Hd Hx Hk; cbn [fold_left]; auto.
  pose proof (Forall_inv Hd) as D. apply Forall_inv_tail in Hd. apply IH; auto.
  - destruct Hx as [Hx|Hx]; auto. left. now apply Forall_inv_tail in Hx.
  - apply deed_kept; auto. destruct Hx as [Hx|Hx]; auto. left. exact (Forall_inv Hx).
Qed.
End History.
Theorem drawn_only : forall c1 ctl extra e w h cursor fill ds s c out,
  Forall (deed_ok ctl) ds -> (Forall spans_only ds \/ (In 95 extra /\ In 69 extra /\ In 101 extra)) -> controls (fun _ => False) fill ->
  fold_left (do_deed e) ds (new_screen w h cursor fill, [], []) = (s, c, out) ->
  Forall (draws_only (fun x => x = NL \/ ctl x) extra) (commands c1 out) /\ snd (scan c1 Ground out) = Ground.
Proof.
  intros c1 ctl extra e w h cursor fill ds s c out Hd Hx Hf E.
  assert (K : kept c1 (fun x => x = NL \/ ctl x) extra (fold_left (do_deed e) ds (new_screen w h cursor fill, [], []))).
  { apply history_kept; auto.
    - eapply Forall_impl; [|exact Hd]. intros d Hk. destruct d; cbn in *; auto.
      + destruct Hk as [A B]. split; auto. eapply Forall_impl; [|exact A]. intros en Hen. eapply Forall_impl; [|exact Hen].
        intros sp [P Q]. split; auto. intros x I1 I2. right. now apply Q.
      + destruct Hk as [A B]. split; auto. intros x I1 I2. right. now apply A.
    - split; [|split; [constructor|apply tame_nil]]. cbn. apply fill_ok; auto. constructor. }
  rewrite E in K. destruct K as [_ [_ K]]. exact K.
Qed.
