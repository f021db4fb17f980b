(** Colors: exceptions of descriptions, equality and hashing, layers, tables. *)
From Coq Require Import ZArith List Bool Lia String.
From Flocq Require Import IEEE754.BinarySingleNaN.
From Verif Require Import PyBase PyLemmas F64 SpaceModel ColorTab ColorModel ColorSpec ColorProofs.
Open Scope Z_scope.

(** * Exceptions *)
Definition val_or (P : exn -> Prop) {A} (r : res A) : Prop :=
  match r with Ok _ => True | Err e => e = ValueError \/ P e end.
Definition noP : exn -> Prop := fun _ => False.

Lemma val_or_bind : forall (P : exn -> Prop) A B (r : res A) (k : A -> res B),
  val_or P r -> (forall a, r = Ok a -> val_or P (k a)) -> val_or P (bindr r k).
Proof. intros P A B [a|e] k H1 H2; simpl in *; auto. Qed.

Lemma val_or_weak : forall P A (r : res A), val_or noP r -> val_or P r.
Proof. intros P A [a|e] H; simpl in *; auto. destruct H as [H|[]]; auto. Qed.

Lemma py_int_exn : forall s, val_or noP (py_int s).
Proof. intro s. unfold py_int. destruct (parse_int 10 s); simpl; auto. Qed.
Lemma py_int16_exn : forall s, val_or noP (py_int16 s).
Proof. intro s. unfold py_int16. destruct (parse_int 16 s); simpl; auto. Qed.
Lemma py_float_exn : forall s, val_or noP (py_float s).
Proof.
  intro s. unfold py_float. destruct (drop_underscores _ _); [|simpl; auto].
  destruct (split_sign _) as [ng t]. destruct (split_exponent t) as [m ex].
  destruct (split_on 46 m) as [|a [|b [|]]]; try (simpl; auto; fail).
  destruct (exponent_value ex); [|simpl; auto].
  destruct (_ && _); simpl; auto.
Qed.
Lemma new_color_exn : forall t bg a o k, val_or noP (new_color t bg a o k).
Proof. intros. unfold new_color. destruct (valid_rgb t); simpl; auto. Qed.
Lemma from_hex_exn : forall s a, val_or noP (from_hex s a).
Proof.
  intros. unfold from_hex. repeat (apply val_or_bind; [apply py_int16_exn|intros ? _]). apply new_color_exn.
Qed.



Lemma zlen_gt3 : forall (l : list str), (3 <? zlen l) = true ->
  exists a b c d r, l = a :: b :: c :: d :: r.
Proof.
  intros [|a [|b [|c [|d r]]]] H; try discriminate. eauto 6.
Qed.

Lemma table_len : List.length COLOR_TABLE = 256%nat. Proof. reflexivity. Qed.

Lemma table_entry : forall i, 0 <= i < 256 -> exists t, nth_error COLOR_TABLE (Z.to_nat i) = Some t.
Proof.
  intros i H. destruct (nth_error COLOR_TABLE (Z.to_nat i)) eqn:E; eauto.
  apply nth_error_None in E. rewrite table_len in E. lia.
Qed.

Lemma from_ansi_exn : forall s al,
  val_or (fun e => e = IndexError /\ exists core, core_parts (split_on 59 s) core /\ cut_short core)
    (from_ansi s al).
Proof.
  intros s al. unfold from_ansi. set (parts := split_on 59 s).
  apply val_or_bind.
  { destruct (contains_char 46 (last_of parts)); [|simpl; auto].
    apply val_or_bind; [apply val_or_weak, py_float_exn|simpl; auto]. }
  intros [al' core] E.
  assert (Hcore : core_parts parts core).
  { destruct (contains_char 46 (last_of parts)) eqn:D.
    - destruct (py_float (last_of parts)) as [x|]; [|discriminate]. simpl in E. injection E as _ <-.
      right. exists (last_of parts). split; auto. apply app_removelast_last. apply split_on_ne.
    - injection E as _ <-. now left. }
  clear E. destruct core as [|p0 rest].
  { simpl. right. split; auto. exists []. split; auto. now left. }
  destruct (3 <? zlen (p0 :: rest)) eqn:L.
  - apply zlen_gt3 in L. destruct L as [a [b [c [d [r L]]]]]. rewrite L in *.
    cbn [firstn nth nth_error].
    destruct (negb _) eqn:N; [simpl; auto|].
    apply val_or_bind; [apply val_or_weak, py_int_exn|intros x _].
    apply val_or_bind; [apply val_or_weak, py_int_exn|intros y _].
    destruct r as [|e r]; cbn [nth_error].
    + simpl. right. split; auto. eexists. split; [exact Hcore|]. right.
      apply negb_false_iff, andb_true_iff in N. destruct N as [N1 N2]. apply str_eqb_eq in N2.
      apply orb_true_iff in N1. rewrite !str_eqb_eq in N1. subst b.
      exists a, c, d. split; auto.
    + apply val_or_bind; [apply val_or_weak, py_int_exn|intros z _].
      apply val_or_weak, new_color_exn.
  - apply val_or_bind; [apply val_or_weak, py_int_exn|intros i _].
    match goal with |- val_or _ (let '(_, _) := ?x in _) => destruct x as [[sp idx] bg] end.
    destruct ((0 <=? idx) && (idx <? 256)) eqn:R; cbn [negb]; [|simpl; auto].
    apply andb_true_iff in R. rewrite Z.leb_le, Z.ltb_lt in R.
    destruct (table_entry idx R) as [t ->]. apply val_or_weak, new_color_exn.
Qed.


Lemma color_of_exn : forall s,
  val_or (fun e => e = IndexError /\ truncated s) (color_of (DStr s)).
Proof.
  intro s. cbn [color_of]. destruct (startswith (lit "#") s).
  { apply val_or_weak. destruct (zlen s =? 9); [|apply from_hex_exn].
    apply val_or_bind; [apply py_int16_exn|intros ? _]. apply from_hex_exn. }
  set (parts := split_on 59 s).
  apply val_or_bind.
  { destruct (contains_char 46 (last_of parts)); [|simpl; auto].
    apply val_or_bind; [apply val_or_weak, py_float_exn|simpl; auto]. }
  intros [d al] E.
  assert (Hd : exists p1, core_parts parts p1 /\ (split_on 59 d = p1 \/ (p1 = [] /\ d = []))).
  { destruct (contains_char 46 (last_of parts)) eqn:D.
    - destruct (py_float (last_of parts)) as [x|]; [|discriminate]. simpl in E. injection E as <- <-.
      exists (removelast parts). split.
      + right. exists (last_of parts). split; auto. apply app_removelast_last. apply split_on_ne.
      + assert (Hs : parts = removelast parts ++ [last_of parts])
          by (apply app_removelast_last, split_on_ne).
        destruct (removelast parts) as [|p r] eqn:ER; [now right|].
        left. apply split_on_join; [discriminate|].
        pose proof (split_on_no_sep 59 s) as F. fold parts in F. rewrite Hs in F.
        apply Forall_app in F. tauto.
    - injection E as <- <-. exists parts. split; [now left|now left]. }
  destruct (dict_get NAMED_COLORS d); [apply val_or_weak, from_hex_exn|].
  pose proof (from_ansi_exn d al) as F. destruct (from_ansi d al) as [c|e]; simpl in *; auto.
  destruct F as [F|[F [core [H1 H2]]]]; auto. right. split; auto.
  destruct Hd as [p1 [H3 [H4|[H4 H5]]]].
  - exists p1, core. rewrite H4 in H1. auto.
  - subst d p1. exists [], []. split; auto. split; [now left|now left].
Qed.

Lemma color_of_fails_with_ValueError : forall s, ~ truncated s ->
  (exists c, color_of (DStr s) = Ok c /\ color_ok c) \/ color_of (DStr s) = Err ValueError.
Proof.
  intros s H. pose proof (color_of_exn s) as E. pose proof (color_of_ok (DStr s)) as V.
  destruct (color_of (DStr s)) as [c|e]; simpl in E.
  - left. exists c. split; auto.
  - right. destruct E as [->|[_ T]]; [reflexivity|contradiction].
Qed.

(** * Equality *)
Lemma feqb_iff : forall x y, feqb x y = true <->
  (x = y /\ f_nan x = false) \/ (exists s t, x = B754_zero s /\ y = B754_zero t).
Proof.
  intros x y. unfold feqb, f_nan, Beqb, SpecFloat.SFeqb.
  destruct x as [sx|[]| |[] mx ex Bx]; destruct y as [sy|[]| |[] my ey By]; simpl;
    split; intro H; try discriminate; try (now left); try (right; eauto; fail);
    try (destruct H as [[H _]|[? [? [H1 H2]]]]; discriminate).
  all: try (destruct H as [[H H']|[? [? [H1 H2]]]]; [|discriminate];
            injection H as <- <-; rewrite Z.compare_refl, Pos.compare_cont_refl; reflexivity).
  all: try (destruct H as [[_ H]|[? [? [H _]]]]; discriminate H).
  all: try reflexivity.
  all: destruct (Z.compare_spec ex ey) as [E|E|E]; simpl in H; try discriminate;
       destruct (Pos.compare_cont Eq mx my) eqn:P; simpl in H; try discriminate;
       apply Pos.compare_eq in P; subst; left; split; auto; f_equal; apply Eqdep_dec.UIP_dec, bool_dec.
Qed.

Lemma feqb_refl : forall x, f_nan x = false -> feqb x x = true.
Proof. intros x H. apply feqb_iff. auto. Qed.
Lemma feqb_sym : forall x y, feqb x y = feqb y x.
Proof.
  assert (G : forall x y, feqb x y = true -> feqb y x = true).
  { intros x y H. apply feqb_iff in H. apply feqb_iff.
    destruct H as [[-> H]|[s [t [-> ->]]]]; [left; auto|right; eauto]. }
  intros x y. destruct (feqb x y) eqn:E1; destruct (feqb y x) eqn:E2; auto.
  - apply G in E1. congruence.
  - apply G in E2. congruence.
Qed.
Lemma feqb_trans : forall x y z, feqb x y = true -> feqb y z = true -> feqb x z = true.
Proof.
  intros x y z H1 H2. apply feqb_iff in H1, H2. apply feqb_iff.
  destruct H1 as [[-> H1]|[s [t [-> ->]]]]; destruct H2 as [[<- H2]|[s' [t' [E ->]]]]; auto; try (right; eauto; fail).
Qed.

Lemma triple_eqb_iff : forall a b, triple_eqb a b = true <-> a = b.
Proof.
  intros [[r g] b] [[r' g'] b']. unfold triple_eqb. rewrite !andb_true_iff, !Z.eqb_eq.
  split; [intros [[-> ->] ->]; reflexivity|injection 1; auto].
Qed.

Lemma color_equality : forall a b c,
  (f_nan (c_alpha a) = false -> color_eqb a a = true) /\
  (color_eqb a b = color_eqb b a) /\
  (color_eqb a b = true -> color_eqb b c = true -> color_eqb a c = true) /\
  (color_eqb a b = true ->
     red a = red b /\ green a = green b /\ blue a = blue b /\ color_hex a = color_hex b).
Proof.
  intros a b c. unfold color_eqb. repeat split.
  - intro H. now rewrite feqb_refl, (proj2 (triple_eqb_iff _ _)).
  - rewrite feqb_sym. f_equal. destruct (triple_eqb (c_rgb a) (c_rgb b)) eqn:E1;
      destruct (triple_eqb (c_rgb b) (c_rgb a)) eqn:E2; auto.
    + apply triple_eqb_iff in E1. rewrite E1, (proj2 (triple_eqb_iff _ _)) in E2; congruence.
    + apply triple_eqb_iff in E2. rewrite E2, (proj2 (triple_eqb_iff _ _)) in E1; congruence.
  - rewrite !andb_true_iff, !triple_eqb_iff. intros [E1 F1] [E2 F2]. split; [congruence|].
    eapply feqb_trans; eauto.
  - apply andb_true_iff in H. destruct H as [E _]. apply triple_eqb_iff in E. unfold red. now rewrite E.
  - apply andb_true_iff in H. destruct H as [E _]. apply triple_eqb_iff in E. unfold green. now rewrite E.
  - apply andb_true_iff in H. destruct H as [E _]. apply triple_eqb_iff in E. unfold blue. now rewrite E.
  - apply andb_true_iff in H. destruct H as [E _]. apply triple_eqb_iff in E. unfold color_hex. now rewrite E.
Qed.

(** Equal colors hash alike when they agree on what equality ignores. *)
Lemma equal_hash_same_build : forall a b, color_eqb a b = true ->
  c_bg a = c_bg b -> c_origin a = c_origin b -> c_ctor a = c_ctor b -> hash_fields a = hash_fields b.
Proof.
  intros a b H H1 H2 H3. unfold hash_fields. rewrite H1, H2, H3.
  apply andb_true_iff in H. destruct H as [E F]. apply triple_eqb_iff in E. rewrite E.
  do 3 f_equal. apply feqb_iff in F. destruct F as [[-> _]|[s [t [-> ->]]]]; auto.
Qed.

Lemma equal_but_hash_differs : exists a b,
  from_hex (lit "#FF0000") fone = Ok a /\ plain_color (255, 0, 0) false fone = Ok b /\
  color_eqb a b = true /\ hash_fields a <> hash_fields b.
Proof.
  eexists _, _. split; [reflexivity|]. split; [reflexivity|]. split; [vm_compute; reflexivity|].
  unfold hash_fields. cbn. discriminate.
Qed.

Lemma equal_across_layers : exists a b,
  color_eqb a b = true /\ c_bg a <> c_bg b /\ hash_fields a <> hash_fields b.
Proof.
  exists (mkColor (1, 2, 3) true fone TRUE_COLOR None), (mkColor (1, 2, 3) false fone TRUE_COLOR None).
  split; [vm_compute; reflexivity|]. split; [discriminate|]. unfold hash_fields. cbn. discriminate.
Qed.

(** * Layers and alpha *)
Lemma as_background_spec : forall c b alpha, color_ok c ->
  exists c', as_background c b alpha = Ok c' /\ c_rgb c' = c_rgb c /\ c_bg c' = b /\
  (c_bg c = b -> c' = c) /\
  (c_bg c <> b -> c_alpha c' = match alpha with
                                | Some a => if feqb a fzero then c_alpha c else a
                                | None => c_alpha c
                                end).
Proof.
  intros c b alpha H. unfold as_background. destruct (Bool.eqb (c_bg c) b) eqn:E.
  - apply eqb_prop in E. exists c. repeat split; auto. congruence.
  - apply eqb_false_iff in E. unfold plain_color.
    destruct H as [H1 [H2 H3]]. unfold red, green, blue in *. destruct (c_rgb c) as [[r g] bl]. simpl in *.
    rewrite new_color_ok by assumption. eexists. split; [reflexivity|]. cbn.
    repeat split; auto. congruence.
Qed.

Lemma as_alpha_spec : forall c a, color_ok c ->
  exists c', as_alpha c a = Ok c' /\ c_rgb c' = c_rgb c /\ c_bg c' = c_bg c /\ c_alpha c' = a.
Proof.
  intros c a [H1 [H2 H3]]. unfold as_alpha, plain_color, red, green, blue in *.
  destruct (c_rgb c) as [[r g] bl]. simpl in *. rewrite new_color_ok by assumption.
  eexists. split; [reflexivity|]. cbn. auto.
Qed.

(** Passing an alpha has no effect on a color already on that layer, nor has passing 0. *)
Lemma as_background_alpha_ignored :
  (exists c a c', color_ok c /\ as_background c true (Some a) = Ok c' /\ feqb (c_alpha c') a = false) /\
  (exists c c', color_ok c /\ c_bg c = false /\ as_background c true (Some fzero) = Ok c' /\
  feqb (c_alpha c') fzero = false).
Proof.
  split.
  - exists (mkColor (1, 2, 3) true fone TRUE_COLOR None), (flit 1 2). eexists.
    split; [unfold color_ok, channel_ok; cbn; lia|]. split; [reflexivity|vm_compute; reflexivity].
  - exists (mkColor (1, 2, 3) false fone TRUE_COLOR None). eexists.
    split; [unfold color_ok, channel_ok; cbn; lia|]. split; [reflexivity|].
    split; [reflexivity|vm_compute; reflexivity].
Qed.

(** * Tables *)
Lemma dict_get_in : forall A (d : list (str * A)) k v, dict_get d k = Some v -> In (k, v) d.
Proof.
  intros A d k v. unfold dict_get.
  assert (G : forall d acc, fold_left (fun acc (kv : str * A) => if str_eqb (fst kv) k then Some (snd kv) else acc) d acc
     = Some v -> In (k, v) d \/ acc = Some v).
  { induction d0 as [|[k' v'] d0 IH]; intros acc H; simpl in *; auto.
    apply IH in H. destruct H as [H|H]; auto. destruct (str_eqb k' k) eqn:E; auto.
    apply str_eqb_eq in E. subst. injection H as ->. auto. }
  intro H. apply G in H. destruct H as [H|H]; [auto|discriminate].
Qed.

Definition hexv (c : Z) : option Z :=
  if (48 <=? c) && (c <=? 57) then Some (c - 48)
  else if (65 <=? c) && (c <=? 70) then Some (c - 55)
  else if (97 <=? c) && (c <=? 102) then Some (c - 87) else None.
Lemma hexv_spec : forall c v, hexv c = Some v -> hex_value c v.
Proof.
  intros c v. unfold hexv, hex_value.
  destruct ((48 <=? c) && (c <=? 57)) eqn:E1; [apply andb_true_iff in E1; rewrite !Z.leb_le in E1; injection 1; lia|].
  destruct ((65 <=? c) && (c <=? 70)) eqn:E2; [apply andb_true_iff in E2; rewrite !Z.leb_le in E2; injection 1; lia|].
  destruct ((97 <=? c) && (c <=? 102)) eqn:E3; [apply andb_true_iff in E3; rewrite !Z.leb_le in E3; injection 1; lia|].
  discriminate.
Qed.

(** a named color entry spells '#' and six hex digits; its name contains no '.' and does not
    start with '#' *)
Definition entry_ok (kv : str * str) : bool :=
  let '(k, h) := kv in
  match h with
  | [c; a1; a2; a3; a4; a5; a6] =>
      (c =? 35) && match hexv a1, hexv a2, hexv a3, hexv a4, hexv a5, hexv a6 with
                   | Some _, Some _, Some _, Some _, Some _, Some _ => true
                   | _, _, _, _, _, _ => false
                   end
  | _ => false
  end && negb (startswith (lit "#") k) && negb (contains_char 46 (last_of (split_on 59 k))).

Lemma named_entries_ok : forallb entry_ok NAMED_COLORS = true.
Proof. vm_compute. reflexivity. Qed.

Lemma named_color_spec : forall name h, dict_get NAMED_COLORS name = Some h ->
  exists d1 d2 d3 d4 d5 d6 x1 x2 x3 x4 x5 x6,
    h = [35; d1; d2; d3; d4; d5; d6] /\
  hex_value d1 x1 /\ hex_value d2 x2 /\ hex_value d3 x3 /\ hex_value d4 x4 /\ hex_value d5 x5 /\
  hex_value d6 x6 /\
  color_of (DStr name) =
      Ok (mkColor (16 * x1 + x2, 16 * x3 + x4, 16 * x5 + x6) false fone TRUE_COLOR (Some h)).
Proof.
  intros name h H. pose proof (dict_get_in _ _ _ _ H) as Hin.
  pose proof (proj1 (forallb_forall _ _) named_entries_ok _ Hin) as E. unfold entry_ok in E.
  apply andb_true_iff in E. destruct E as [E E3]. apply andb_true_iff in E. destruct E as [E1 E2].
  apply negb_true_iff in E2, E3.
  destruct h as [|c [|d1 [|d2 [|d3 [|d4 [|d5 [|d6 [|]]]]]]]]; try discriminate.
  apply andb_true_iff in E1. destruct E1 as [Ec E1]. apply Z.eqb_eq in Ec. subst c.
  destruct (hexv d1) as [x1|] eqn:X1; [|discriminate].
  destruct (hexv d2) as [x2|] eqn:X2; [|discriminate].
  destruct (hexv d3) as [x3|] eqn:X3; [|discriminate].
  destruct (hexv d4) as [x4|] eqn:X4; [|discriminate].
  destruct (hexv d5) as [x5|] eqn:X5; [|discriminate].
  destruct (hexv d6) as [x6|] eqn:X6; [|discriminate].
  apply hexv_spec in X1, X2, X3, X4, X5, X6.
  exists d1, d2, d3, d4, d5, d6, x1, x2, x3, x4, x5, x6.
  repeat match goal with |- _ /\ _ => split; [first [reflexivity|assumption]|] end.
  cbn [color_of]. rewrite E2, E3. cbn [bindr]. rewrite H. now apply from_hex_six.
Qed.

(** the table has the colors of the xterm palette above 16, all valid *)
Definition entry_check (i : Z) : bool :=
  match nth_error COLOR_TABLE (Z.to_nat i) with
  | Some t => valid_rgb t && triple_eqb t (palette_entry i)
  | None => false
  end.
Lemma entries_ok : forallb entry_check (range 256) = true.
Proof. vm_compute. reflexivity. Qed.

Lemma table_spec : forall i, 0 <= i < 256 ->
  exists r g b, nth_error COLOR_TABLE (Z.to_nat i) = Some (r, g, b) /\
  channel_ok r /\ channel_ok g /\ channel_ok b /\ (r, g, b) = palette_entry i.
Proof.
  intros i H. pose proof (proj1 (forallb_forall _ _) entries_ok i (proj2 (in_range 256 i) H)) as E.
  unfold entry_check in E. destruct (nth_error COLOR_TABLE (Z.to_nat i)) as [[[r g] b]|]; [|discriminate].
  apply andb_true_iff in E. destruct E as [E1 E2]. apply valid_rgb_iff in E1.
  exists r, g, b. repeat split; try apply E1. now apply triple_eqb_iff in E2.
Qed.

Lemma dec_neg : forall n, n < 0 -> dec n = 45 :: dec (- n).
Proof.
  intros n H. unfold dec. destruct (Z.ltb_spec n 0); [|lia]. destruct (Z.ltb_spec (- n) 0); [lia|reflexivity].
Qed.

Lemma py_int_dec_all : forall n, py_int (dec n) = Ok n.
Proof.
  intro n. destruct (Z.le_gt_cases 0 n); [now apply py_int_dec|].
  rewrite dec_neg by assumption. set (m := - n). assert (Hm : 0 <= m) by lia.
  pose proof (py_int_dec m Hm) as E. unfold py_int, parse_int in *.
  rewrite ascii_digits_digits in E by (apply dec_digits; exact Hm).
  assert (A1 : ascii_digits (45 :: dec m) = 45 :: dec m).
  { cbn [ascii_digits map]. f_equal. apply ascii_digits_digits, dec_digits. exact Hm. }
  rewrite A1.
  assert (S1 : forall c, In c (dec m) -> num_space c = false).
  { intros c Hc. apply num_space_digit. eapply forallb_digit_In; [apply (dec_digits m Hm)|exact Hc]. }
  rewrite strip_by_none in E by assumption.
  rewrite strip_by_none.
  2:{ intros c [<-|Hc]; [reflexivity|auto]. }
  change (split_sign (45 :: dec m)) with (true, dec m). cbv beta iota.
  assert (E2 : split_sign (dec m) = (false, dec m)).
  { unfold split_sign. destruct (dec m) as [|c t] eqn:D; auto.
    assert (Hc : 48 <= c <= 57).
    { eapply forallb_digit_In; [apply (dec_digits m Hm)|]. rewrite D. now left. }
    destruct (Z.eqb_spec c 43); [lia|]. destruct (Z.eqb_spec c 45); [lia|]. reflexivity. }
  rewrite E2 in E. change (10 =? 16) with false in *. cbv iota in *.
  destruct (parse_digits 10 0 true (dec m)) as [v|]; [|discriminate]. injection E as ->. f_equal. lia.
Qed.

Lemma dec_chars : forall n c, In c (dec n) -> c = 45 \/ 48 <= c <= 57.
Proof.
  intros n c H. destruct (Z.le_gt_cases 0 n).
  - right. eapply forallb_digit_In; [apply (dec_digits n); assumption|exact H].
  - rewrite dec_neg in H by assumption. destruct H as [<-|H]; auto.
    right. eapply forallb_digit_In; [apply (dec_digits (- n)); lia|exact H].
Qed.


Lemma split_idx_seq : forall bg n,
  split_on 59 (idx_seq bg n) = [if bg then lit "48" else lit "38"; lit "5"; dec n].
Proof.
  intros. unfold idx_seq.
  transitivity (split_on 59 (join [59] [if bg then lit "48" else lit "38"; lit "5"; dec n])).
  { destruct bg; reflexivity. }
  apply split_on_join; [discriminate|].
  repeat apply Forall_cons; try apply Forall_nil.
  - destruct bg; simpl; intuition discriminate.
  - simpl; intuition discriminate.
  - intro H. apply dec_chars in H. lia.
Qed.

Lemma from_ansi_idx : forall bg n al,
  (0 <= n < 256 ->
     from_ansi (idx_seq bg n) al = Ok (mkColor (palette_entry n) bg al EIGHT_BIT (Some (idx_seq bg n)))) /\
  (~ 0 <= n < 256 -> from_ansi (idx_seq bg n) al = Err ValueError).
Proof.
  intros bg n al. unfold from_ansi. rewrite split_idx_seq. cbn [last_of last].
  assert (D : contains_char 46 (dec n) = false).
  { unfold contains_char. destruct (existsb _ _) eqn:E; auto. apply existsb_exists in E.
    destruct E as [x [Hx E]]. apply Z.eqb_eq in E. subst x. apply dec_chars in Hx. lia. }
  rewrite D. cbn [bindr].
  change (3 <? zlen [if bg then lit "48" else lit "38"; lit "5"; dec n]) with false. cbv iota.
  cbn [last_of last]. rewrite py_int_dec_all. cbn [bindr].
  change (zlen [if bg then lit "48" else lit "38"; lit "5"; dec n] =? 1) with false. cbv iota beta.
  assert (B : startswith (lit "4") (if bg then lit "48" else lit "38") = bg) by (destruct bg; reflexivity).
  rewrite B. split; intro H.
  - destruct (Z.leb_spec 0 n); [|lia]. destruct (Z.ltb_spec n 256); [|lia]. cbn [andb negb].
    destruct (table_spec n H) as [r [g [b [-> [V1 [V2 [V3 <-]]]]]]]. now apply new_color_ok.
  - destruct (Z.leb_spec 0 n); destruct (Z.ltb_spec n 256); cbn [andb negb]; auto. lia.
Qed.

Lemma description_index_error : exists s, color_of (DStr s) = Err IndexError.
Proof. exists (lit "38;2;1;2"). vm_compute. reflexivity. Qed.

Lemma description_exceptions : forall s,
  match color_of (DStr s) with
  | Ok c => color_ok c
  | Err e => e = ValueError \/ (e = IndexError /\ truncated s)
  end.
Proof.
  intro s. pose proof (color_of_exn s) as E. pose proof (color_of_ok (DStr s)) as V.
  destruct (color_of (DStr s)); simpl in *; auto.
Qed.

Lemma color_eqb_meaning : forall a b, color_eqb a b = true <->
  (red a = red b /\ green a = green b /\ blue a = blue b /\ feqb (c_alpha a) (c_alpha b) = true).
Proof.
  intros a b. unfold color_eqb. rewrite andb_true_iff, triple_eqb_iff. unfold red, green, blue.
  destruct (c_rgb a) as [[r g] bl], (c_rgb b) as [[r' g'] bl']. simpl.
  split; [intros [E H]; injection E; auto|intros [-> [-> [-> H]]]; auto].
Qed.
