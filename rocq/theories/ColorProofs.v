(** Colors: descriptions, hex, ansi, equality (no real arithmetic). *)
From Coq Require Import ZArith List Bool Lia String.
From Flocq Require Import IEEE754.BinarySingleNaN.
From Verif Require Import PyBase PyLemmas F64 SpaceModel ColorTab ColorModel ColorSpec Vt.
Open Scope Z_scope.

(** * Constructor *)
Lemma in_channel_iff : forall v, in_channel v = true <-> channel_ok v.
Proof. intro v. unfold in_channel, channel_ok. rewrite andb_true_iff, Z.leb_le, Z.ltb_lt. lia. Qed.

Lemma valid_rgb_iff : forall r g b,
  valid_rgb (r, g, b) = true <-> channel_ok r /\ channel_ok g /\ channel_ok b.
Proof. intros. unfold valid_rgb. rewrite !andb_true_iff, !in_channel_iff. tauto. Qed.

Lemma new_color_ok : forall r g b bg a o k,
  channel_ok r -> channel_ok g -> channel_ok b ->
  new_color (r, g, b) bg a o k = Ok (mkColor (r, g, b) bg a o k).
Proof. intros. unfold new_color. now rewrite (proj2 (valid_rgb_iff r g b)). Qed.

Lemma new_color_gives_ok : forall t bg a o k, gives_ok (new_color t bg a o k).
Proof.
  intros [[r g] b] bg a o k c. unfold new_color.
  destruct (valid_rgb (r, g, b)) eqn:E; [|discriminate]. injection 1 as <-.
  apply valid_rgb_iff in E. exact E.
Qed.

Lemma constructor_spec : forall r g b bg a,
  (channel_ok r /\ channel_ok g /\ channel_ok b /\
   exists c, plain_color (r, g, b) bg a = Ok c /\
     red c = r /\ green c = g /\ blue c = b /\ c_bg c = bg /\ c_alpha c = a) \/
  (~ (channel_ok r /\ channel_ok g /\ channel_ok b) /\
   plain_color (r, g, b) bg a = Err ValueError).
Proof.
  intros. unfold plain_color, new_color. destruct (valid_rgb (r, g, b)) eqn:E.
  - apply valid_rgb_iff in E. left. destruct E as [H1 [H2 H3]]. repeat split; try apply H1; try apply H2; try apply H3.
    eexists. split; [reflexivity|]. repeat split.
  - right. split; auto. rewrite <- valid_rgb_iff. congruence.
Qed.

(** * Every operation gives valid colors *)
Lemma bind_gives_ok : forall A (r : res A) k, (forall a, r = Ok a -> gives_ok (k a)) -> gives_ok (bindr r k).
Proof. intros A [a|e] k H c; simpl; [exact (H a eq_refl c)|discriminate]. Qed.

Lemma from_ansi_ok : forall s a, gives_ok (from_ansi s a).
Proof.
  intros s a. unfold from_ansi. apply bind_gives_ok. intros [al parts] _.
  destruct parts as [|p0 rest]; [intros c; discriminate|].
  destruct (3 <? zlen (p0 :: rest)).
  - destruct (negb _); [intros c; discriminate|].
    destruct (nth_error (p0 :: rest) 2); [|intros c; discriminate].
    destruct (nth_error (p0 :: rest) 3); [|intros c; discriminate].
    apply bind_gives_ok. intros r _. apply bind_gives_ok. intros g _.
    destruct (nth_error (p0 :: rest) 4); [|intros c; discriminate].
    apply bind_gives_ok. intros b _. apply new_color_gives_ok.
  - apply bind_gives_ok. intros i _.
    match goal with |- gives_ok (let '(_, _) := ?x in _) => destruct x as [[sp idx] bg] end.
    destruct (negb _); [intros c; discriminate|].
    destruct (nth_error COLOR_TABLE (Z.to_nat idx)); [apply new_color_gives_ok|intros c; discriminate].
Qed.

Lemma from_hex_ok : forall s a, gives_ok (from_hex s a).
Proof.
  intros s a. unfold from_hex. repeat (apply bind_gives_ok; intros ? _). apply new_color_gives_ok.
Qed.

Lemma color_of_ok : forall d, gives_ok (color_of d).
Proof.
  intros [s|t|t a|]; cbn [color_of]; try apply new_color_gives_ok; [|intros c; discriminate].
  destruct (startswith _ s).
  - destruct (zlen s =? 9); [|apply from_hex_ok].
    apply bind_gives_ok; intros ? _. apply from_hex_ok.
  - apply bind_gives_ok; intros [d al] _. destruct (dict_get NAMED_COLORS d); auto using from_hex_ok, from_ansi_ok.
Qed.

Lemma blend_ok : forall a b al bg, gives_ok (blend a b al bg).
Proof.
  intros a b al bg. unfold blend. destruct (c_rgb a) as [[? ?] ?], (c_rgb b) as [[? ?] ?].
  repeat (apply bind_gives_ok; intros ? _). apply new_color_gives_ok.
Qed.

Lemma lighten_ok : forall c n st, gives_ok (lighten c n st).
Proof. intros. unfold lighten. apply bind_gives_ok; intros ? _. apply blend_ok. Qed.
Lemma darken_ok : forall c n st, gives_ok (darken c n st).
Proof. intros. unfold darken. apply bind_gives_ok; intros ? _. apply blend_ok. Qed.

Lemma as_background_ok : forall c b a, color_ok c -> gives_ok (as_background c b a).
Proof.
  intros c b a H. unfold as_background. destruct (Bool.eqb _ _).
  - intros c' E. injection E as <-. exact H.
  - apply new_color_gives_ok.
Qed.
Lemma as_alpha_ok : forall c a, gives_ok (as_alpha c a).
Proof. intros. apply new_color_gives_ok. Qed.
Lemma hue_shift_ok : forall c a, gives_ok (hue_shift c a).
Proof.
  intros c a. unfold hue_shift. destruct (color_hls (c_rgb c)) as [[h l] s].
  destruct (hls_to_rgb _ _ _) as [[r g] b].
  repeat (apply bind_gives_ok; intros ? _). apply new_color_gives_ok.
Qed.
Lemma complement_ok : forall c, gives_ok (complement c).
Proof.
  intros c. unfold complement. destruct (color_hls (c_rgb c)) as [[h l] s].
  destruct (feqb h fzero); [destruct (feqb l fzero); apply new_color_gives_ok|apply hue_shift_ok].
Qed.
Lemma contrast_ok : forall e c, gives_ok (contrast e c).
Proof.
  intros e c. unfold contrast. destruct (fltb _ _); apply as_background_ok;
  unfold color_ok, channel_ok; cbn; lia.
Qed.

Lemma all_operations_ok : forall e c c2 s d a n bg o, color_ok c ->
  gives_ok (from_ansi s a) /\ gives_ok (from_hex s a) /\ gives_ok (color_of d) /\
  gives_ok (blend c c2 a o) /\ gives_ok (lighten c n a) /\ gives_ok (darken c n a) /\
  gives_ok (as_alpha c a) /\ gives_ok (as_background c bg (Some a)) /\
  gives_ok (as_background c bg None) /\ gives_ok (hue_shift c a) /\ gives_ok (complement c) /\
  gives_ok (contrast e c) /\ gives_ok (blend_complement c a).
Proof.
  intros. repeat match goal with |- _ /\ _ => split end;
  first [ apply from_ansi_ok | apply from_hex_ok | apply color_of_ok | apply blend_ok | apply lighten_ok
        | apply darken_ok | apply as_alpha_ok | now apply as_background_ok | apply hue_shift_ok
        | apply complement_ok | apply contrast_ok
        | unfold blend_complement; apply bind_gives_ok; intros ? _; apply blend_ok ].
Qed.

(** * Hex *)
Lemma digit_val_hex : forall c v, hex_value c v -> digit_val c = Some v /\ 0 <= v < 16.
Proof.
  intros c v [[H ->]|[[H ->]|[H ->]]]; unfold digit_val, is_digit.
  - destruct (Z.leb_spec 48 c); destruct (Z.leb_spec c 57); simpl; split; try lia; reflexivity.
  - destruct (Z.leb_spec 48 c); destruct (Z.leb_spec c 57); destruct (Z.leb_spec 97 c);
    destruct (Z.leb_spec 65 c); destruct (Z.leb_spec c 90); simpl; split; try lia; reflexivity.
  - destruct (Z.leb_spec 48 c); destruct (Z.leb_spec c 57); destruct (Z.leb_spec 97 c);
    destruct (Z.leb_spec c 122); simpl; split; try lia; reflexivity.
Qed.

Lemma hex_char_range : forall c v, hex_value c v -> 48 <= c <= 57 \/ 65 <= c <= 70 \/ 97 <= c <= 102.
Proof. intros c v [[H _]|[[H _]|[H _]]]; lia. Qed.

Lemma hex_not_space : forall c v, hex_value c v -> is_space c = false.
Proof.
  intros c v H. apply hex_char_range in H. unfold is_space.
  repeat match goal with |- context [?a <=? ?b] => destruct (Z.leb_spec a b); try lia end;
  repeat match goal with |- context [?a =? ?b] => destruct (Z.eqb_spec a b); try lia end; reflexivity.
Qed.

Lemma py_int16_pair : forall a b x y, hex_value a x -> hex_value b y -> py_int16 [a; b] = Ok (16 * x + y).
Proof.
  intros a b x y Ha Hb. unfold py_int16, parse_int.
  rewrite ascii_digits_low.
  2:{ intros c [<-|[<-|[]]]; [apply hex_char_range in Ha|apply hex_char_range in Hb]; lia. }
  rewrite strip_by_none.
  2:{ intros c [<-|[<-|[]]]; unfold num_space; erewrite hex_not_space by eassumption; reflexivity. }
  destruct (digit_val_hex a x Ha) as [Da Ra]. destruct (digit_val_hex b y Hb) as [Db Rb].
  pose proof (hex_char_range a x Ha). pose proof (hex_char_range b y Hb).
  assert (E1 : split_sign [a; b] = (false, [a; b])).
  { unfold split_sign. destruct (Z.eqb_spec a 43); [lia|]. destruct (Z.eqb_spec a 45); [lia|]. reflexivity. }
  rewrite E1. change (16 =? 16) with true. cbv iota.
  assert (E2 : drop_0x [a; b] = [a; b]).
  { unfold drop_0x. destruct (Z.eqb_spec b 120); [lia|]. destruct (Z.eqb_spec b 88); [lia|].
    now rewrite andb_false_r. }
  rewrite E2. cbn [parse_digits].
  destruct (Z.eqb_spec a 95); [lia|]. rewrite Da. destruct (Z.ltb_spec x 16); [|lia].
  destruct (Z.eqb_spec b 95); [lia|]. rewrite Db. destruct (Z.ltb_spec y 16); [|lia].
  f_equal. lia.
Qed.

Lemma from_hex_six : forall a b c d e f x1 x2 x3 x4 x5 x6 al,
  hex_value a x1 -> hex_value b x2 -> hex_value c x3 -> hex_value d x4 -> hex_value e x5 -> hex_value f x6 ->
  from_hex [35; a; b; c; d; e; f] al =
    Ok (mkColor (16 * x1 + x2, 16 * x3 + x4, 16 * x5 + x6) false al TRUE_COLOR
          (Some [35; a; b; c; d; e; f])).
Proof.
  intros a b c d e f x1 x2 x3 x4 x5 x6 al Ha Hb Hc Hd He Hf. unfold from_hex.
  assert (E : lstrip_by (Z.eqb 35) [35; a; b; c; d; e; f] = [a; b; c; d; e; f]).
  { pose proof (hex_char_range a x1 Ha). cbn [lstrip_by]. change (35 =? 35) with true. cbv iota.
    destruct (Z.eqb_spec 35 a); [lia|reflexivity]. }
  rewrite E.
  change (slice None (Some 2) [a; b; c; d; e; f]) with [a; b].
  change (slice (Some 2) (Some 4) [a; b; c; d; e; f]) with [c; d].
  change (slice (Some 4) None [a; b; c; d; e; f]) with [e; f].
  rewrite (py_int16_pair a b x1 x2), (py_int16_pair c d x3 x4), (py_int16_pair e f x5 x6) by assumption.
  cbn [bindr].
  destruct (digit_val_hex a x1 Ha), (digit_val_hex b x2 Hb), (digit_val_hex c x3 Hc),
    (digit_val_hex d x4 Hd), (digit_val_hex e x5 He), (digit_val_hex f x6 Hf).
  apply new_color_ok; unfold channel_ok; lia.
Qed.

Lemma color_six : forall a b c d e f x1 x2 x3 x4 x5 x6,
  hex_value a x1 -> hex_value b x2 -> hex_value c x3 -> hex_value d x4 -> hex_value e x5 -> hex_value f x6 ->
  color_of (DStr [35; a; b; c; d; e; f]) =
    Ok (mkColor (16 * x1 + x2, 16 * x3 + x4, 16 * x5 + x6) false fone TRUE_COLOR
          (Some [35; a; b; c; d; e; f])).
Proof. intros. cbn [color_of]. change (startswith (lit "#") [35; a; b; c; d; e; f]) with true. cbv iota.
  change (zlen [35; a; b; c; d; e; f] =? 9) with false. cbv iota. now apply from_hex_six. Qed.

Lemma color_eight : forall a b c d e f g h x1 x2 x3 x4 x5 x6 x7 x8,
  hex_value a x1 -> hex_value b x2 -> hex_value c x3 -> hex_value d x4 -> hex_value e x5 -> hex_value f x6 ->
  hex_value g x7 -> hex_value h x8 ->
  color_of (DStr [35; a; b; c; d; e; f; g; h]) =
    Ok (mkColor (16 * x1 + x2, 16 * x3 + x4, 16 * x5 + x6) false (fdiv (fofZ (16 * x7 + x8)) (fofZ 255))
          TRUE_COLOR (Some [35; a; b; c; d; e; f])).
Proof.
  intros. cbn [color_of]. change (startswith (lit "#") [35; a; b; c; d; e; f; g; h]) with true. cbv iota.
  change (zlen [35; a; b; c; d; e; f; g; h] =? 9) with true. cbv iota.
  change (slice (Some (-2)) None [35; a; b; c; d; e; f; g; h]) with [g; h].
  change (slice None (Some (-2)) [35; a; b; c; d; e; f; g; h]) with [35; a; b; c; d; e; f].
  rewrite (py_int16_pair g h x7 x8) by assumption. cbn [bindr]. now apply from_hex_six.
Qed.

Lemma hex_digit_value : forall v, 0 <= v < 16 -> hex_value (hex_digit v) v /\ upper_hex (hex_digit v).
Proof.
  intros v H. unfold hex_digit, hex_value, upper_hex. destruct (Z.ltb_spec v 10); split; lia.
Qed.

Lemma hex_roundtrip : forall c, color_ok c ->
  exists d1 d2 d3 d4 d5 d6,
    color_hex c = [35; d1; d2; d3; d4; d5; d6] /\ Forall upper_hex [d1; d2; d3; d4; d5; d6] /\
    color_of (DStr (color_hex c)) = Ok (mkColor (c_rgb c) false fone TRUE_COLOR (Some (color_hex c))).
Proof.
  intros c H. unfold color_ok, channel_ok, red, green, blue in H. unfold color_hex.
  destruct (c_rgb c) as [[r g] b]. simpl in H. unfold hex02. cbn [app].
  assert (D : forall v, 0 <= v <= 255 -> 0 <= v / 16 < 16 /\ 0 <= v mod 16 < 16 /\ 16 * (v / 16) + v mod 16 = v).
  { intros v Hv. pose proof (Z.mod_pos_bound v 16). pose proof (Z.div_mod v 16).
    split; [|split]; lia. }
  destruct (D r) as [r1 [r2 r3]]; [lia|]. destruct (D g) as [g1 [g2 g3]]; [lia|].
  destruct (D b) as [b1 [b2 b3]]; [lia|].
  eexists _, _, _, _, _, _. split; [reflexivity|]. split.
  - repeat (apply Forall_cons; [apply hex_digit_value; assumption|]). apply Forall_nil.
  - erewrite color_six by (apply hex_digit_value; assumption). now rewrite r3, g3, b3.
Qed.

(** * True color ansi *)
Lemma lead_dec : forall c, dec (lead c) = if c_bg c then lit "48" else lit "38".
Proof. intro c. unfold lead. destruct (c_bg c); reflexivity. Qed.

Definition rgb_seq (bg : bool) (r g b : Z) : str :=
  (if bg then lit "48" else lit "38") ++ lit ";2;" ++ join (lit ";") [dec r; dec g; dec b].


Lemma color_ansi_free : forall e c, no_ansi_ctor c ->
  color_ansi e c =
  match env_cs e with
  | TRUE_COLOR => rgb_seq (c_bg c) (red c) (green c) (blue c)
  | NO_COLOR => dec (lead c) ++ lit ";5;" ++ dec (grey_index e (c_rgb c))
  | EIGHT_BIT => dec (lead c) ++ lit ";5;" ++ dec (eight_bit_index (c_rgb c))
  | STANDARD =>
      let index := nearest_standard (c_rgb c) in
      let index := if 7 <? index then index + 82 else index + 30 in
      dec (if c_bg c then index + 10 else index)
  end.
Proof.
  intros e c H. unfold color_ansi, no_ansi_ctor in *.
  assert (R : rgb_seq (c_bg c) (red c) (green c) (blue c) =
     (let '(r, g, b) := c_rgb c in dec (lead c) ++ lit ";2;" ++ join (lit ";") [dec r; dec g; dec b])).
  { unfold rgb_seq, red, green, blue. rewrite lead_dec. destruct (c_rgb c) as [[r g] b]. reflexivity. }
  destruct (c_ctor c) as [k|].
  - rewrite H. cbn [negb]. destruct (cs_ge _ _) as [[]|]; cbv beta iota zeta; rewrite R;
      destruct (env_cs e); destruct (c_rgb c) as [[r g] b]; reflexivity.
  - destruct (cs_ge _ _) as [[]|]; cbv beta iota zeta; rewrite R;
      destruct (env_cs e); destruct (c_rgb c) as [[r g] b]; reflexivity.
Qed.

Lemma lit_semi : lit ";" = [59]. Proof. reflexivity. Qed.

Lemma dec_no_semi : forall n, 0 <= n -> ~ In 59 (dec n).
Proof. intros. apply dec_no_char; lia. Qed.
Lemma dec_no_dot : forall n, 0 <= n -> contains_char 46 (dec n) = false.
Proof.
  intros n H. unfold contains_char. destruct (existsb _ _) eqn:E; auto.
  apply existsb_exists in E. destruct E as [x [Hx E]]. apply Z.eqb_eq in E. subst x.
  exfalso. exact (dec_no_char n 46 H ltac:(lia) Hx).
Qed.

Lemma split_rgb_seq : forall bg r g b, 0 <= r -> 0 <= g -> 0 <= b ->
  split_on 59 (rgb_seq bg r g b) = [if bg then lit "48" else lit "38"; lit "2"; dec r; dec g; dec b].
Proof.
  intros. unfold rgb_seq. rewrite lit_semi.
  transitivity (split_on 59 (join [59] [if bg then lit "48" else lit "38"; lit "2"; dec r; dec g; dec b])).
  { destruct bg; reflexivity. }
  apply split_on_join; [discriminate|].
  repeat constructor; try (apply dec_no_semi; assumption).
  - destruct bg; simpl; intuition discriminate.
  - simpl; intuition discriminate.
Qed.

Lemma from_ansi_rgb : forall bg r g b al, channel_ok r -> channel_ok g -> channel_ok b ->
  from_ansi (rgb_seq bg r g b) al =
  Ok (mkColor (r, g, b) bg al TRUE_COLOR (Some (rgb_seq bg r g b))).
Proof.
  intros bg r g b al Hr Hg Hb. unfold channel_ok in *. unfold from_ansi.
  rewrite split_rgb_seq by lia. cbn [last_of last].
  rewrite dec_no_dot by lia. cbn [bindr].
  change (3 <? zlen [if bg then lit "48" else lit "38"; lit "2"; dec r; dec g; dec b]) with true. cbv iota.
  assert (E : str_eqb (if bg then lit "48" else lit "38") (lit "38") ||
     str_eqb (if bg then lit "48" else lit "38") (lit "48") = true) by (destruct bg; reflexivity).
  cbn [firstn nth]. rewrite E. change (str_eqb (lit "2") (lit "2")) with true. cbn [andb negb].
  cbn [nth_error]. rewrite !py_int_dec by lia. cbn [bindr].
  assert (B : startswith (lit "4") (if bg then lit "48" else lit "38") = bg) by (destruct bg; reflexivity).
  rewrite B. rewrite new_color_ok by (unfold channel_ok; lia). destruct bg; reflexivity.
Qed.

Lemma params_digits : forall l, l <> [] -> Forall (fun n => 0 <= n) l ->
  params (join [59] (map dec l)) = l.
Proof.
  intros l Hl H. unfold params. rewrite split_on_join.
  - rewrite map_map. rewrite <- (map_id l) at 2. apply map_ext_in.
    intros a Ha. rewrite Forall_forall in H. apply dec_val. auto.
  - destruct l; [congruence|discriminate].
  - rewrite Forall_map. revert H. apply Forall_impl. intros a Ha. now apply dec_no_semi.
Qed.

Lemma params_rgb_seq : forall bg r g b, 0 <= r -> 0 <= g -> 0 <= b ->
  params (rgb_seq bg r g b) = [if bg then 48 else 38; 2; r; g; b].
Proof.
  intros. unfold params. rewrite split_rgb_seq by assumption. cbn [map].
  assert (D : forall n, 0 <= n -> param_val (dec n) = n) by (intros; apply dec_val; assumption).
  rewrite !D by assumption. destruct bg; reflexivity.
Qed.

Lemma sgr_rgb_seq : forall bg r g b rd, 0 <= r -> 0 <= g -> 0 <= b ->
  sgr (params (rgb_seq bg r g b)) rd = (if bg then with_bg else with_fg) (ERgb r g b) rd.
Proof. intros. rewrite params_rgb_seq by assumption. destruct bg; reflexivity. Qed.

Lemma truecolor_roundtrip : forall e c al rd, color_ok c -> no_ansi_ctor c -> env_cs e = TRUE_COLOR ->
  from_ansi (color_ansi e c) al = Ok (mkColor (c_rgb c) (c_bg c) al TRUE_COLOR (Some (color_ansi e c))) /\
  sgr (params (color_ansi e c)) rd
    = (if c_bg c then with_bg else with_fg) (ERgb (red c) (green c) (blue c)) rd.
Proof.
  intros e c al rd Hc Hn He. rewrite color_ansi_free by assumption. rewrite He.
  destruct Hc as [H1 [H2 H3]]. split.
  - rewrite from_ansi_rgb by assumption. do 3 f_equal.
    unfold red, green, blue. destruct (c_rgb c) as [[r g] b]. reflexivity.
  - unfold channel_ok in *. apply sgr_rgb_seq; lia.
Qed.
