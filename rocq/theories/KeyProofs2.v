(** Replies of the terminal: default colors and pixel size. *)
From Coq Require Import ZArith List Bool String Lia.
From Verif Require Import PyBase PyLemmas F64 SpaceModel ColorModel ColorSpec ColorProofs ColorProofs2 KeyTab CoreModel KeySpec KeyProofs.
Open Scope Z_scope.

Lemma take_lit_spec : forall p s t, take_lit p s = Some t <-> s = p ++ t.
Proof.
  intros p s t. unfold take_lit. destruct (startswith p s) eqn:E.
  - apply startswith_iff in E. destruct E as [r ->]. 
    assert (K : skipn (List.length p) (p ++ r) = r) by (rewrite skipn_app, skipn_all, Nat.sub_diag; reflexivity).
    rewrite K. split; [congruence|]. intro H. apply app_inv_head in H. now subst.
  - split; [discriminate|]. intro H. subst. now rewrite startswith_app in E.
Qed.
Lemma take_lit_app : forall p t, take_lit p (p ++ t) = Some t.
Proof. intros. now apply take_lit_spec. Qed.

Lemma is_lhex_iff : forall c, is_lhex c = true <-> lower_hex c.
Proof.
  intro c. unfold is_lhex, lower_hex, is_digit. rewrite orb_true_iff, !andb_true_iff, !Z.leb_le. tauto.
Qed.
Lemma take_hex4_spec : forall s h t, take_hex4 s = Some (h, t) <-> s = h ++ t /\ channel16 h.
Proof.
  intros s h t. unfold take_hex4, channel16.
  destruct s as [|a [|b [|c [|d s]]]]; try (simpl; split; [discriminate|intros [E [x [y [z [w [-> _]]]]]]; discriminate]).
  cbn [firstn skipn]. change (zlen [a; b; c; d] =? 4) with true. cbn [andb forallb].
  destruct (is_lhex a && (is_lhex b && (is_lhex c && (is_lhex d && true)))) eqn:E.
  - rewrite !andb_true_iff, !is_lhex_iff in E. split.
    + intro H. injection H as <- <-. split; auto. exists a, b, c, d. tauto.
    + intros [H [x [y [z [w [-> _]]]]]]. injection H as -> -> -> -> ->. reflexivity.
  - split; [discriminate|]. intros [H [x [y [z [w [-> L]]]]]]. injection H as -> -> -> -> ->.
    rewrite <- !is_lhex_iff in L. destruct L as [L1 [L2 [L3 L4]]]. rewrite L1, L2, L3, L4 in E. discriminate.
Qed.

Lemma palette_reply_spec : forall s r g b, palette_reply s = Some (r, g, b) <->
  exists layer tail, (layer = lit "10" \/ layer = lit "11") /\ channel16 r /\ channel16 g /\ channel16 b /\
    s = color_reply layer r g b ++ tail.
Proof.
  intros s r g b. unfold color_reply. split.
  - unfold palette_reply. destruct (take_lit [ESC; 93] s) as [s1|] eqn:E1; [|discriminate]. apply take_lit_spec in E1.
    cbv zeta. set (o := match take_lit (lit "10") s1 with Some r0 => Some r0 | None => take_lit (lit "11") s1 end).
    assert (O : forall s2, o = Some s2 -> exists layer, (layer = lit "10" \/ layer = lit "11") /\ s1 = layer ++ s2).
    { intros s2. unfold o. destruct (take_lit (lit "10") s1) as [x|] eqn:T.
      - intro H. injection H as ->. apply take_lit_spec in T. eauto.
      - intro H. apply take_lit_spec in H. eauto. }
    destruct o as [s2|]; [|discriminate]. destruct (O s2 eq_refl) as [layer [HL E2]].
    destruct (take_lit (lit ";rgb:") s2) as [s3|] eqn:E3; [|discriminate]. apply take_lit_spec in E3.
    destruct (take_hex4 s3) as [[r' s4]|] eqn:E4; [|discriminate]. apply take_hex4_spec in E4.
    destruct (take_lit (lit "/") s4) as [s5|] eqn:E5; [|discriminate]. apply take_lit_spec in E5.
    destruct (take_hex4 s5) as [[g' s6]|] eqn:E6; [|discriminate]. apply take_hex4_spec in E6.
    destruct (take_lit (lit "/") s6) as [s7|] eqn:E7; [|discriminate]. apply take_lit_spec in E7.
    destruct (take_hex4 s7) as [[b' s8]|] eqn:E8; [|discriminate]. apply take_hex4_spec in E8.
    destruct (take_lit [ESC; 92] s8) as [s9|] eqn:E9; [|discriminate]. apply take_lit_spec in E9.
    intro H. injection H as -> -> ->. destruct E4 as [E4 C4], E6 as [E6 C6], E8 as [E8 C8].
    exists layer, s9. repeat match goal with |- _ /\ _ => split end; auto. subst. rewrite <- !app_assoc. reflexivity.
  - intros [layer [tail [HL [Hr [Hg [Hb ->]]]]]]. unfold palette_reply. rewrite <- !app_assoc.
    change [27; 93] with [ESC; 93]. rewrite take_lit_app. cbv zeta.
    assert (O : (match take_lit (lit "10") (layer ++ lit ";rgb:" ++ r ++ lit "/" ++ g ++ lit "/" ++ b ++ [27; 92] ++ tail) with
       Some r0 => Some r0 | None => take_lit (lit "11") (layer ++ lit ";rgb:" ++ r ++ lit "/" ++ g ++ lit "/" ++ b ++ [27; 92] ++ tail) end)
       = Some (lit ";rgb:" ++ r ++ lit "/" ++ g ++ lit "/" ++ b ++ [27; 92] ++ tail)).
    { destruct HL as [-> | ->]; [now rewrite take_lit_app|].
      match goal with |- match ?x with _ => _ end = _ => destruct x eqn:T end.
      - apply take_lit_spec in T. discriminate.
      - apply take_lit_app. }
    rewrite O. rewrite take_lit_app.
    rewrite (proj2 (take_hex4_spec _ r _) (conj eq_refl Hr)), take_lit_app.
    rewrite (proj2 (take_hex4_spec _ g _) (conj eq_refl Hg)), take_lit_app.
    rewrite (proj2 (take_hex4_spec _ b _) (conj eq_refl Hb)). change [27; 92] with [ESC; 92]. rewrite take_lit_app. reflexivity.
Qed.

Lemma hex_num_value : forall c, lower_hex c -> hex_value c (hex_num c).
Proof. intros c H. unfold lower_hex, hex_value, hex_num in *. destruct (Z.leb_spec c 57); lia. Qed.

Lemma default_color_spec : forall fg, exists c, default_color fg = Ok c /\ c_bg c = false /\ c_alpha c = fone /\
  c_rgb c = if fg then (222, 222, 222) else (20, 20, 20).
Proof.
  intro fg. unfold default_color.
  assert (H : exists a b, lit (if fg then "#dedede" else "#141414") = [35; a; b; a; b; a; b] /\
     hex_value a (if fg then 13 else 1) /\ hex_value b (if fg then 14 else 4)).
  { destruct fg; [exists 100, 101|exists 49, 52]; (split; [reflexivity|]); unfold hex_value; lia. }
  destruct H as [a [b [-> [Ha Hb]]]].
  pose proof (from_hex_six a b a b a b _ _ _ _ _ _ fone Ha Hb Ha Hb Ha Hb) as F.
  unfold color_of. change (startswith (lit "#") [35; a; b; a; b; a; b]) with true.
  change (zlen [35; a; b; a; b; a; b] =? 9) with false. cbv iota. rewrite F.
  eexists. split; [reflexivity|]. repeat split. destruct fg; reflexivity.
Qed.

Lemma get_default_color_reply : forall fg layer r g b tail k, (layer = lit "10" \/ layer = lit "11") ->
  channel16 r -> channel16 g -> channel16 b ->
  exists c, get_default_color true fg (Ok ((color_reply layer r g b ++ tail) :: k)) = Ok c /\
    c_rgb c = (high_byte r, high_byte g, high_byte b) /\ c_bg c = false /\ c_alpha c = fone.
Proof.
  intros fg layer r g b tail k HL Hr Hg Hb. unfold get_default_color. cbn [negb key_str bindr].
  assert (P : palette_reply (color_reply layer r g b ++ tail) = Some (r, g, b)).
  { apply palette_reply_spec. exists layer, tail. auto. }
  rewrite P. destruct Hr as [r1 [r2 [r3 [r4 [-> [R1 [R2 _]]]]]]]. destruct Hg as [g1 [g2 [g3 [g4 [-> [G1 [G2 _]]]]]]].
  destruct Hb as [b1 [b2 [b3 [b4 [-> [B1 [B2 _]]]]]]].
  change (slice None (Some 2) [r1; r2; r3; r4]) with [r1; r2]. change (slice None (Some 2) [g1; g2; g3; g4]) with [g1; g2].
  change (slice None (Some 2) [b1; b2; b3; b4]) with [b1; b2].
  change (lit "#" ++ [r1; r2] ++ [g1; g2] ++ [b1; b2]) with [35; r1; r2; g1; g2; b1; b2].
  unfold color_of. change (startswith (lit "#") [35; r1; r2; g1; g2; b1; b2]) with true.
  change (zlen [35; r1; r2; g1; g2; b1; b2] =? 9) with false. cbv iota.
  rewrite (from_hex_six _ _ _ _ _ _ _ _ _ _ _ _ fone (hex_num_value _ R1) (hex_num_value _ R2) (hex_num_value _ G1)
     (hex_num_value _ G2) (hex_num_value _ B1) (hex_num_value _ B2)).
  eexists. split; [reflexivity|]. unfold high_byte. cbn [c_rgb c_bg c_alpha nth]. repeat split.
  f_equal; [f_equal|]; lia.
Qed.

Lemma decode_key_ne : forall raw t k, decode_key raw t = Ok k -> k <> [].
Proof.
  intros raw t k. unfold decode_key. destruct raw; [intro H; injection H as <-; discriminate|].
  destruct (parse_mouse_event _) as [[ev|]|]; cbn [bindr]; try discriminate; [intro H; injection H as <-; discriminate|].
  destruct (dict_get POSIX_KEY_NAMES t) as [names|] eqn:E.
  - intro H. injection H as <-. pose proof (dict_get_in _ _ _ _ E) as I.
    pose proof posix_names_ok as P. rewrite forallb_forall in P. specialize (P _ I). simpl in P. destruct names; congruence.
  - intro H. injection H as <-. discriminate.
Qed.

(** Not a reply: the default *)
Lemma get_default_color_other : forall tty fg reply,
  (tty = false \/ (exists e, reply = Err e) \/
   (exists s k, reply = Ok (s :: k) /\ forall layer r g b tail, (layer = lit "10" \/ layer = lit "11") ->
      channel16 r -> channel16 g -> channel16 b -> s <> color_reply layer r g b ++ tail)) ->
  get_default_color tty fg reply = default_color fg.
Proof.
  intros tty fg reply H. unfold get_default_color. destruct tty; [|reflexivity]. cbn [negb].
  destruct H as [H|[[e ->]|[s [k [-> H]]]]]; [discriminate|reflexivity|].
  cbn [key_str bindr]. destruct (palette_reply s) as [[[r g] b]|] eqn:E; [|reflexivity].
  apply palette_reply_spec in E. destruct E as [layer [tail [HL [Hr [Hg [Hb E]]]]]]. exfalso. now apply (H layer r g b tail).
Qed.

Lemma color_reply_keyboard : forall layer r g b, (layer = lit "10" \/ layer = lit "11") ->
  channel16 r -> channel16 g -> channel16 b -> keyboard (color_reply layer r g b).
Proof.
  intros layer r g b HL Hr Hg Hb. apply keyboard_few. unfold color_reply.
  assert (C : forall h, channel16 h -> count_char 59 h = 0).
  { intros h [x [y [z [w [-> [X [Y [Z W]]]]]]]]. apply count_char_none. unfold lower_hex in *. simpl. lia. }
  rewrite !count_char_app, (C r Hr), (C g Hg), (C b Hb). destruct HL as [-> | ->]; vm_compute; reflexivity.
Qed.
Lemma color_reply_unnamed : forall layer r g b, dict_get POSIX_KEY_NAMES (color_reply layer r g b) = None.
Proof.
  intros layer r g b. apply dict_get_none. intro I.
  assert (T : forallb (fun k => negb (startswith [27; 93] k)) (map fst POSIX_KEY_NAMES) = true) by (vm_compute; reflexivity).
  rewrite forallb_forall in T. specialize (T _ I). unfold color_reply in T. rewrite startswith_app in T. discriminate.
Qed.
Lemma color_reply_read : forall layer r g b, (layer = lit "10" \/ layer = lit "11") ->
  channel16 r -> channel16 g -> channel16 b -> decode_key false (color_reply layer r g b) = Ok [color_reply layer r g b].
Proof. intros. apply decode_plain; auto using color_reply_keyboard, color_reply_unnamed. Qed.

(** Any answer at all gives a valid color *)
Lemma get_default_color_total : forall tty fg raw t,
  exists c, get_default_color tty fg (decode_key raw t) = Ok c /\ color_ok c /\ c_bg c = false /\ c_alpha c = fone.
Proof.
  intros tty fg raw t. destruct (default_color_spec fg) as [d [ED [B [A R]]]].
  assert (OKd : color_ok d).
  { unfold color_ok, channel_ok, red, green, blue. rewrite R. destruct fg; simpl; lia. }
  destruct (get_default_color tty fg (decode_key raw t)) eqn:E.
  - exists a. split; [reflexivity|]. split.
    + assert (G : gives_ok (get_default_color tty fg (decode_key raw t))).
      { unfold get_default_color, default_color. destruct (negb tty); [apply color_of_ok|].
        apply bind_gives_ok. intros s _. destruct (palette_reply s) as [[[r g] b]|]; apply color_of_ok. }
      now apply G.
    + destruct (decode_key raw t) as [k|e] eqn:D.
      2: { rewrite (get_default_color_other tty fg) in E by eauto. rewrite ED in E. injection E as <-. auto. }
      destruct k as [|s k]; [now apply decode_key_ne in D|].
      unfold get_default_color in E. destruct tty; cbn [negb] in E.
      2: { rewrite ED in E. injection E as <-. auto. }
      cbn [key_str bindr] in E. destruct (palette_reply s) as [[[r g] b]|] eqn:P.
      * apply palette_reply_spec in P. destruct P as [layer [tail [HL [Hr [Hg [Hb ->]]]]]].
        destruct (get_default_color_reply fg layer r g b tail k HL Hr Hg Hb) as [c [EC [_ [Bc Ac]]]].
        unfold get_default_color in EC. cbn [negb key_str bindr] in EC.
        assert (P : palette_reply (color_reply layer r g b ++ tail) = Some (r, g, b)).
        { apply palette_reply_spec. exists layer, tail. auto. }
        rewrite P in EC. rewrite EC in E. injection E as <-. auto.
      * rewrite ED in E. injection E as <-. auto.
  - exfalso. destruct (decode_key raw t) as [k|e'] eqn:D.
    2: { rewrite (get_default_color_other tty fg) in E by eauto. rewrite ED in E. discriminate. }
    destruct k as [|s k]; [now apply decode_key_ne in D|].
    unfold get_default_color in E. destruct tty; cbn [negb] in E; [|rewrite ED in E; discriminate].
    cbn [key_str bindr] in E. destruct (palette_reply s) as [[[r g] b]|] eqn:P; [|rewrite ED in E; discriminate].
    apply palette_reply_spec in P. destruct P as [layer [tail [HL [Hr [Hg [Hb ->]]]]]].
    destruct (get_default_color_reply fg layer r g b tail k HL Hr Hg Hb) as [c [EC _]].
    unfold get_default_color in EC. cbn [negb key_str bindr] in EC.
    assert (P : palette_reply (color_reply layer r g b ++ tail) = Some (r, g, b)).
    { apply palette_reply_spec. exists layer, tail. auto. }
    rewrite P in EC. rewrite EC in E. discriminate.
Qed.

(** * Pixel size *)

Lemma take_digits_spec : forall s a b, take_digits s = (a, b) ->
  s = a ++ b /\ forallb is_decimal a = true /\ match b with [] => True | c :: _ => is_decimal c = false end.
Proof.
  induction s as [|c s IH]; intros a b; simpl; [intro H; injection H as <- <-; auto|].
  destruct (is_decimal c) eqn:D.
  - destruct (take_digits s) as [a' b'] eqn:T. intro H. injection H as <- <-. destruct (IH a' b' eq_refl) as [-> [F L]].
    simpl. rewrite D, F. auto.
  - intro H. injection H as <- <-. simpl. auto.
Qed.
Lemma take_digits_app : forall a c t, forallb is_decimal a = true -> is_decimal c = false -> take_digits (a ++ c :: t) = (a, c :: t).
Proof.
  induction a as [|x a IH]; intros c t F D; simpl in *; [now rewrite D|].
  apply andb_true_iff in F. destruct F as [F1 F2]. rewrite F1, IH by assumption. reflexivity.
Qed.

Lemma pixel_reply_spec : forall s h w, pixel_reply s = Some (h, w) <->
  exists tail, decimals h = true /\ decimals w = true /\ s = pixel_answer h w ++ tail.
Proof.
  intros s h w. unfold pixel_answer. split.
  - unfold pixel_reply. destruct (take_lit ([ESC; 91] ++ lit "4;") s) as [s1|] eqn:E1; [|discriminate]. apply take_lit_spec in E1.
    destruct (take_digits s1) as [[|d h'] s2] eqn:E2; [discriminate|]. apply take_digits_spec in E2.
    destruct (take_lit (lit ";") s2) as [s3|] eqn:E3; [|discriminate]. apply take_lit_spec in E3.
    destruct (take_digits s3) as [[|e w'] s4] eqn:E4; [discriminate|]. apply take_digits_spec in E4.
    destruct (take_lit (lit "t") s4) as [s5|] eqn:E5; [|discriminate]. apply take_lit_spec in E5.
    intro H. injection H as <- <-. exists s5. destruct E2 as [E2 [F2 _]], E4 as [E4 [F4 _]].
    split; [exact F2|]. split; [exact F4|]. subst. rewrite <- !app_assoc. reflexivity.
  - intros [tail [Hh [Hw ->]]]. unfold pixel_reply. rewrite <- !app_assoc.
    change ([27; 91] ++ lit "4;" ++ h ++ lit ";" ++ w ++ lit "t" ++ tail)
      with (([ESC; 91] ++ lit "4;") ++ h ++ lit ";" ++ w ++ lit "t" ++ tail). rewrite take_lit_app.
    destruct h as [|d h]; [discriminate|]. destruct w as [|e w]; [discriminate|]. unfold decimals in Hh, Hw.
    change (lit ";" ++ (e :: w) ++ lit "t" ++ tail) with (59 :: (e :: w) ++ lit "t" ++ tail).
    rewrite take_digits_app by (auto; reflexivity).
    change (59 :: (e :: w) ++ lit "t" ++ tail) with (lit ";" ++ (e :: w) ++ lit "t" ++ tail). rewrite take_lit_app.
    change (lit "t" ++ tail) with (116 :: tail). rewrite take_digits_app by (auto; reflexivity). reflexivity.
Qed.

Lemma resolution_silent : forall tty stdin_tty fb, resolution tty stdin_tty fb None = Ok fb.
Proof.
  intros tty st [w h]. unfold resolution. destruct tty; [|reflexivity]. cbn [negb bindr fst snd].
  change ([ESC; 91] ++ lit "4;" ++ join (lit ";") [dec h; dec w] ++ lit "t")
    with ([27; 91] ++ lit "4;" ++ (dec h ++ lit ";" ++ dec w) ++ lit "t"). rewrite <- app_assoc.
  rewrite <- app_assoc. fold (pixel_answer (dec h) (dec w)).
  destruct (pixel_reply (pixel_answer (dec h) (dec w))) as [[h' w']|] eqn:E; [|reflexivity].
  apply pixel_reply_spec in E. destruct E as [tail [Hh [Hw E]]]. unfold pixel_answer in E. rewrite <- !app_assoc in E.
  apply app_inv_head in E. apply app_inv_head in E.
  assert (U : forall a b c t t', decimals c = true -> ~ In 59 (dec a) -> dec a ++ 59 :: t = c ++ 59 :: t' -> b = 59 -> dec a = c /\ t = t').
  { intros a b c t t' Hc Ha EE _. revert EE. generalize (dec a) Ha. intro l.
    assert (Hc' : ~ In 59 c). { intro I. unfold decimals in Hc. destruct c; [discriminate|]. eapply forallb_forall in Hc; [|exact I]. discriminate. }
    clear - Hc'. revert c Hc'. induction l as [|x l IH]; intros [|y c] Hc' Hl; simpl; intro EE.
    - injection EE as EE. auto.
    - injection EE as <- _. exfalso. apply Hc'. now left.
    - injection EE as -> _. exfalso. apply Hl. now left.
    - injection EE as -> EE. destruct (IH c) as [-> ->]; auto; intro I; [apply Hc'|apply Hl]; now right. }
  assert (N59 : forall n, ~ In 59 (dec n)).
  { intros n I. unfold dec in I. destruct (n <? 0) eqn:N; [apply Z.ltb_lt in N|apply Z.ltb_ge in N].
    - destruct I as [I|I]; [discriminate|]. rewrite <- dec_pos in I by lia. revert I. apply dec_no_char; lia.
    - rewrite <- dec_pos in I by lia. revert I. apply dec_no_char; lia. }
  change (lit ";" ++ dec w ++ lit "t") with (59 :: dec w ++ lit "t") in E.
  change (lit ";" ++ w' ++ lit "t" ++ tail) with (59 :: w' ++ lit "t" ++ tail) in E.
  destruct (U h 59 h' _ _ Hh (N59 h) E eq_refl) as [<- E'].
  assert (D : forall n, decimals (dec n) = true -> py_int (dec n) = Ok n).
  { intros n Hn. destruct (Z_lt_ge_dec n 0) as [L|L]; [|apply py_int_dec; lia].
    exfalso. unfold dec in Hn. rewrite (proj2 (Z.ltb_lt n 0)) in Hn by lia. discriminate. }
  assert (W : w' = dec w).
  { assert (T1 : ~ In 116 (dec w)).
    { intro I. unfold dec in I. destruct (w <? 0) eqn:N; [apply Z.ltb_lt in N|apply Z.ltb_ge in N].
      - destruct I as [I|I]; [discriminate|]. rewrite <- dec_pos in I by lia. revert I. apply dec_no_char; lia.
      - rewrite <- dec_pos in I by lia. revert I. apply dec_no_char; lia. }
    assert (T2 : ~ In 116 w').
    { intro I. unfold decimals in Hw. destruct w'; [discriminate|]. eapply forallb_forall in Hw; [|exact I]. discriminate. }
    change (lit "t") with [116] in E'. clear - E' T1 T2. revert w' T2 E'. generalize dependent (dec w). intro l.
    induction l as [|x l IH]; intros T1 [|y w'] T2; simpl; intro EE; auto.
    - injection EE as <- _. exfalso. apply T2. now left.
    - injection EE as -> _. exfalso. apply T1. now left.
    - injection EE as -> EE. f_equal. apply IH; auto; intro I; [apply T1|apply T2]; now right. }
  subst w'. rewrite !D by assumption. reflexivity.
Qed.

(** the well formed answer is taken for a mouse report *)
Lemma resolution_ignored : forall fb h w, 0 <= h -> 0 <= w ->
  resolution true true fb (Some (pixel_answer (dec h) (dec w))) = Ok fb.
Proof.
  intros fb h w Hh Hw. unfold resolution. cbn [negb].
  assert (P : parse_mouse_event (pixel_answer (dec h) (dec w)) =
     Ok (Some (event_text (lit "shift_left_release") (dec h) (dec w)))).
  { unfold parse_mouse_event, pixel_answer.
    set (code := [27; 91] ++ lit "4;" ++ dec h ++ lit ";" ++ dec w ++ lit "t").
    assert (C : count_char 59 code = 2).
    { unfold code. rewrite !count_char_app. rewrite !(proj1 (count_char_none 59 (dec _))) by (apply dec_no_char; lia). reflexivity. }
    rewrite C. assert (NE : str_eqb code [ESC] = false) by reflexivity. rewrite NE. change (negb (2 =? 2)) with false. cbn [orb].
    assert (LS : lstrip_by is_mouse_lead code = [52] ++ 59 :: (dec h ++ 59 :: (dec w ++ [116]))) by reflexivity.
    rewrite LS. rewrite split_on_app by (simpl; lia). rewrite split_on_app by (apply dec_no_char; lia).
    rewrite split_on_single.
    2: { rewrite in_app_iff. intros [I|[I|[]]]; [|discriminate]. revert I. apply dec_no_char; lia. }
    rewrite slice_init, index_last. cbn [bindr]. reflexivity. }
  assert (DK : decode_key false (pixel_answer (dec h) (dec w)) = Ok [event_text (lit "shift_left_release") (dec h) (dec w)]).
  { unfold decode_key, last_of. change (pixel_answer (dec h) (dec w)) with ([] ++ ESC :: ([91] ++ lit "4;" ++ dec h ++ lit ";" ++ dec w ++ lit "t")) at 1.
    rewrite last_split_tail.
    - change (ESC :: [91] ++ lit "4;" ++ dec h ++ lit ";" ++ dec w ++ lit "t") with (pixel_answer (dec h) (dec w)).
      rewrite P. reflexivity.
    - rewrite !in_app_iff. unfold ESC. intros [I|[I|[I|[I|[I|I]]]]]; try (revert I; apply dec_no_char; lia);
        simpl in I; repeat (destruct I as [I|I]; [discriminate|]); destruct I. }
  rewrite DK. cbn [bindr key_str].
  destruct (pixel_reply (event_text (lit "shift_left_release") (dec h) (dec w))) as [[h' w']|] eqn:E; [|reflexivity].
  exfalso. apply pixel_reply_spec in E. destruct E as [tail [_ [_ E]]]. discriminate.
Qed.

(** text that is not of three fields *)
Lemma resolution_keyboard : forall fb k, keyboard k -> 
  (forall h w tail, decimals h = true -> decimals w = true -> k = pixel_answer h w ++ tail ->
     exists hz wz, py_int h = Ok hz /\ py_int w = Ok wz /\ resolution true true fb (Some k) = Ok (wz, hz)) /\
  ((forall h w tail, decimals h = true -> decimals w = true -> k <> pixel_answer h w ++ tail) ->
     resolution true true fb (Some k) = Ok fb).
Proof.
  intros fb k K. unfold resolution. cbn [negb].
  assert (T : forallb (fun kv => match pixel_reply (fst kv) with Some _ => false | None => true end) POSIX_KEY_NAMES = true) by (vm_compute; reflexivity).
  assert (T2 : forallb (fun kv => match snd kv with n :: _ => match pixel_reply n with Some _ => false | None => true end | [] => false end) POSIX_KEY_NAMES = true) by (vm_compute; reflexivity).
  rewrite forallb_forall in T, T2. rewrite decode_keyboard by assumption. split.
  - intros h w tail Hh Hw E.
    assert (P : pixel_reply k = Some (h, w)) by (apply pixel_reply_spec; eauto).
    destruct (dict_get POSIX_KEY_NAMES k) as [names|] eqn:G.
    { apply dict_get_in in G. specialize (T _ G). cbn [fst] in T. rewrite P in T. discriminate. }
    cbn [bindr key_str]. rewrite P. destruct (decimals_py_int h Hh) as [-> _]. destruct (decimals_py_int w Hw) as [-> _].
    cbn [bindr]. eauto.
  - intro N. assert (P : pixel_reply k = None).
    { destruct (pixel_reply k) as [[h w]|] eqn:P; auto. apply pixel_reply_spec in P. destruct P as [tail [Hh [Hw E]]].
      exfalso. now apply (N h w tail). }
    destruct (dict_get POSIX_KEY_NAMES k) as [names|] eqn:G.
    + apply dict_get_in in G. specialize (T2 _ G). cbn [snd] in T2. destruct names as [|n names]; [discriminate|].
      cbn [bindr key_str]. destruct (pixel_reply n); [discriminate|reflexivity].
    + cbn [bindr key_str]. rewrite P. reflexivity.
Qed.
