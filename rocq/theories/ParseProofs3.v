(** Reading printed spans back (C21) and the exceptions of the parser (C23). *)
From Coq Require Import ZArith List Bool String Lia.
From Verif Require Import PyBase F64 SpaceModel ColorTab ColorModel ColorSpec AnsiRe SpanModel Vt PyLemmas SplitLemmas FloatLemmas
  ColorProofs ColorProofs2 SpaceSpec SpaceProofs PaletteSpec PaletteProofs KeyProofs SpanSpec SpanProofs SpanProofs2 ParseProofs ParseProofs2.
Open Scope Z_scope.

(** * Printed spans *)
Definition code (k : flag) : Z :=
  match k with
  | FBold => 1 | FDim => 2 | FItalic => 3 | FUnderline => 4 | FBlink => 5 | FFastBlink => 6
  | FInvert => 7 | FConceal => 8 | FStrike => 9 | FOpaque => 99
  end.
Lemma setter_code : forall k, setter k = dec (code k).
Proof. intros []; reflexivity. Qed.
Definition codes (f : flags) : list Z := map code (filter (fun k => get_flag k f) all_flags).
Lemma colorless_codes : forall f, colorless_body f = sgr_text (codes f).
Proof.
  intro f. rewrite colorless_join. unfold sgr_text, codes. rewrite map_map. f_equal. apply map_ext. exact setter_code.
Qed.
Lemma codes_supported : forall f, fl_opaque f = false -> supported (codes f).
Proof.
  intros f H. unfold codes.
  assert (F : Forall (fun n => In n simple_codes) (map code (filter (fun k => get_flag k f) all_flags))).
  { rewrite Forall_map. apply Forall_forall. intros k I. apply filter_In in I. destruct I as [_ G].
    destruct k; cbn [get_flag] in G; try (rewrite H in G; discriminate); cbn; auto 20. }
  induction F; constructor; assumption.
Qed.

Lemma sgr_text_app : forall a b, a <> [] -> b <> [] -> sgr_text (a ++ b) = sgr_text a ++ lit ";" ++ sgr_text b.
Proof.
  intros a b Ha Hb. unfold sgr_text. rewrite map_app. apply join_app_ne; intro E; apply map_eq_nil in E; contradiction.
Qed.
Lemma join_concat : forall l, Forall (fun ps => ps <> []) l ->
  join (lit ";") (map sgr_text l) = sgr_text (concat l).
Proof.
  induction l as [|a l IH]; intro H; [reflexivity|]. inversion H as [|? ? H1 H2]; subst.
  destruct l as [|b l].
  - cbn [map join concat]. now rewrite app_nil_r.
  - cbn [map]. cbn [map] in IH. change (join (lit ";") (sgr_text a :: sgr_text b :: map sgr_text l))
      with (sgr_text a ++ lit ";" ++ join (lit ";") (sgr_text b :: map sgr_text l)).
    rewrite IH by assumption. cbn [concat]. rewrite (sgr_text_app a (b ++ concat l)); auto.
    inversion H2 as [|? ? H3 H4]; subst. destruct b as [|z b]; [now elim H3|]. intro X. discriminate X.
Qed.

Lemma layer_displayed : forall e bg o x, layer_text e bg o x -> displayed e bg o x.
Proof.
  intros e bg [c|] [x|] H; cbn in *; auto. destruct H as [<- H]. split; [reflexivity|]. now apply color_text_emits.
Qed.
Lemma layer_params : forall e bg o x, layer_text e bg o x ->
  exists l, map (color_ansi e) (opt_list o) = map sgr_text l /\ Forall (fun ps => ps <> []) l /\
    forall ps, supported ps -> supported (concat l ++ ps).
Proof.
  intros e bg [c|] [x|] H; cbn in H; try contradiction.
  - destruct H as [_ [ps [H1 H2]]]. exists [ps]. cbn [opt_list map concat]. rewrite H2, app_nil_r. split; [reflexivity|].
    split; [constructor; [now apply (color_params_nonneg bg x)|constructor]|]. intros qs Q. now apply (sup_color bg x).
  - exists []. split; [reflexivity|]. split; [constructor|]. auto.
Qed.

Lemma total_sgr : forall e s fg bg, layer_text e false (s_fg s) fg -> layer_text e true (s_bg s) bg ->
  fl_opaque (s_flags s) = false -> has_style s = true ->
  exists ps, total_body e s = sgr_text ps /\ supported ps /\ ps <> [] /\
    sgr ps rend0 = styled (s_flags s) fg bg rend0.
Proof.
  intros e s fg bg Hf Hb Ho Hs.
  pose proof (layer_displayed _ _ _ _ Hf) as Df. pose proof (layer_displayed _ _ _ _ Hb) as Db.
  destruct (layer_params _ _ _ _ Hf) as [l1 [E1 [N1 S1]]]. destruct (layer_params _ _ _ _ Hb) as [l2 [E2 [N2 S2]]].
  set (l3 := match codes (s_flags s) with [] => [] | c => [c] end).
  assert (B : bodies e s = map sgr_text (l1 ++ l2 ++ l3)).
  { unfold bodies, color_bodies. rewrite E1, E2, colorless_codes, !map_app, <- app_assoc. do 2 f_equal.
    unfold l3. destruct (codes (s_flags s)) as [|c cs] eqn:C; [reflexivity|].
    destruct (sgr_text_params (c :: cs)) as [_ [_ N]]; [|discriminate|].
    { rewrite <- C. apply supported_nonneg. now apply codes_supported. }
    cbn [map]. destruct (sgr_text (c :: cs)); [congruence|reflexivity]. }
  assert (N3 : Forall (fun ps => ps <> []) (l1 ++ l2 ++ l3)).
  { apply Forall_app. split; [assumption|]. apply Forall_app. split; [assumption|].
    unfold l3. destruct (codes (s_flags s)); constructor; [discriminate|constructor]. }
  set (ps := concat (l1 ++ l2 ++ l3)).
  assert (T : total_body e s = sgr_text ps) by (rewrite (total_join e s fg bg Df Db), B; now apply join_concat).
  assert (S : supported ps).
  { unfold ps. rewrite !concat_app. apply S1, S2. replace (concat l3) with (codes (s_flags s)).
    - now apply codes_supported.
    - unfold l3. destruct (codes (s_flags s)); [reflexivity|]. cbn. now rewrite app_nil_r. }
  assert (N : ps <> []).
  { intro E. rewrite E in T. cbn in T. apply (total_nil e s fg bg Df Db) in T. congruence. }
  exists ps. split; [exact T|]. split; [exact S|]. split; [exact N|].
  pose proof (bodies_sgr e s fg bg rend0 Df Db) as BS. rewrite <- BS. f_equal.
  rewrite <- params_join.
  - rewrite <- (total_join e s fg bg Df Db), T.
    destruct (sgr_text_params ps) as [P _]; [now apply supported_nonneg|exact N|]. now rewrite P.
  - rewrite B. intro E. apply map_eq_nil in E. apply N. unfold ps. now rewrite E.
Qed.

Lemma unstyled_flags : forall s, has_style s = false -> s_flags s = no_flags /\ s_fg s = None /\ s_bg s = None.
Proof.
  intros s H. unfold has_style in H. apply orb_false_iff in H. destruct H as [H1 H3]. apply orb_false_iff in H1.
  destruct H1 as [H1 H2]. destruct (s_fg s); [discriminate|]. destruct (s_bg s); [discriminate|].
  repeat split. destruct (s_flags s) as [a b c d f g h i j o]. cbn in H1.
  destruct a, b, c, d, f, g, h, i, j, o; try discriminate. reflexivity.
Qed.

(** What the parser makes of a printed span *)
Lemma parse_printed : forall e s fg bg, layer_text e false (s_fg s) fg -> layer_text e true (s_bg s) bg ->
  fl_opaque (s_flags s) = false -> s_link s = [] -> text_ok (s_text s) ->
  exists s', yield_from (span_str e s) = (s' :: (if s_reset s && has_style s then [plain_span RESET] else []), None) /\
    s_text s' = s_text s /\ looks_like s' (styled (s_flags s) fg bg rend0).
Proof.
  intros e s fg bg Hf Hb Ho Hl Ht.
  pose proof (layer_displayed _ _ _ _ Hf) as Df. pose proof (layer_displayed _ _ _ _ Hb) as Db.
  pose proof (span_sequences_nil e s fg bg Df Db) as SN.
  unfold span_str. rewrite Hl. cbn [str_eqb]. cbv zeta. rewrite SN.
  destruct (has_style s) eqn:HS.
  - destruct (total_sgr e s fg bg Hf Hb Ho HS) as [ps [T [S [N G]]]].
    assert (Q : span_sequences e s = csi_m (sgr_text ps)).
    { unfold span_sequences. rewrite T. destruct (sgr_text_params ps) as [_ [_ X]]; [now apply supported_nonneg|exact N|].
      destruct (sgr_text ps); [congruence|reflexivity]. }
    rewrite Q. rewrite andb_true_r.
    set (tail := if s_reset s then RESET else []).
    destruct (parse_sgr_line [] [(ps, s_text s)] tail) as [ss [Y F]].
    { intros []. } { discriminate. }
    { unfold tail. destruct (s_reset s); [right|left]; reflexivity. }
    { constructor; [|constructor]. cbn [fst snd]. auto. }
    cbn [pens] in F. inversion F as [|s' ? l' ? [F1 F2] F3]; subst. inversion F3; subst. cbn [fst snd] in *.
    exists s'. rewrite <- G. split; [|auto].
    replace (csi_m (sgr_text ps) ++ s_text s ++ tail) with (line_of [] (sgr_pieces [(ps, s_text s)]) ++ tail).
    + rewrite Y. unfold tail. destruct (s_reset s); reflexivity.
    + unfold csi_m, line_of, sgr_pieces. cbn [map flat_map fst snd app]. now rewrite <- !app_assoc.
  - rewrite andb_false_r. destruct (unstyled_flags s HS) as [U1 [U2 U3]].
    assert (Q : span_sequences e s = []).
    { destruct (span_sequences e s); [reflexivity|discriminate]. }
    rewrite Q, app_nil_r. cbn [app]. exists (plain_span (s_text s)). destruct Ht as [T1 T2].
    split; [now apply yield_plain|]. split; [reflexivity|].
    rewrite U2 in Hf. rewrite U3 in Hb. destruct fg; [contradiction|]. destruct bg; [contradiction|]. rewrite U1.
    repeat split.
Qed.

(** in true color the result is equal to the span *)
Lemma layer_free : forall e bg o, env_cs e = TRUE_COLOR ->
  (forall c, o = Some c -> c_bg c = bg /\ color_ok c /\ no_ansi_ctor c) ->
  layer_text e bg o (option_map (fun c => ERgb (red c) (green c) (blue c)) o).
Proof.
  intros e bg [c|] E H; [|exact I]. destruct (H c eq_refl) as [H1 [H2 H3]]. cbn. split; [exact H1|].
  destruct (free_color_text e c H2 H3) as [x [A T]]; [rewrite E; discriminate|].
  unfold approx_as, approximates in A. rewrite E in A. subst x. now rewrite <- H1.
Qed.

Lemma eq_layer : forall e bg o o' x, env_cs e = TRUE_COLOR ->
  (forall c, o = Some c -> c_bg c = bg /\ color_ok c /\ no_ansi_ctor c /\ c_alpha c = fone) ->
  x = match o with Some c => ERgb (red c) (green c) (blue c) | None => EDefault end ->
  color_for bg o' x ->
  opt_color_eqb o o' = true /\ map (color_ansi e) (opt_list o) = map (color_ansi e) (opt_list o').
Proof.
  intros e bg o o' x E H -> C. destruct o as [c|]; cbn in C.
  - destruct (H c eq_refl) as [H1 [H2 [H3 H4]]]. destruct o' as [c'|]; [|discriminate].
    destruct C as [C1 [C2 [[k [C3 [ps [[R ->] ->]]]] C4]]].
    pose proof (layer_free e bg (Some c) E) as L. cbn in L. destruct L as [_ [qs [[_ ->] L]]].
    { intros d D. injection D as <-. auto. }
    split.
    + cbn. unfold color_eqb. rewrite C4, H4, C2. unfold red, green, blue in *. destruct (c_rgb c) as [[r g] b].
      cbn [fst snd]. unfold triple_eqb. rewrite !Z.eqb_refl. reflexivity.
    + cbn [opt_list map]. f_equal. rewrite L. rewrite (ctor_ansi e c' _ C3).
      * rewrite E. destruct (c_origin c'); reflexivity.
      * apply sgr_text_hash; [|discriminate]. destruct R as [R1 [R2 R3]]. destruct bg; repeat constructor; lia.
  - destruct o' as [c'|]; [|auto]. destruct C as [_ [_ [_ []]]].
Qed.

Lemma parse_printed_eq : forall e s, env_cs e = TRUE_COLOR ->
  (forall c, s_fg s = Some c -> c_bg c = false /\ color_ok c /\ no_ansi_ctor c /\ c_alpha c = fone) ->
  (forall c, s_bg s = Some c -> c_bg c = true /\ color_ok c /\ no_ansi_ctor c /\ c_alpha c = fone) ->
  fl_opaque (s_flags s) = false -> s_link s = [] -> text_ok (s_text s) ->
  exists s', first_from (span_str e s) = Ok (Some s') /\
    span_eqb e s' (mkSpan (s_text s) (s_fg s) (s_bg s) [] (s_flags s) true) = true /\
    parse_line (span_str e s) = Ok (s' :: if s_reset s && has_style s then [plain_span RESET] else []).
Proof.
  intros e s E Hf Hb Ho Hl Ht.
  destruct (parse_printed e s _ _ (layer_free e false (s_fg s) E (fun c H => let '(conj a (conj b (conj d _))) := Hf c H in conj a (conj b d)))
     (layer_free e true (s_bg s) E (fun c H => let '(conj a (conj b (conj d _))) := Hb c H in conj a (conj b d))) Ho Hl Ht) as [s' [Y [T L]]].
  exists s'. unfold first_from, parse_line. rewrite Y. split; [reflexivity|]. split; [|reflexivity].
  destruct L as [L1 [L2 L3]]. cbv zeta in L3. cbn [styled r_bold r_dim r_italic r_underline r_blink r_rapid r_inverse r_conceal r_strike rend0 r_fg r_bg] in *.
  destruct (eq_layer e false (s_fg s) (s_fg s') _ E Hf eq_refl) as [F1 F2].
  { destruct (s_fg s); exact L1. }
  destruct (eq_layer e true (s_bg s) (s_bg s') _ E Hb eq_refl) as [B1 B2].
  { destruct (s_bg s); exact L2. }
  assert (FL : s_flags s' = s_flags s).
  { destruct (s_flags s), (s_flags s'). cbn in *. rewrite ?orb_false_r in L3.
    destruct L3 as [? [? [? [? [? [? [? [? [? [? [? ?]]]]]]]]]]]. now subst. }
  destruct L3 as [_ [_ [_ [_ [_ [_ [_ [_ [_ [_ [LK LR]]]]]]]]]]].
  assert (TB : total_body e s' = total_body e (mkSpan (s_text s) (s_fg s) (s_bg s) [] (s_flags s) true)).
  { unfold total_body. cbn [s_fg s_bg s_flags]. now rewrite F2, B2, FL. }
  assert (SYM : forall a b, opt_color_eqb a b = true -> opt_color_eqb b a = true).
  { intros [a|] [b|]; cbn; auto. unfold color_eqb. rewrite !andb_true_iff. intros [A B]. split.
    - apply triple_eqb_iff in A. apply triple_eqb_iff. congruence.
    - now rewrite feqb_sym. }
  unfold span_eqb. cbn [s_text s_fg s_bg s_link s_flags s_reset].
  unfold span_str, span_sequences, span_colorless. cbn [s_text s_link s_flags s_reset]. rewrite TB, T, FL, LK, LR.
  rewrite (SYM _ _ F1), (SYM _ _ B1), !str_eqb_refl.
  unfold flags_eqb. cbn. rewrite !eqb_reflx. reflexivity.
Qed.


Lemma until_esc_spec : forall s a b, until_esc s = (a, b) -> s = a ++ b /\ (b = [] \/ exists r, b = 27 :: r).
Proof.
  induction s as [|c s IH]; intros a b H; cbn [until_esc] in H; [injection H as <- <-; auto|].
  unfold ESC in H. destruct (Z.eqb_spec c 27) as [->|].
  - injection H as <- <-. split; [reflexivity|right; eauto].
  - destruct (until_esc s) as [a' b'] eqn:E. injection H as <- <-. destruct (IH _ _ eq_refl) as [-> H]. auto.
Qed.

Lemma style_body_occ : forall s acc b t, match_style_body acc s = Some (b, t) ->
  exists m f r, b = rev acc ++ m /\ s = m ++ f :: t ++ 27 :: r /\ is_mH f = true /\ t <> [].
Proof.
  induction s as [|c s IH]; intros acc b t H; cbn [match_style_body] in H; [discriminate|].
  set (here := if is_mH c then _ else None) in H.
  assert (HH : forall p, here = Some p -> exists m f r, fst p = rev acc ++ m /\ c :: s = m ++ f :: snd p ++ 27 :: r /\ is_mH f = true /\ snd p <> []).
  { intros [b' t'] E. unfold here in E. destruct (is_mH c) eqn:M; [|discriminate].
    destruct (until_esc s) as [run rest] eqn:U. destruct run as [|x run]; [discriminate|]. destruct rest as [|y rest]; [discriminate|].
    injection E as <- <-. apply until_esc_spec in U. destruct U as [-> [U|[r U]]]; [discriminate|].
    exists [], c, r. cbn [fst snd]. rewrite U, app_nil_r. repeat split; auto; discriminate. }
  destruct here as [p|].
  - injection H as ->. destruct (HH _ eq_refl) as [m [f [r [H1 [H2 [H3 H4]]]]]]. exists m, f, r. auto.
  - destruct (c =? NL); [discriminate|]. destruct (IH _ _ _ H) as [m [f [r [H1 [H2 [H3 H4]]]]]].
    exists (c :: m), f, r. cbn [rev] in H1. rewrite <- app_assoc in H1. rewrite H2. auto.
Qed.

Lemma match_style_occ : forall s b t, match_style s = Some (b, t) ->
  exists f r, s = 27 :: 91 :: b ++ f :: t ++ 27 :: r /\ is_mH f = true /\ t <> [].
Proof.
  intros s b t H. unfold match_style in H. destruct (startswith [ESC; 91] s) eqn:S; [|discriminate].
  destruct s as [|c1 [|c2 s]]; try discriminate.
  cbn [startswith] in S. rewrite !andb_true_iff, !Z.eqb_eq in S. unfold ESC in S. destruct S as [S1 [S2 _]]. subst c1 c2.
  cbn [skipn] in H. destruct (style_body_occ _ _ _ _ H) as [m [f [r [H1 [H2 [H3 H4]]]]]]. cbn in H1. subst m.
  exists f, r. rewrite H2. auto.
Qed.

Lemma finditer_occ : forall s pos k b t i, In (b, t, i) (finditer_aux s pos k) ->
  exists a f r, s = a ++ 27 :: 91 :: b ++ f :: t ++ 27 :: r /\ is_mH f = true /\ t <> [].
Proof.
  induction s as [|c s IH]; intros pos k b t i H; [destruct H|].
  assert (R : forall p k', In (b, t, i) (finditer_aux s p k') ->
    exists a f r, c :: s = a ++ 27 :: 91 :: b ++ f :: t ++ 27 :: r /\ is_mH f = true /\ t <> []).
  { intros p k' H'. destruct (IH _ _ _ _ _ H') as [a [f [r [E [F N]]]]]. exists (c :: a), f, r. rewrite E. auto. }
  destruct k as [|k]; [|cbn [finditer_aux] in H; eauto].
  rewrite finditer_step in H. destruct (match_style (c :: s)) as [[b' t']|] eqn:M; [|eauto].
  cbv zeta in H. destruct H as [H|H]; [|eauto]. injection H as -> -> _.
  destruct (match_style_occ _ _ _ M) as [f [r [E [F N]]]]. exists [], f, r. auto.
Qed.

Lemma isdigit_no_dot : forall s, isdigit s = true -> ~ In 46 s /\ ~ In 59 s.
Proof.
  intros s H. unfold isdigit in H. destruct s as [|c s]; [discriminate|]. rewrite forallb_forall in H.
  split; intro I; apply H in I; discriminate.
Qed.
Lemma py_int_or : forall s, (exists n, py_int s = Ok n) \/ py_int s = Err ValueError.
Proof. intros s. unfold py_int. destruct (parse_int 10 s); eauto. Qed.

Lemma valid_exn : forall b, (isdigit b = true \/ In 59 b) ->
  (exists v, is_valid_color b = Ok v) \/ is_valid_color b = Err ValueError.
Proof.
  intros b H. unfold is_valid_color. destruct (isdigit b) eqn:D.
  - destruct (py_int_or b) as [[n ->]| ->]; cbn [bindr]; [|now right].
    left. repeat match goal with |- context [if ?c then _ else _] => destruct c end; eauto.
  - left. destruct H as [H|H]; [discriminate|]. apply in_split in H. destruct H as [u [v ->]]. cbv zeta.
    destruct (split_on 59 (u ++ 59 :: v)) as [|p0 [|p1 rest]] eqn:S.
    + exfalso. rewrite split_on_semi in S. apply app_eq_nil in S. destruct S as [S _]. exact (split_on_ne _ _ S).
    + exfalso. rewrite split_on_semi in S. pose proof (split_on_ne 59 u). pose proof (split_on_ne 59 v).
      destruct (split_on 59 u) as [|a [|a' l]]; [congruence| |discriminate]. destruct (split_on 59 v); [congruence|discriminate].
    + cbn [nth_error]. destruct (str_eqb p1 (lit "2")); [eauto|]. destruct (str_eqb p1 (lit "5")); eauto.
Qed.

Lemma contains_dot_in : forall d, contains_char 46 d = true -> In 46 d.
Proof.
  intros d H. unfold contains_char in H. apply existsb_exists in H. destruct H as [x [H E]]. apply Z.eqb_eq in E. now subst x.
Qed.

Lemma in_split_on : forall c s p x, In p (split_on c s) -> In x p -> In x s.
Proof.
  intros c s. induction s as [|d s IH]; intros p x H I; cbn [split_on] in H.
  - destruct H as [<-|[]]. destruct I.
  - destruct (d =? c).
    + destruct H as [<-|H]; [destruct I|]. right. eauto.
    + destruct (split_on c s) as [|h r] eqn:S.
      * destruct H as [<-|[]]. cbn in I. destruct I as [->|[]]. now left.
      * destruct H as [<-|H].
        -- destruct I as [->|I]; [now left|]. right. apply (IH h); [now left|exact I].
        -- right. apply (IH p); [now right|exact I].
Qed.

Lemma valid_from_ansi : forall b x, is_valid_color b = Ok true -> from_ansi b fone = Err x ->
  x = ValueError \/ (x = IndexError /\ In 46 b).
Proof.
  intros b x V F. pose proof (from_ansi_exn b fone) as X. rewrite F in X. cbn in X.
  destruct X as [X|[X [core [C S]]]]; [now left|right]. split; [exact X|].
  destruct C as [C|[d [C D]]].
  - exfalso. subst core. unfold is_valid_color in V. destruct S as [S|[l [r [g [S L]]]]].
    { exact (split_on_ne _ _ S). }
    destruct (isdigit b) eqn:DB.
    + apply isdigit_no_dot in DB. rewrite split_on_single in S by tauto. discriminate.
    + cbv zeta in V. rewrite S in V. discriminate.
  - apply contains_dot_in in D. apply (in_split_on 59 b d); [|exact D]. rewrite C. apply in_or_app. right. now left.
Qed.

Lemma parse_parts_exn : forall parts inc buf o o' r, parse_parts parts inc buf o = (o', r) ->
  (inc = false -> buf = []) -> (inc = true -> In 59 buf) ->
  (forall x, r = Err x -> x = ValueError \/ (x = IndexError /\ (In 46 buf \/ exists p, In p parts /\ In 46 p))) /\
  (o_bad o' = true -> o_bad o = true \/ exists p, In p parts /\ In p bad_parts).
Proof.
  induction parts as [|part rest IH]; intros inc buf o o' r H Hf Ht; cbn [parse_parts] in H.
  { injection H as <- <-. split; [discriminate|auto]. }
  assert (MORE : forall inc2 buf2 o2, parse_parts rest inc2 buf2 o2 = (o', r) ->
      (inc2 = false -> buf2 = []) -> (inc2 = true -> In 59 buf2) -> (In 46 buf2 -> In 46 buf \/ In 46 part) ->
      (o_bad o2 = true -> o_bad o = true \/ In part bad_parts) ->
      (forall x, r = Err x -> x = ValueError \/ (x = IndexError /\ (In 46 buf \/ exists p, In p (part :: rest) /\ In 46 p))) /\
      (o_bad o' = true -> o_bad o = true \/ exists p, In p (part :: rest) /\ In p bad_parts)).
  { intros inc2 buf2 o2 H2 A B D Q. destruct (IH _ _ _ _ _ H2 A B) as [I1 I2]. split.
    - intros x X. destruct (I1 x X) as [Y|[Y [Z|[p [Z1 Z2]]]]]; [now left| |].
      + right. split; [exact Y|]. destruct (D Z) as [D'|D']; [now left|]. right. exists part. split; [now left|exact D'].
      + right. split; [exact Y|]. right. exists p. split; [now right|exact Z2].
    - intro X. destruct (I2 X) as [Y|[p [P1 P2]]].
      + destruct (Q Y) as [Q'|Q']; [now left|]. right. exists part. split; [now left|exact Q'].
      + right. exists p. split; [now right|exact P2]. }
  assert (SC : (exists b, starts_color part = Ok b /\ (b = true -> isdigit part = true)) \/ starts_color part = Err ValueError).
  { unfold starts_color. destruct (isdigit part) eqn:D; [|left; exists false; split; [reflexivity|discriminate]].
    destruct (py_int_or part) as [[n ->]| ->]; cbn [bindr]; [|now right]. left. eexists. split; [reflexivity|auto]. }
  destruct SC as [[sc [SE SD]]|SE]; rewrite SE in H.
  2:{ injection H as <- <-. split; [|auto]. intros x X. injection X as <-. now left. }
  destruct (inc || sc) eqn:IC.
  - assert (VB : isdigit (buf ++ part) = true \/ In 59 (buf ++ part)).
    { destruct inc; [right; apply in_or_app; left; auto|]. rewrite Hf by reflexivity. left. now apply SD. }
    destruct (valid_exn _ VB) as [[v V]|V]; rewrite V in H.
    2:{ injection H as <- <-. split; [|auto]. intros x X. injection X as <-. now left. }
    destruct v.
    + destruct (from_ansi (buf ++ part) fone) as [c|x] eqn:F.
      * destruct (is_background_color (buf ++ part)); apply (MORE _ _ _ H); auto; try (intro X; discriminate X); intros [].
      * injection H as <- <-. split; [|auto]. intros y Y. injection Y as <-.
        destruct (valid_from_ansi _ _ V F) as [X|[X1 X2]]; [now left|right]. split; [exact X1|].
        apply in_app_or in X2. destruct X2 as [X2|X2]; [now left|]. right. exists part. split; [now left|exact X2].
    + apply (MORE _ _ _ H); auto; try (intro X; discriminate X).
      * intros _. apply in_or_app. right. now left.
      * intro I. apply in_app_or in I. destruct I as [I|I]; [now apply in_app_or|].
        destruct I as [I|[]]. discriminate.
  - apply orb_false_iff in IC. destruct IC as [-> _]. assert (buf = []) by auto. subst buf.
    destruct (dict_get SETTERS_TO_STYLES part) as [k|].
    { apply (MORE _ _ _ H); auto. }
    destruct (dict_get UNSETTERS_TO_STYLES part) as [[k| | |]|] eqn:U.
    + apply (MORE _ _ _ H); auto.
    + apply (MORE _ _ _ H); auto.
    + apply (MORE _ _ _ H); auto.
    + apply (MORE _ _ _ H); auto. intros _. right. clear - U. apply dict_get_in in U. cbn [In UNSETTERS_TO_STYLES] in U.
      unfold bad_parts. cbn [In].
      repeat (destruct U as [U|U]; [try discriminate U; injection U as <-; tauto|]). destruct U.
    + injection H as <- <-. split; [discriminate|auto].
Qed.

Lemma yield_loop_exn : forall ms o idx ss i x, yield_loop ms o idx = (ss, i, Some x) ->
  x = ValueError \/
  (x = IndexError /\ exists b t j, In (b, t, j) ms /\ In 46 b) \/
  (x = TypeError /\ (o_bad o = true \/ exists b t j p, In (b, t, j) ms /\ In p (split_on 59 b) /\ In p bad_parts)).
Proof.
  induction ms as [|[[b t] j] ms IH]; intros o idx ss i x H; cbn [yield_loop] in H; [discriminate|].
  unfold parse_sequence in H. destruct (parse_parts (split_on 59 b) false [] o) as [o' r] eqn:P.
  destruct (parse_parts_exn _ _ _ _ _ _ P) as [X1 X2]; [reflexivity|discriminate|].
  destruct r as [[u|]|y].
  - injection H as _ _ <-. now left.
  - unfold span_of_options in H. destruct (o_bad o') eqn:B.
    + injection H as _ _ <-. right. right. split; [reflexivity|].
      destruct (X2 eq_refl) as [Y|[p [P1 P2]]]; [now left|]. right. exists b, t, j, p. split; [now left|]. auto.
    + destruct (yield_loop ms o' j) as [[ss' i'] x'] eqn:Y. injection H as _ _ ->.
      destruct (IH _ _ _ _ _ Y) as [Q|[[Q1 [b1 [t1 [j1 [Q2 Q3]]]]]|[Q1 Q2]]].
      * now left.
      * right. left. split; [exact Q1|]. exists b1, t1, j1. split; [now right|exact Q3].
      * right. right. split; [exact Q1|]. destruct Q2 as [Q2|[b1 [t1 [j1 [p [Q2 [Q3 Q4]]]]]]]; [congruence|].
        right. exists b1, t1, j1, p. split; [now right|]. auto.
  - injection H as _ _ <-. destruct (X1 y eq_refl) as [Y|[Y [[]|[p [P1 P2]]]]]; [now left|].
    right. left. split; [exact Y|]. exists b, t, j. split; [now left|]. now apply (in_split_on 59 b p).
Qed.


Lemma finditer_occurs : forall line b t i,
  In (b, t, i) (finditer (if endswith [ESC] line then line else line ++ [ESC])) -> occurs b line.
Proof.
  intros line b t i H. destruct (finditer_occ _ _ _ _ _ _ H) as [a [f [r [E [F N]]]]].
  assert (FF : f = 109 \/ f = 72).
  { unfold is_mH in F. rewrite orb_true_iff, !Z.eqb_eq in F. exact F. }
  destruct (endswith [ESC] line).
  - exists a, f, t, (27 :: r). auto.
  - unfold ESC in E. destruct (@exists_last _ (27 :: r)) as [r' [z Z]]; [discriminate|].
    rewrite Z in E. assert (E' : line ++ [27] = (a ++ 27 :: 91 :: b ++ f :: t ++ r') ++ [z]).
    { rewrite E. rewrite <- app_assoc. cbn [app]. rewrite <- app_assoc. cbn [app]. rewrite <- app_assoc. reflexivity. }
    apply app_inj_tail in E'. destruct E' as [E' _]. exists a, f, t, r'. auto.
Qed.

Lemma parse_exn : forall line x, parse_line line = Err x ->
  x = ValueError \/ (x = IndexError /\ exists b, occurs b line /\ In 46 b) \/
  (x = TypeError /\ exists b p, occurs b line /\ In p (split_on 59 b) /\ In p bad_parts).
Proof.
  intros line x H. unfold parse_line in H. destruct (yield_from line) as [ss y] eqn:Y. destruct y as [y|]; [|discriminate].
  injection H as ->. unfold yield_from in Y. cbv zeta in Y.
  destruct (yield_loop (finditer (if endswith [ESC] line then line else line ++ [ESC])) no_options 0) as [[s1 i1] x1] eqn:L.
  destruct x1 as [x1|].
  - injection Y as _ ->. destruct (yield_loop_exn _ _ _ _ _ _ L) as [Q|[[Q1 [b [t [j [Q2 Q3]]]]]|[Q1 Q2]]].
    + now left.
    + right. left. split; [exact Q1|]. exists b. split; [|exact Q3]. now apply (finditer_occurs line b t j).
    + right. right. split; [exact Q1|]. destruct Q2 as [Q2|[b [t [j [p [Q2 [Q3 Q4]]]]]]]; [discriminate|].
      exists b, p. split; [|auto]. now apply (finditer_occurs line b t j).
  - destruct (_ <? _); discriminate.
Qed.
