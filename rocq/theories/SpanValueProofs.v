(** Lemmas about the equality of spans. *)
From Coq Require Import ZArith List Bool String Lia.
From Verif Require Import PyBase PyLemmas F64 SpaceModel ColorTab ColorModel ColorSpec ColorProofs ColorProofs2 AnsiRe SpanModel Vt SpanSpec SpanProofs SpanProofs2
  ParseProofs ParseProofs2 ParseProofs3 PaletteSpec PaletteProofs GroupProofs SpanValueModel SpanValueSpec.
Import ListNotations.
Open Scope string_scope.
Open Scope list_scope.
Open Scope Z_scope.

Lemma csi_inj : forall a b, csi_or_empty a = csi_or_empty b -> a = b.
Proof.
  intros [|x a] [|y b] H; cbn [csi_or_empty] in H; try reflexivity; unfold csi_m in H; try discriminate.
  apply app_inv_head in H. now apply app_inv_tail in H.
Qed.
Lemma map_dec_inj : forall a b, Forall (fun n => 0 <= n) a -> Forall (fun n => 0 <= n) b -> map dec a = map dec b -> a = b.
Proof.
  induction a as [|x a IH]; intros [|y b] Ha Hb E; try discriminate; [reflexivity|]. inversion Ha; inversion Hb; subst.
  cbn [map] in E. injection E as E1 E2. f_equal; [now apply dec_inj|now apply IH].
Qed.
Lemma sgr_text_inj : forall a b, Forall (fun n => 0 <= n) a -> Forall (fun n => 0 <= n) b -> a <> [] -> b <> [] -> sgr_text a = sgr_text b -> a = b.
Proof.
  intros a b Ha Hb Na Nb E. apply map_dec_inj; auto. rewrite <- (split_sgr_text a Na Ha), <- (split_sgr_text b Nb Hb). now rewrite E.
Qed.
Lemma params_facts : forall bg x ps, color_params bg x ps -> Forall (fun n => 0 <= n) ps /\ ps <> [].
Proof.
  intros bg x ps H. unfold color_params in H. destruct x as [|n|r g b]; [destruct H| |].
  - destruct H as [[H ->]|[[H ->]|[H ->]]]; split; try discriminate; repeat constructor; destruct bg; lia.
  - destruct H as [[H1 [H2 H3]] ->]. split; [|discriminate]. repeat constructor; destruct bg; lia.
Qed.
(** selections of colors are a prefix code *)
Lemma params_prefix : forall b1 x1 p1 b2 x2 p2 q1 q2, color_params b1 x1 p1 -> color_params b2 x2 p2 -> p1 ++ q1 = p2 ++ q2 -> p1 = p2 /\ q1 = q2.
Proof.
  intros b1 x1 p1 b2 x2 p2 q1 q2 H1 H2 E. unfold color_params in *.
  destruct x1 as [|n1|r1 g1 l1]; [destruct H1| |]; (destruct x2 as [|n2|r2 g2 l2]; [destruct H2| |]);
  repeat match goal with
  | H : _ \/ _ |- _ => destruct H
  | H : _ /\ _ |- _ => destruct H
  end; subst; cbn [app] in E; injection E; intros; subst; try (split; congruence); exfalso; destruct b1, b2; lia.
Qed.
Lemma regular_text : forall e c, regular e (Some c) -> exists bg x ps, color_params bg x ps /\ color_ansi e c = sgr_text ps.
Proof. intros e c R. destruct (R c eq_refl) as [x [ps [H1 H2]]]. exists (c_bg c), x, ps. auto. Qed.
Lemma sgr_ne : forall ps, Forall (fun n => 0 <= n) ps -> ps <> [] -> sgr_text ps <> [].
Proof. intros ps F N. destruct (sgr_text_params ps F N) as [_ [_ K]]. exact K. Qed.

Lemma regular_params : forall e c, regular e (Some c) -> exists bg x ps, color_params bg x ps /\ color_ansi e c = sgr_text ps /\ ps <> [] /\ Forall (fun n => 0 <= n) ps /\ sgr_text ps <> [].
Proof.
  intros e c R. destruct (regular_text e c R) as [bg [x [ps [H1 H2]]]]. destruct (params_facts _ _ _ H1) as [F N].
  exists bg, x, ps. repeat split; auto. now apply sgr_ne.
Qed.
Definition joined (e : env) (s : span) : str := join (lit ";") (map (color_ansi e) (opt_list (s_fg s)) ++ map (color_ansi e) (opt_list (s_bg s))).
Lemma body_joined : forall e a b, s_flags a = s_flags b -> (joined e a = [] <-> joined e b = []) -> total_body e a = total_body e b -> joined e a = joined e b.
Proof.
  intros e a b F Z E. unfold total_body in E. rewrite F in E. fold (joined e a) (joined e b) in E.
  destruct (colorless_body (s_flags b)) as [|c l]; [exact E|].
  destruct (joined e a) as [|x p] eqn:Ja; destruct (joined e b) as [|y q] eqn:Jb; [reflexivity| | |].
  - destruct Z as [Z _]. now specialize (Z eq_refl).
  - destruct Z as [_ Z]. now specialize (Z eq_refl).
  - rewrite !(proj2 (Z.eqb_neq _ _)) in E by (unfold zlen; cbn [length]; lia). now apply app_inv_tail in E.
Qed.
Lemma joined_one : forall t : str, join (lit ";") [t] = t.
Proof. intro t. reflexivity. Qed.
Lemma joined_two : forall t u : str, join (lit ";") [t; u] = t ++ lit ";" ++ u.
Proof. intros t u. reflexivity. Qed.
Lemma opt_eqb_shape : forall a b, opt_color_eqb a b = true -> match a, b with None, None => True | Some c, Some d => c_rgb c = c_rgb d /\ feqb (c_alpha c) (c_alpha d) = true | _, _ => False end.
Proof.
  intros [c|] [d|] H; cbn in H; try discriminate; [|exact Logic.I]. unfold color_eqb in H. apply andb_prop in H as [H1 H2]. split; [now apply triple_eqb_iff|exact H2].
Qed.
Lemma eqb_fields : forall e1 a e2 b, made_eqb e1 a e2 b = true <->
  s_text a = s_text b /\ opt_color_eqb (s_fg a) (s_fg b) = true /\ opt_color_eqb (s_bg a) (s_bg b) = true /\ s_link a = s_link b /\ s_flags a = s_flags b /\
  s_reset a = s_reset b /\ span_sequences e1 a = span_sequences e2 b.
Proof.
  intros e1 a e2 b. unfold made_eqb. rewrite !andb_true_iff, !str_eqb_eq, flags_eqb_iff, eqb_true_iff. split; [tauto|].
  intros [T [F [B [L [G [R Q]]]]]].
  assert (S : span_str e1 a = span_str e2 b) by (unfold span_str; now rewrite Q, R, T, L).
  assert (C : span_colorless a = span_colorless b) by (unfold span_colorless; now rewrite G). tauto.
Qed.
Lemma span_made : forall e a b, span_eqb e a b = made_eqb e a e b.
Proof. reflexivity. Qed.
Lemma colors_alike : forall e a b, regular_span e a -> regular_span e b -> span_eqb e a b = true -> alike e (s_fg a) (s_fg b) /\ alike e (s_bg a) (s_bg b).
Proof.
  intros e a b [Ra1 Ra2] [Rb1 Rb2] H. rewrite span_made in H. apply eqb_fields in H as [T [F [B [L [G [R Q]]]]]].
  unfold span_sequences in Q. apply csi_inj in Q.
  apply opt_eqb_shape in F. apply opt_eqb_shape in B.
  assert (J : joined e a = joined e b).
  { apply body_joined; auto. unfold joined.
    destruct (s_fg a) as [f1|], (s_fg b) as [f2|]; try contradiction; destruct (s_bg a) as [g1|], (s_bg b) as [g2|]; try contradiction;
    cbn [opt_list map app]; rewrite ?joined_one, ?joined_two; try tauto.
    - split; intro Z; apply app_eq_nil in Z as [_ Z]; discriminate.
    - destruct (regular_params e f1 Ra1) as [? [? [? [_ [Z1 [_ [_ N1]]]]]]]. destruct (regular_params e f2 Rb1) as [? [? [? [_ [Z2 [_ [_ N2]]]]]]].
      rewrite Z1, Z2. tauto.
    - destruct (regular_params e g1 Ra2) as [? [? [? [_ [Z1 [_ [_ N1]]]]]]]. destruct (regular_params e g2 Rb2) as [? [? [? [_ [Z2 [_ [_ N2]]]]]]].
      rewrite Z1, Z2. tauto. }
  unfold joined in J. unfold alike.
  destruct (s_fg a) as [f1|], (s_fg b) as [f2|]; try contradiction; destruct (s_bg a) as [g1|], (s_bg b) as [g2|]; try contradiction;
  cbn [opt_list map app] in J; rewrite ?joined_one, ?joined_two in J; try tauto.
  destruct (regular_params e f1 Ra1) as [b1 [x1 [p1 [P1 [Z1 [N1 [F1 _]]]]]]]. destruct (regular_params e f2 Rb1) as [b2 [x2 [p2 [P2 [Z2 [N2 [F2 _]]]]]]].
  destruct (regular_params e g1 Ra2) as [b3 [x3 [p3 [P3 [Z3 [N3 [F3 _]]]]]]]. destruct (regular_params e g2 Rb2) as [b4 [x4 [p4 [P4 [Z4 [N4 [F4 _]]]]]]].
  rewrite Z1, Z2, Z3, Z4 in *. rewrite <- !sgr_text_app in J by assumption.
  apply sgr_text_inj in J; try (apply Forall_app; split; assumption); try (intro X; apply app_eq_nil in X; tauto).
  destruct (params_prefix _ _ _ _ _ _ _ _ P1 P2 J) as [<- <-]. tauto.
Qed.
Lemma alike_eqb : forall e a b, alike e a b -> opt_color_eqb a b = true.
Proof.
  intros e [c|] [d|] H; cbn in *; try contradiction; [|reflexivity]. destruct H as [H1 [H2 _]]. unfold color_eqb. now rewrite H2, (proj2 (triple_eqb_iff _ _)).
Qed.
Lemma alike_texts : forall e a b, alike e a b -> map (color_ansi e) (opt_list a) = map (color_ansi e) (opt_list b).
Proof. intros e [c|] [d|] H; cbn in *; try contradiction; [|reflexivity]. destruct H as [_ [_ ->]]. reflexivity. Qed.
Lemma args_eqb : forall e a b, same_arguments e a b -> span_eqb e a b = true.
Proof.
  intros e a b [T [F [B [L [G R]]]]]. rewrite span_made. apply eqb_fields.
  assert (Q : span_sequences e a = span_sequences e b).
  { unfold span_sequences, total_body. now rewrite (alike_texts e _ _ F), (alike_texts e _ _ B), G. }
  apply alike_eqb in F. apply alike_eqb in B. tauto.
Qed.
Lemma meaning : forall e a b, regular_span e a -> regular_span e b -> (span_eqb e a b = true <-> same_arguments e a b).
Proof.
  intros e a b Ra Rb. split; [|apply args_eqb]. intro H. pose proof (colors_alike e a b Ra Rb H) as [F B].
  rewrite span_made in H. apply eqb_fields in H. unfold same_arguments. tauto.
Qed.

(** * An equivalence *)
Lemma opt_refl : forall o, number_alpha o -> opt_color_eqb o o = true.
Proof. intros [c|] H; [|reflexivity]. cbn in *. exact (proj1 (color_equality c c c) H). Qed.
Lemma opt_sym : forall a b, opt_color_eqb a b = opt_color_eqb b a.
Proof. intros [c|] [d|]; try reflexivity. exact (proj1 (proj2 (color_equality c d d))). Qed.
Lemma opt_trans : forall a b c, opt_color_eqb a b = true -> opt_color_eqb b c = true -> opt_color_eqb a c = true.
Proof. intros [a|] [b|] [c|] H K; try discriminate; [|reflexivity]. cbn in *. exact (proj1 (proj2 (proj2 (color_equality a b c))) H K). Qed.
Lemma equivalence : forall e1 a e2 b e3 c,
  (number_alpha (s_fg a) -> number_alpha (s_bg a) -> made_eqb e1 a e1 a = true) /\
  made_eqb e1 a e2 b = made_eqb e2 b e1 a /\
  (made_eqb e1 a e2 b = true -> made_eqb e2 b e3 c = true -> made_eqb e1 a e3 c = true).
Proof.
  intros e1 a e2 b e3 c. split; [|split].
  - intros N1 N2. apply eqb_fields. apply opt_refl in N1. apply opt_refl in N2. tauto.
  - apply eq_true_iff_eq. rewrite !eqb_fields. rewrite (opt_sym (s_fg a)), (opt_sym (s_bg a)).
    split; intros [H1 [H2 [H3 [H4 [H5 [H6 H7]]]]]]; symmetry in H1, H4, H5, H6, H7; tauto.
  - rewrite !eqb_fields. intros [H1 [H2 [H3 [H4 [H5 [H6 H7]]]]]] [K1 [K2 [K3 [K4 [K5 [K6 K7]]]]]].
    rewrite H1, H4, H5, H6, H7. pose proof (opt_trans _ _ _ H2 K2). pose proof (opt_trans _ _ _ H3 K3). tauto.
Qed.
(** * Equal spans are interchangeable *)
Lemma same_mutated : forall e a b ms, same_arguments e a b -> Forall numeric ms -> same_arguments e (mutate a ms) (mutate b ms).
Proof.
  intros e a b ms H N. unfold mutate.
  assert (K : forall ms x y, same_arguments e x y -> Forall numeric ms -> same_arguments e (fold_left apply_mopt ms x) (fold_left apply_mopt ms y)).
  { clear. induction ms as [|m ms IH]; intros x y H N; [exact H|]. inversion N; subst. cbn [fold_left]. apply IH; [|assumption].
    destruct H as [T [F [B [L [G R]]]]].
    assert (A : forall o, number_alpha o -> alike e o o) by (intros [c|] Hn; cbn in *; [repeat split; now apply feqb_refl|exact Logic.I]).
    destruct m; cbn [apply_mopt numeric] in *; unfold same_arguments; cbn; rewrite ?T, ?L, ?G, ?R; repeat split; auto. }
  apply K; [|exact N]. destruct H as [T [F [B [L [G R]]]]]. unfold same_arguments; cbn. auto 10.
Qed.
Lemma alike_hex : forall e a b, alike e a b -> option_map color_hex a = option_map color_hex b.
Proof. intros e [c|] [d|] H; cbn in *; try contradiction; [|reflexivity]. destruct H as [H _]. unfold color_hex. now rewrite H. Qed.
Lemma styles_by_hex : forall s, get_svg_styles s =
  let css := fold_left (fun d k => if get_flag k (s_flags s) then match style_to_css k with Some (a, b) => dict_set a b d | None => d end else d) all_flags [] in
  let css := match option_map color_hex (s_fg s) with Some h => if fl_invert (s_flags s) then css else dict_set (lit "fill") h css | None => css end in
  match option_map color_hex (s_bg s) with Some h => if fl_invert (s_flags s) then dict_set (lit "fill") h css else css | None => css end.
Proof. intro s. unfold get_svg_styles. destruct (s_fg s), (s_bg s); reflexivity. Qed.
Lemma same_svg : forall e a b n dfg dbg inline cls, same_arguments e a b -> get_svg_styles a = get_svg_styles b /\ as_svg a n dfg dbg inline cls = as_svg b n dfg dbg inline cls.
Proof.
  intros e a b n dfg dbg inline cls [T [F [B [L [G R]]]]].
  apply alike_hex in F. apply alike_hex in B.
  assert (S : get_svg_styles a = get_svg_styles b) by (rewrite !styles_by_hex, F, B, G; reflexivity).
  split; [exact S|].
  assert (C : (color_hex (fst (svg_colors a dfg dbg)), color_hex (snd (svg_colors a dfg dbg))) = (color_hex (fst (svg_colors b dfg dbg)), color_hex (snd (svg_colors b dfg dbg)))).
  { unfold svg_colors. rewrite G. destruct (s_fg a), (s_fg b); try discriminate; destruct (s_bg a), (s_bg b); try discriminate; cbn [option_map] in F, B;
    destruct (fl_invert (s_flags b)); cbn [fst snd]; congruence. }
  unfold as_svg. rewrite S, T. destruct (svg_colors a dfg dbg) as [p q], (svg_colors b dfg dbg) as [p' q']. cbn [fst snd] in C. injection C as -> ->. reflexivity.
Qed.
Lemma same_text : forall e a b, span_eqb e a b = true -> span_str e a = span_str e b /\ span_len a = span_len b /\ forall x y, get_characters e a x y = get_characters e b x y.
Proof.
  intros e a b H. rewrite span_made in H. apply eqb_fields in H as [T [F [B [L [G [R Q]]]]]]. split; [|split].
  - unfold span_str. now rewrite Q, R, T, L.
  - unfold span_len. now rewrite T.
  - intros x y. unfold get_characters, span_colorless. now rewrite Q, R, T, G.
Qed.
Lemma interchangeable : forall e a b, regular_span e a -> regular_span e b -> span_eqb e a b = true ->
  span_str e a = span_str e b /\ span_len a = span_len b /\ (forall x y, get_characters e a x y = get_characters e b x y) /\
  (forall n dfg dbg inline cls, as_svg a n dfg dbg inline cls = as_svg b n dfg dbg inline cls) /\ get_svg_styles a = get_svg_styles b /\
  forall ms, Forall numeric ms -> span_eqb e (mutate a ms) (mutate b ms) = true.
Proof.
  intros e a b Ra Rb H. pose proof (proj1 (meaning e a b Ra Rb) H) as S. destruct (same_text e a b H) as [H1 [H2 H3]].
  split; [exact H1|]. split; [exact H2|]. split; [exact H3|]. split; [intros; now apply (same_svg e)|].
  split; [apply (same_svg e a b {| sv_x := []; sv_yrect := []; sv_width := []; sv_height := []; sv_ytext := [] |} WHITE WHITE true None S)|].
  intros ms N. apply args_eqb. now apply same_mutated.
Qed.

(** * Hashes *)
Lemma valid_rgb_ok : forall rgb bg al o k, valid_rgb rgb = true -> color_ok (mkColor rgb bg al o k).
Proof. intros [[r g] b] bg al o k H. apply valid_rgb_iff in H. exact H. Qed.
Lemma same_hash : forall e a b, span_eqb e a b = true -> built_alike (s_fg a) (s_fg b) -> built_alike (s_bg a) (s_bg b) -> span_hash e a = span_hash e b.
Proof.
  intros e a b H Hf Hb. destruct (same_text e a b H) as [S _]. rewrite span_made in H. apply eqb_fields in H as [T [F [B [L [G [R Q]]]]]].
  assert (K : forall o p, opt_color_eqb o p = true -> built_alike o p -> option_map hash_fields o = option_map hash_fields p).
  { intros [c|] [d|] H1 H2; cbn in *; try discriminate; [|reflexivity]. destruct H2 as [H2 [H3 H4]]. f_equal. now apply equal_hash_same_build. }
  unfold span_hash. unfold span_colorless. now rewrite (K _ _ F Hf), (K _ _ B Hb), T, L, G, R, S, Q.
Qed.
Lemma hash_differs : forall e t l f rst rgb c d, valid_rgb rgb = true -> color_of (DStr (color_hex d)) = Ok c -> plain_color rgb false fone = Ok d ->
  span_eqb e (mkSpan t (Some c) None l f rst) (mkSpan t (Some d) None l f rst) = true /\
  span_hash e (mkSpan t (Some c) None l f rst) <> span_hash e (mkSpan t (Some d) None l f rst).
Proof.
  intros e t l f rst rgb c d V C D. unfold plain_color, new_color in D. rewrite V in D. injection D as <-.
  assert (O : color_ok (mkColor rgb false fone TRUE_COLOR None)) by (now apply valid_rgb_ok).
  destruct (hex_roundtrip _ O) as [d1 [d2 [d3 [d4 [d5 [d6 [H1 [_ H2]]]]]]]]. rewrite H2 in C. injection C as <-.
  split.
  - apply args_eqb. unfold same_arguments, alike. cbn [s_text s_fg s_bg s_link s_flags s_reset c_rgb c_alpha].
    assert (A : color_ansi e (mkColor rgb false fone TRUE_COLOR (Some (color_hex (mkColor rgb false fone TRUE_COLOR None)))) = color_ansi e (mkColor rgb false fone TRUE_COLOR None)).
    { rewrite !color_ansi_free; [reflexivity|exact Logic.I|]. unfold no_ansi_ctor. cbn [c_ctor]. rewrite H1. reflexivity. }
    assert (N : feqb fone fone = true) by (apply feqb_refl; reflexivity). tauto.
  - intro E. apply (f_equal (fun h => let '(_, x, _, _, _, _, _, _, _) := h in option_map snd x)) in E.
    unfold span_hash in E. cbv beta iota in E. cbn [s_fg option_map] in E. unfold hash_fields in E. cbn [snd c_ctor] in E. discriminate.
Qed.
(** colors made differently may be equal while the spans are not *)
Lemma colors_differ : forall e t l f rst rgb c d, env_cs e = TRUE_COLOR -> c_rgb c = rgb -> feqb (c_alpha c) fone = true -> color_ansi e c <> rgb_seq false (red c) (green c) (blue c) -> regular e (Some c) ->
  plain_color rgb false fone = Ok d ->
  color_eqb c d = true /\ span_eqb e (mkSpan t (Some c) None l f rst) (mkSpan t (Some d) None l f rst) = false.
Proof.
  intros e t l f rst rgb c d He R A N Rc D. unfold plain_color, new_color in D. destruct (valid_rgb rgb) eqn:V; [|discriminate]. injection D as <-.
  split; [unfold color_eqb; cbn [c_rgb c_alpha]; now rewrite A, (proj2 (triple_eqb_iff _ _))|].
  assert (O : color_ok (mkColor rgb false fone TRUE_COLOR None)) by (now apply valid_rgb_ok).
  assert (P : color_ansi e (mkColor rgb false fone TRUE_COLOR None) = rgb_seq false (red c) (green c) (blue c)).
  { rewrite color_ansi_free by exact Logic.I. rewrite He. unfold red, green, blue. cbn [c_rgb c_bg]. now rewrite R. }
  destruct (span_eqb e _ _) eqn:E; [|reflexivity]. exfalso. apply N. rewrite <- P.
  apply colors_alike in E.
  - cbn in E. tauto.
  - split; [exact Rc|discriminate].
  - split; [|discriminate]. cbn [s_fg]. intros x Hx. injection Hx as <-. cbn [c_bg]. rewrite P.
    exists (ERgb (red c) (green c) (blue c)). destruct O as [O1 [O2 O3]]. unfold red, green, blue in *. cbn [c_rgb] in *. rewrite R.
    eexists. split; [split; [unfold channel_ok in *; lia|reflexivity]|]. destruct rgb as [[r g] b]. reflexivity.
Qed.
(** the same arguments, in different color spaces *)
Lemma spaces_differ : forall e1 e2 t l f rst rgb d, env_cs e1 = TRUE_COLOR -> env_cs e2 = STANDARD -> plain_color rgb false fone = Ok d ->
  made_eqb e1 (mkSpan t (Some d) None l f rst) e2 (mkSpan t (Some d) None l f rst) = false.
Proof.
  intros e1 e2 t l f rst rgb d H1 H2 D. unfold plain_color, new_color in D. destruct (valid_rgb rgb) eqn:V; [|discriminate]. injection D as <-.
  destruct (made_eqb _ _ _ _) eqn:E; [|reflexivity]. exfalso. apply eqb_fields in E as [_ [_ [_ [_ [_ [_ Q]]]]]].
  unfold span_sequences in Q. apply csi_inj in Q. unfold total_body in Q. cbn [s_fg s_bg s_flags opt_list map app] in Q. rewrite !joined_one in Q.
  set (d := mkColor rgb false fone TRUE_COLOR None) in *.
  assert (O : color_ok d) by (now apply valid_rgb_ok).
  destruct (standard_emission e2 d rend0 O Logic.I H2) as [i [I1 [I2 _]]].
  assert (P : color_ansi e1 d = rgb_seq false (red d) (green d) (blue d)) by (rewrite color_ansi_free by exact Logic.I; now rewrite H1).
  assert (B : 0 <= standard_code (c_bg d) i) by (unfold standard_code; destruct I1; destruct (Z.ltb_spec i 8), (c_bg d); lia).
  assert (X : color_ansi e1 d = color_ansi e2 d).
  { destruct (colorless_body f) as [|x y]; [exact Q|]. rewrite !(proj2 (Z.eqb_neq _ _)) in Q; [now apply app_inv_tail in Q| |].
    - rewrite I2. unfold zlen. pose proof (dec_ne (standard_code (c_bg d) i)). destruct (dec _); [congruence|cbn [length]; lia].
    - rewrite P. unfold rgb_seq. change (lit "38") with [51; 56]. unfold zlen. cbn [app length]. lia. }
  rewrite P, I2 in X. pose proof (dec_digits _ B) as Y. rewrite <- X in Y. unfold rgb_seq in Y. rewrite !forallb_app in Y.
  rewrite !andb_true_iff in Y. destruct Y as [_ [Y _]]. discriminate Y.
Qed.
Lemma indexed_differs : forall e t l f rst, env_cs e = TRUE_COLOR -> exists c d,
  color_of (DStr (lit "38;5;196")) = Ok c /\ plain_color (255, 0, 0) false fone = Ok d /\ color_eqb c d = true /\
  span_eqb e (mkSpan t (Some c) None l f rst) (mkSpan t (Some d) None l f rst) = false.
Proof.
  intros e t l f rst He. eexists _, _. split; [reflexivity|]. split; [reflexivity|].
  match goal with |- color_eqb ?x ?y = true /\ _ => set (c := x); set (d := y) end.
  assert (A : color_ansi e c = lit "38;5;196") by (unfold color_ansi; rewrite He; reflexivity).
  apply (colors_differ e t l f rst (255, 0, 0) c d He).
  - reflexivity.
  - apply feqb_refl. reflexivity.
  - rewrite A. discriminate.
  - intros x Hx. injection Hx as <-. exists (EIdx 196), [38; 5; 196]. split; [left; split; [lia|reflexivity]|]. rewrite A. reflexivity.
  - reflexivity.
Qed.
