(** Lemmas: how colors are displayed, widths, mutation, slices, characters, escaping. *)
From Coq Require Import ZArith List Bool Lia String.
From Verif Require Import PyBase PyLemmas SplitLemmas F64 SpaceModel SpaceSpec SpaceProofs ColorTab ColorModel ColorSpec ColorProofs
  ColorProofs2 AnsiRe SpanModel CoreModel Vt PaletteSpec PaletteProofs SpanSpec SpanProofs.
Open Scope Z_scope.

(** * Colors *)
Ltac cases16 n :=
  let C := fresh in
  assert (C : n = 0 \/ n = 1 \/ n = 2 \/ n = 3 \/ n = 4 \/ n = 5 \/ n = 6 \/ n = 7 \/ n = 8 \/ n = 9 \/ n = 10 \/
     n = 11 \/ n = 12 \/ n = 13 \/ n = 14 \/ n = 15) by lia;
  repeat (destruct C as [C|C]); subst n.

Lemma color_params_nonneg : forall bg x ps, color_params bg x ps -> Forall (fun n => 0 <= n) ps /\ ps <> [].
Proof.
  intros bg x ps H. unfold color_params in H. destruct x as [|n|r g b]; [contradiction| |].
  - destruct H as [[H ->]|[[H ->]|[H ->]]]; split; try discriminate; destruct bg; repeat constructor; lia.
  - destruct H as [H ->]; split; try discriminate; destruct bg; repeat constructor; lia.
Qed.

Lemma color_params_sgr : forall bg x ps more pen, color_params bg x ps ->
  sgr (ps ++ more) pen = sgr more (paint bg x pen).
Proof.
  intros bg x ps more pen H. unfold color_params in H. destruct x as [|n|r g b]; [contradiction| |].
  - destruct H as [[H ->]|[[H ->]|[H ->]]].
    + destruct bg; reflexivity.
    + destruct bg; cases16 n; try lia; reflexivity.
    + destruct bg; cases16 n; try lia; reflexivity.
  - destruct H as [H ->]. destruct bg; reflexivity.
Qed.

Lemma sgr_text_params : forall ps, Forall (fun n => 0 <= n) ps -> ps <> [] ->
  params (sgr_text ps) = ps /\ forallb param_char (sgr_text ps) = true /\ sgr_text ps <> [].
Proof.
  intros ps H N. split; [|split].
  - now apply params_digits.
  - apply join_params. rewrite Forall_map. revert H. apply Forall_impl. intros n Hn.
    pose proof (dec_digits n Hn) as D. rewrite forallb_forall in *. intros c Hc. unfold param_char. now rewrite D.
  - intro E. unfold sgr_text in E. destruct ps as [|a [|b l]]; [congruence| |].
    + cbn in E. now apply (dec_ne a).
    + cbn [map] in E. rewrite join_cons in E. destruct (dec a) eqn:D; [now apply (dec_ne a)|discriminate].
Qed.

Lemma color_text_emits : forall e c x, color_text (c_bg c) x (color_ansi e c) -> emits e c x.
Proof.
  intros e c x [ps [H E]]. destruct (color_params_nonneg _ _ _ H) as [H1 H2].
  destruct (sgr_text_params ps H1 H2) as [P1 [P2 P3]]. unfold emits. rewrite E.
  split; [exact P3|]. split; [exact P2|]. intros. rewrite P1. now apply color_params_sgr.
Qed.

Lemma rgb_seq_text : forall bg r g b, 0 <= r < 256 -> 0 <= g < 256 -> 0 <= b < 256 ->
  color_text bg (ERgb r g b) (rgb_seq bg r g b).
Proof.
  intros. exists [38 + (if bg then 10 else 0); 2; r; g; b]. split; [cbn; tauto|].
  destruct bg; reflexivity.
Qed.
Lemma idx_seq_text : forall bg n, 0 <= n < 256 -> color_text bg (EIdx n) (idx_seq bg n).
Proof.
  intros. exists [38 + (if bg then 10 else 0); 5; n]. split; [cbn; tauto|].
  destruct bg; reflexivity.
Qed.
Lemma std_text : forall bg n, 0 <= n < 16 -> color_text bg (EIdx n) (dec (standard_code bg n)).
Proof.
  intros. exists [standard_code bg n]. split; [|reflexivity]. cbn. unfold standard_code.
  right. destruct (Z.ltb_spec n 8); [left|right]; (split; [lia|]); f_equal; destruct bg; lia.
Qed.



(** [approximates], with the grey that the model computes *)
Definition approx_as (e : env) (c : color) (x : ecolor) : Prop :=
  match env_cs e with
  | NO_COLOR => x = EIdx (grey_index e (c_rgb c))
  | _ => approximates e c x
  end.

Lemma free_color_text : forall e c, color_ok c -> no_ansi_ctor c ->
  (env_cs e = NO_COLOR -> 0 <= grey_index e (c_rgb c) < 256) ->
  exists x, approx_as e c x /\ color_text (c_bg c) x (color_ansi e c).
Proof.
  intros e c Hc Hn Hg. unfold approx_as, approximates. destruct (env_cs e) eqn:E.
  - eexists. split; [reflexivity|]. rewrite color_ansi_free by assumption. rewrite E, lead_dec.
    pose proof (idx_seq_text (c_bg c) _ (Hg eq_refl)) as T. unfold idx_seq in T. destruct (c_bg c); exact T.
  - destruct (standard_emission e c rend0 Hc Hn E) as [i [N [A _]]]. exists (EIdx i). split; [eauto|].
    rewrite A. apply std_text. destruct N as [N _]. exact N.
  - destruct (eight_bit_emission e c rend0 Hc Hn E) as [i [j [k [N1 [N2 [N3 [R [A _]]]]]]]].
    exists (EIdx (cube_index i j k)). split; [exists i, j, k; auto|]. rewrite A. apply idx_seq_text. lia.
  - eexists. split; [reflexivity|]. rewrite color_ansi_free by assumption. rewrite E.
    destruct Hc as [H1 [H2 H3]]. unfold channel_ok in *. apply rgb_seq_text; lia.
Qed.

Lemma free_color_emits : forall e c, color_ok c -> no_ansi_ctor c ->
  (env_cs e = NO_COLOR -> 0 <= grey_index e (c_rgb c) < 256) ->
  exists x, approx_as e c x /\ emits e c x.
Proof.
  intros e c Hc Hn Hg. destruct (free_color_text e c Hc Hn Hg) as [x [A T]]. exists x. split; auto.
  now apply color_text_emits.
Qed.

(** a color built from the text of parameters, in a terminal that has its color space *)
Definition strip_ctor (c : color) : color := mkColor (c_rgb c) (c_bg c) (c_alpha c) (c_origin c) None.
Lemma ctor_ansi : forall e c k, c_ctor c = Some k -> startswith (lit "#") k = false ->
  color_ansi e c = (if rank (c_origin c) <=? rank (env_cs e) then k else color_ansi e (strip_ctor c)).
Proof.
  intros e c k Hk Hs. unfold color_ansi at 1. rewrite Hk, ge_rank, Hs. cbn [negb].
  destruct (rank (c_origin c) <=? rank (env_cs e)) eqn:E; [reflexivity|].
  unfold color_ansi, strip_ctor. cbn [c_origin c_ctor c_bg c_rgb lead]. rewrite ge_rank, E. reflexivity.
Qed.

Lemma sgr_text_hash : forall ps, Forall (fun n => 0 <= n) ps -> ps <> [] -> startswith (lit "#") (sgr_text ps) = false.
Proof.
  intros ps H N. destruct (startswith (lit "#") (sgr_text ps)) eqn:E; [|reflexivity].
  apply startswith_iff in E. destruct E as [t E]. destruct (sgr_text_params ps H N) as [_ [P _]].
  rewrite E in P. discriminate.
Qed.

Lemma described_emits : forall e c x k, c_ctor c = Some k -> color_text (c_bg c) x k ->
  rank (c_origin c) <= rank (env_cs e) -> emits e c x.
Proof.
  intros e c x k Hk Ht Hr. apply color_text_emits. destruct Ht as [ps [Hp ->]].
  destruct (color_params_nonneg _ _ _ Hp) as [H1 H2].
  rewrite (ctor_ansi e c _ Hk) by (now apply sgr_text_hash).
  destruct (Z.leb_spec (rank (c_origin c)) (rank (env_cs e))); [|lia]. exists ps. auto.
Qed.

(** the codes are read by from_ansi as they are *)
Lemma from_ansi_rgb_text : forall (bg : bool) r g b al, 0 <= r < 256 -> 0 <= g < 256 -> 0 <= b < 256 ->
  from_ansi (sgr_text [38 + (if bg then 10 else 0); 2; r; g; b]) al
  = Ok (mkColor (r, g, b) bg al TRUE_COLOR (Some (sgr_text [38 + (if bg then 10 else 0); 2; r; g; b]))).
Proof.
  intros. replace (sgr_text _) with (rgb_seq bg r g b) by (destruct bg; reflexivity).
  apply from_ansi_rgb; unfold channel_ok; lia.
Qed.

(** the color a parameter text stands for, and the color space it belongs to *)
Definition text_color (bg : bool) (x : ecolor) (k : str) (c : color) : Prop :=
  c_bg c = bg /\ c_ctor c = Some k /\ color_ok c /\
  match x with
  | EDefault => False
  | EIdx n => c_rgb c = palette_entry n /\ (c_origin c = EIGHT_BIT \/ c_origin c = STANDARD)
  | ERgb r g b => c_rgb c = (r, g, b) /\ c_origin c = TRUE_COLOR
  end.

Lemma palette_color_ok : forall n, 0 <= n < 256 -> forall c, c_rgb c = palette_entry n -> color_ok c.
Proof.
  intros n H c E. pose proof (palette_ok n H) as P. unfold color_ok, red, green, blue. rewrite E.
  destruct (palette_entry n) as [[r g] b]. simpl in *. tauto.
Qed.

Lemma from_ansi_text : forall bg x ps al, color_params bg x ps ->
  exists c, from_ansi (sgr_text ps) al = Ok c /\ text_color bg x (sgr_text ps) c /\ c_alpha c = al.
Proof.
  intros bg x ps al H. unfold color_params in H. destruct x as [|n|r g b]; [contradiction| |].
  - assert (R : 0 <= n < 256) by (destruct H as [[H _]|[[H _]|[H _]]]; lia).
    assert (K : forall o, (o = EIGHT_BIT \/ o = STANDARD) ->
       text_color bg (EIdx n) (sgr_text ps) (mkColor (palette_entry n) bg al o (Some (sgr_text ps)))).
    { intros o Ho. unfold text_color. cbn [c_bg c_ctor c_rgb c_origin].
      split; [reflexivity|]. split; [reflexivity|]. split; [|now split].
      now apply (palette_color_ok n R). }
    destruct H as [[H E]|[[H E]|[H E]]].
    + exists (mkColor (palette_entry n) bg al EIGHT_BIT (Some (sgr_text ps))). split; [|split; auto].
      subst ps. replace (sgr_text _) with (idx_seq bg n) by (destruct bg; reflexivity).
      now apply from_ansi_idx.
    + exists (mkColor (palette_entry n) bg al STANDARD (Some (sgr_text ps))). split; [|split; auto].
      subst ps. clear K R. destruct bg; cases16 n; try lia; vm_compute; reflexivity.
    + exists (mkColor (palette_entry n) bg al STANDARD (Some (sgr_text ps))). split; [|split; auto].
      subst ps. clear K R. destruct bg; cases16 n; try lia; vm_compute; reflexivity.
  - destruct H as [H ->]. eexists. split; [now apply from_ansi_rgb_text|]. split; [|reflexivity].
    unfold text_color. cbn. repeat split; unfold color_ok, channel_ok, red, green, blue; cbn; lia.
Qed.


Lemma strip_aux_skip : forall a s, strip_ansi_aux (a ++ s) (List.length a) = strip_ansi_aux s 0.
Proof. induction a as [|c a IH]; intro s; [reflexivity|]. cbn. apply IH. Qed.

Lemma strip_match : forall a s, match_ansi (a ++ s) = Some (List.length a) -> a <> [] ->
  strip_ansi (a ++ s) = strip_ansi s.
Proof.
  intros [|c a] s H N; [congruence|]. unfold strip_ansi. cbn [app strip_ansi_aux]. cbn [app] in H. rewrite H.
  cbn [List.length]. rewrite Nat.sub_succ, Nat.sub_0_r. apply strip_aux_skip.
Qed.

Lemma strip_char : forall c s, c <> ESC -> strip_ansi (c :: s) = c :: strip_ansi s.
Proof.
  intros c s H. unfold strip_ansi. cbn [strip_ansi_aux]. unfold match_ansi.
  assert (E : forall p q, startswith (ESC :: p) (c :: q) = false).
  { intros. cbn [startswith]. destruct (Z.eqb_spec ESC c); [congruence|reflexivity]. }
  now rewrite !E.
Qed.

Lemma find_mH_calm : forall b s, calm b -> find_mH (b ++ 109 :: s) = Some (S (List.length b)).
Proof.
  induction b as [|c b IH]; intros s [H1 [H2 H3]]; [reflexivity|].
  cbn [app find_mH]. cbn in H1, H2, H3. unfold is_mH.
  destruct (Z.eqb_spec c 109); [exfalso; auto|]. destruct (Z.eqb_spec c 72); [exfalso; auto|].
  unfold NL. destruct (Z.eqb_spec c 10); [exfalso; auto|]. cbn [orb].
  rewrite IH by (unfold calm; tauto). reflexivity.
Qed.

Lemma strip_csi : forall b s, calm b -> strip_ansi (csi_m b ++ s) = strip_ansi s.
Proof.
  intros b s H. apply strip_match; [|discriminate]. unfold csi_m.
  change (([ESC; 91] ++ b ++ [109]) ++ s) with (ESC :: 91 :: (b ++ [109]) ++ s).
  unfold match_ansi. cbn [startswith]. rewrite Z.eqb_refl. change (91 =? 91) with true. cbn [andb]. cbn [skipn].
  rewrite <- app_assoc. cbn [app]. rewrite find_mH_calm by assumption. cbn [add_len option_map].
  cbn [List.length]. rewrite app_length. cbn. f_equal. lia.
Qed.

Lemma find_ST_calm : forall b s, ~ In 27 b -> ~ In 10 b -> find_ST (b ++ 27 :: 92 :: s) = Some (2 + List.length b)%nat.
Proof.
  induction b as [|c b IH]; intros s H1 H2; [reflexivity|].
  cbn [app find_ST]. cbn in H1, H2. unfold ESC, NL in *.
  destruct (Z.eqb_spec c 27); [exfalso; auto|]. destruct (Z.eqb_spec c 10); [exfalso; auto|]. cbn [andb].
  rewrite IH by tauto. reflexivity.
Qed.

Lemma strip_link : forall u s, ~ In 27 u -> ~ In 10 u -> strip_ansi (link_open u ++ s) = strip_ansi s.
Proof.
  intros u s H1 H2. apply strip_match; [|discriminate]. unfold link_open.
  change (([ESC] ++ lit "]8;;" ++ u ++ [ESC; 92]) ++ s) with (ESC :: 93 :: ((56 :: 59 :: 59 :: u) ++ [27; 92]) ++ s).
  unfold match_ansi. cbn [startswith]. rewrite Z.eqb_refl. change (91 =? 93) with false. change (93 =? 93) with true.
  cbn [andb]. cbn [skipn]. rewrite <- app_assoc. cbn [app].
  change (56 :: 59 :: 59 :: u ++ 27 :: 92 :: s) with ((56 :: 59 :: 59 :: u) ++ 27 :: 92 :: s).
  rewrite find_ST_calm by (cbn; intuition lia). cbn [add_len option_map].
  cbn [List.length]. rewrite !app_length. cbn. f_equal. lia.
Qed.

Lemma strip_text : forall t s, no_esc t -> strip_ansi (t ++ s) = t ++ strip_ansi s.
Proof.
  induction t as [|c t IH]; intros s H; [reflexivity|]. unfold no_esc in *. cbn in H.
  cbn [app]. rewrite strip_char by (intro; apply H; auto). now rewrite IH by tauto.
Qed.

Lemma calm_app : forall a b, calm a -> calm b -> calm (a ++ b).
Proof. unfold calm. intros a b. rewrite !in_app_iff. tauto. Qed.
Lemma params_calm : forall b, forallb param_char b = true -> calm b.
Proof.
  intros b H. rewrite forallb_forall in H.
  repeat split; intro I; apply H in I; discriminate.
Qed.
Lemma total_calm : forall e s,
  (forall c, s_fg s = Some c \/ s_bg s = Some c -> calm (color_ansi e c)) -> calm (total_body e s).
Proof.
  intros e s H. unfold total_body.
  assert (J : calm (join (lit ";") (map (color_ansi e) (opt_list (s_fg s)) ++ map (color_ansi e) (opt_list (s_bg s))))).
  { destruct (s_fg s) as [f|] eqn:F, (s_bg s) as [b|] eqn:B; cbn [opt_list map app join].
    - apply calm_app; [auto|]. apply calm_app; [|auto]. unfold calm. cbn. intuition lia.
    - auto.
    - auto.
    - unfold calm. cbn. tauto. }
  pose proof (params_calm _ (colorless_params (s_flags s))) as C.
  destruct (colorless_body (s_flags s)) as [|x y] eqn:E; [exact J|].
  apply calm_app; [exact J|]. apply calm_app; [|exact C].
  destruct (_ =? _); unfold calm; cbn; intuition lia.
Qed.


Lemma span_strip : forall e s r, quiet_span e s -> strip_ansi (span_str e s ++ r) = s_text s ++ strip_ansi r.
Proof.
  intros e s r [H1 [H2 [H3 H4]]]. pose proof (total_calm e s H4) as C.
  assert (S : forall r, strip_ansi (span_sequences e s ++ r) = strip_ansi r).
  { intro r'. unfold span_sequences, csi_or_empty. destruct (total_body e s) eqn:E; [reflexivity|].
    now apply strip_csi. }
  assert (R : forall b r, strip_ansi ((if b : bool then RESET else []) ++ r) = strip_ansi r).
  { intros [] r'; [|reflexivity]. unfold RESET. apply strip_csi. unfold calm. cbn. intuition lia. }
  unfold span_str. destruct (str_eqb (s_link s) []).
  - rewrite <- !app_assoc. rewrite S, strip_text by assumption. now rewrite R.
  - rewrite <- !app_assoc. rewrite strip_link by assumption. rewrite S, strip_text by assumption. rewrite R.
    rewrite strip_link by (cbn; tauto). reflexivity.
Qed.

Lemma width_spans : forall e l, Forall (quiet_span e) l ->
  width_str (flat_map (span_str e) l) = fold_right (fun s n => span_len s + n) 0 l.
Proof.
  intros e l H. unfold width_str. induction H as [|s l Hs Hl IH]; [reflexivity|].
  cbn [flat_map fold_right]. rewrite (span_strip e s _ Hs), zlen_app, IH. reflexivity.
Qed.
Lemma width_one : forall e s, quiet_span e s ->
  width_str (span_str e s) = zlen (s_text s) /\ span_len s = zlen (s_text s) /\ width_span s = zlen (s_text s).
Proof.
  intros e s H. split; [|split; reflexivity].
  pose proof (span_strip e s [] H) as S. rewrite !app_nil_r in S.
  unfold width_str. now rewrite S.
Qed.

(** which colors are calm *)
Lemma dec_calm : forall n, calm (dec n).
Proof. intro n. repeat split; intro I; apply dec_chars in I; lia. Qed.
Lemma lits_calm : calm (lit ";2;") /\ calm (lit ";5;") /\ calm (lit ";").
Proof. unfold calm; cbn; intuition lia. Qed.
Lemma color_calm : forall e c,
  (forall k, c_ctor c = Some k -> startswith (lit "#") k = false -> calm k) -> calm (color_ansi e c).
Proof.
  intros e c H. destruct lits_calm as [L1 [L2 L3]].
  assert (F : forall c, no_ansi_ctor c -> calm (color_ansi e c)).
  { intros c0 H0. rewrite color_ansi_free by assumption. destruct (env_cs e).
    - apply calm_app; [apply dec_calm|]. apply calm_app; [exact L2|apply dec_calm].
    - cbv zeta. apply dec_calm.
    - apply calm_app; [apply dec_calm|]. apply calm_app; [exact L2|apply dec_calm].
    - unfold rgb_seq. apply calm_app; [destruct (c_bg c0); unfold calm; cbn; intuition lia|].
      apply calm_app; [exact L1|]. cbn [join]. repeat apply calm_app; auto; apply dec_calm. }
  destruct (c_ctor c) as [k|] eqn:E.
  - destruct (startswith (lit "#") k) eqn:S.
    + apply F. unfold no_ansi_ctor. now rewrite E.
    + rewrite (ctor_ansi e c k E S). destruct (_ <=? _); [auto|]. apply F. exact I.
  - apply F. unfold no_ansi_ctor. now rewrite E.
Qed.

(** * Mutation *)
Lemma get_set_flag : forall k j v f, get_flag j (set_flag k v f) =
  (if match k, j with
      | FBold, FBold | FDim, FDim | FItalic, FItalic | FUnderline, FUnderline | FBlink, FBlink
      | FFastBlink, FFastBlink | FInvert, FInvert | FConceal, FConceal | FStrike, FStrike
      | FOpaque, FOpaque => true
      | _, _ => false end then v else get_flag j f).
Proof. intros [] [] v []; reflexivity. Qed.

Lemma apply_attr : forall s o a,
  attr_of (apply_mopt s o) a = attr_of s a \/ (named o = (a, attr_of (apply_mopt s o) a)).
Proof.
  intros s o a. destruct o as [| | | |k v|]; destruct a; try (now left); try (right; reflexivity).
  cbn. rewrite get_set_flag. destruct k, k0; try (now left); right; reflexivity.
Qed.
Lemma apply_named : forall s o, attr_of (apply_mopt s o) (fst (named o)) = snd (named o).
Proof. intros s [| | | |k v|]; try reflexivity. cbn. rewrite get_set_flag. now destruct k. Qed.
Lemma apply_other : forall s o a, a <> fst (named o) -> attr_of (apply_mopt s o) a = attr_of s a.
Proof. intros s o a H. destruct (apply_attr s o a) as [E|E]; [exact E|]. rewrite E in H. now cbn in H. Qed.

Lemma fold_mopt : forall opts s a,
  (~ In a (keywords opts) -> attr_of (fold_left apply_mopt opts s) a = attr_of s a) /\
  (forall v, NoDup (keywords opts) -> sets opts a v -> attr_of (fold_left apply_mopt opts s) a = v).
Proof.
  induction opts as [|o opts IH]; intros s a; cbn [fold_left keywords map].
  - split; [reflexivity|]. intros v _ [].
  - destruct (IH (apply_mopt s o) a) as [I1 I2]. split.
    + intro N. cbn in N. rewrite I1 by tauto. apply apply_other. intro. subst. tauto.
    + intros v D S. inversion D as [|? ? D1 D2]; subst. destruct S as [S|S].
      * rewrite I1.
        -- pose proof (apply_named s o) as N. rewrite S in N. exact N.
        -- rewrite S in D1. exact D1.
      * apply I2; auto.
Qed.

Lemma mutate_attrs : forall s opts a, NoDup (keywords opts) ->
  (forall v, sets opts a v -> attr_of (mutate s opts) a = v) /\
  (~ In a (keywords opts) -> a <> AReset -> attr_of (mutate s opts) a = attr_of s a) /\
  (~ In AReset (keywords opts) -> attr_of (mutate s opts) AReset = VBool true).
Proof.
  intros s opts a D. unfold mutate. set (s0 := mkSpan _ _ _ _ _ _).
  destruct (fold_mopt opts s0 a) as [F1 F2]. destruct (fold_mopt opts s0 AReset) as [G1 _].
  split; [intros; now apply F2|]. split.
  - intros N R. rewrite F1 by assumption. destruct a; try reflexivity. congruence.
  - intro N. now rewrite G1.
Qed.

Lemma mutate_text : forall s t, mutate s [MText t] = mkSpan t (s_fg s) (s_bg s) (s_link s) (s_flags s) true.
Proof. reflexivity. Qed.
Lemma mutate_text_style : forall s t, s_reset s = true -> same_style s (mutate s [MText t]).
Proof. intros s t H a Ha. rewrite mutate_text. destruct a; try reflexivity; [congruence|]. cbn. now rewrite H. Qed.

(** * Slices *)
Lemma clamp_bound : forall n i d, 0 <= n -> clamp_index n i = slice_bound n d (Some i).
Proof.
  intros n i d H. unfold clamp_index, slice_bound. cbv zeta.
  destruct (i <? 0); match goal with |- context [if ?a <? 0 then _ else _] => destruct (Z.ltb_spec a 0) end;
    try lia; destruct (Z.ltb_spec n (i + n)); destruct (Z.ltb_spec n i); lia.
Qed.
Lemma bound_range : forall n d o, 0 <= n -> 0 <= d <= n -> 0 <= slice_bound n d o <= n.
Proof. intros. unfold slice_bound. destruct o; [|lia]. destruct (_ <? _); lia. Qed.

Lemma nth_error_firstn : forall A (l : list A) n k, (k < n)%nat -> nth_error (firstn n l) k = nth_error l k.
Proof.
  induction l as [|a l IH]; intros [|n] [|k] H; try reflexivity; try lia. cbn. apply IH. lia.
Qed.
Lemma nth_error_skipn : forall A (l : list A) n k, nth_error (skipn n l) k = nth_error l (n + k).
Proof.
  induction l as [|a l IH]; intros [|n] k; try reflexivity; [now destruct k|]. cbn. apply IH.
Qed.

Lemma slice_spec : forall a b t, is_slice a b t (slice a b t).
Proof.
  intros a b t. unfold is_slice, slice. cbv zeta. pose proof (zlen_nonneg _ t) as Hn.
  assert (Ea : match a with Some i => clamp_index (zlen t) i | None => 0 end = slice_bound (zlen t) 0 a)
    by (destruct a; [now apply clamp_bound|reflexivity]).
  assert (Eb : match b with Some i => clamp_index (zlen t) i | None => zlen t end = slice_bound (zlen t) (zlen t) b)
    by (destruct b; [now apply clamp_bound|reflexivity]).
  rewrite Ea, Eb. pose proof (bound_range (zlen t) 0 a Hn ltac:(lia)) as Ra.
  pose proof (bound_range (zlen t) (zlen t) b Hn ltac:(lia)) as Rb.
  set (lo := slice_bound _ 0 a) in *. set (hi := slice_bound _ _ b) in *. clearbody lo hi.
  assert (L : zlen (firstn (Z.to_nat (hi - lo)) (skipn (Z.to_nat lo) t)) = Z.max 0 (hi - lo)).
  { unfold zlen in *. rewrite firstn_length, skipn_length. lia. }
  split; [exact L|]. intros k Hk. rewrite L in Hk.
  rewrite nth_error_firstn by lia. rewrite nth_error_skipn. f_equal. lia.
Qed.

Lemma slice_cut : forall t i, slice None (Some i) t ++ slice (Some i) None t = t.
Proof.
  intros t i. unfold slice. cbv zeta. pose proof (clamp_range (zlen t) i (zlen_nonneg _ t)) as R.
  set (p := clamp_index (zlen t) i) in *. clearbody p. rewrite Z.sub_0_r. change (Z.to_nat 0) with 0%nat. cbn [skipn].
  rewrite (firstn_all2 (skipn _ _)); [apply firstn_skipn|]. rewrite skipn_length. unfold zlen. lia.
Qed.

Lemma index_spec : forall i s,
  (- zlen (s_text s) <= i < zlen (s_text s) /\
   exists c, nth_error (s_text s) (Z.to_nat (if i <? 0 then i + zlen (s_text s) else i)) = Some c /\
     span_index s i = Ok (mkSpan [c] (s_fg s) (s_bg s) (s_link s) (s_flags s) true)) \/
  (~ (- zlen (s_text s) <= i < zlen (s_text s)) /\ span_index s i = Err IndexError).
Proof.
  intros i s. unfold span_index, index. cbv zeta. pose proof (zlen_nonneg _ (s_text s)) as Hn.
  set (j := if i <? 0 then i + zlen (s_text s) else i).
  assert (J : (j <? 0) || (zlen (s_text s) <=? j) = false <-> - zlen (s_text s) <= i < zlen (s_text s)).
  { rewrite orb_false_iff, Z.ltb_ge, Z.leb_gt. unfold j. destruct (Z.ltb_spec i 0); lia. }
  destruct ((j <? 0) || (zlen (s_text s) <=? j)) eqn:E.
  - right. split; [|reflexivity]. intro C. apply J in C. discriminate.
  - left. split; [now apply J|]. apply orb_false_iff in E. rewrite Z.ltb_ge, Z.leb_gt in E.
    destruct (nth_error (s_text s) (Z.to_nat j)) as [c|] eqn:N.
    + exists c. split; reflexivity.
    + apply nth_error_None in N. unfold zlen in E. lia.
Qed.

Lemma split_spec : forall s sep, sep <> [] ->
  exists parts, span_split s sep = Ok (map (fun p => mkSpan p (s_fg s) (s_bg s) (s_link s) (s_flags s) true) parts) /\
    parts <> [] /\ join sep parts = s_text s /\ Forall (fun p => forall a b, p <> a ++ sep ++ b) parts.
Proof.
  intros s sep H. destruct (split_str_spec sep (s_text s) H) as [H1 [H2 H3]].
  exists (split_str_aux sep (s_text s) 0 []). unfold span_split, split_str.
  destruct sep as [|c sep]; [congruence|]. cbn [bindr]. repeat split; auto.
  revert H2. apply Forall_impl. intros p Hp a b E. subst p.
  assert (contains (c :: sep) (a ++ (c :: sep) ++ b) = true) by (apply contains_app_iff; eauto). congruence.
Qed.


Lemma chars_init_spec : forall t seqs always,
  chars_init seqs always t =
    (match t with
     | [] => []
     | c :: r => (seqs ++ [c]) :: map (fun c => (if always then seqs else []) ++ [c]) r
     end,
     match t with [] => seqs | _ => if always then seqs else [] end).
Proof.
  induction t as [|c t IH]; intros seqs always; [reflexivity|].
  cbn [chars_init]. rewrite IH. destruct always, t; reflexivity.
Qed.


Lemma characters_spec : forall e s ex al,
  let l := get_characters e s ex al in
  List.length l = List.length (s_text s) /\
  forall k c, nth_error (s_text s) k = Some c ->
    nth_error l k = Some (entry (layer_sequences e s ex) (s_reset s) al (List.length (s_text s)) k c).
Proof.
  intros e s ex al. cbv zeta. unfold get_characters. fold (layer_sequences e s ex).
  set (q := layer_sequences e s ex). rewrite chars_init_spec.
  destruct (s_text s) as [|a r] eqn:ET; [split; [reflexivity|intros [|k] c H; discriminate]|].
  destruct (@exists_last _ (a :: r)) as [t [z E]]; [discriminate|]. rewrite E. clear ET E a r.
  rewrite removelast_last, rev_app_distr. cbn [rev app]. rewrite (app_length t). cbn [List.length].
  rewrite Nat.add_1_r. set (n := List.length t).
  match goal with |- context [List.length (?a ++ _)] => set (L := a) end.
  assert (Ln : List.length L = n).
  { unfold L, n. destruct t; [reflexivity|]. cbn. now rewrite map_length. }
  unfold str in *. split; [rewrite app_length, Ln; cbn; lia|].
  intros k c H. unfold entry. rewrite Nat.sub_succ, Nat.sub_0_r.
  destruct (Nat.eqb_spec k n) as [->|N].
  - rewrite nth_error_app2 in H by (unfold n; lia). rewrite nth_error_app2 by lia. rewrite Ln, Nat.sub_diag.
    unfold n in H. rewrite Nat.sub_diag in H. injection H as <-. cbn [nth_error]. f_equal.
    rewrite (andb_comm (s_reset s)). destruct (negb (str_eqb q []) && s_reset s); [|reflexivity].
    unfold n. destruct t; cbn [List.length Nat.eqb]; [now rewrite orb_true_r|]. rewrite orb_false_r. now destruct al.
  - assert (K : (k < n)%nat).
    { assert (k < List.length (t ++ [z]))%nat by (apply nth_error_Some; congruence). rewrite app_length in H0. cbn in H0.
      unfold n in *. lia. }
    rewrite nth_error_app1 in H by exact K. rewrite nth_error_app1 by lia. unfold L. clear L Ln.
    destruct t as [|b t]; [cbn in K; lia|]. destruct k as [|k]; cbn [nth_error Nat.eqb] in *.
    + injection H as <-. now rewrite orb_true_r.
    + rewrite orb_false_r. now rewrite (map_nth_error _ _ _ H).
Qed.

Lemma characters_concat : forall e s ex al,
  let q := layer_sequences e s ex in
  s_text s <> [] -> al = false -> (s_reset s = true \/ (2 <= List.length (s_text s))%nat \/ q = []) ->
  concat (get_characters e s ex al) =
    q ++ s_text s ++ (if s_reset s && negb (str_eqb q []) then RESET else []).
Proof.
  intros e s ex al q Hne Hal H. unfold get_characters. fold (layer_sequences e s ex). fold q.
  rewrite chars_init_spec. subst al.
  destruct (s_text s) as [|a r] eqn:ET; [congruence|].
  destruct (@exists_last _ (a :: r)) as [t [z E]]; [discriminate|]. rewrite E in *. clear ET E a r.
  rewrite removelast_last, rev_app_distr. cbn [rev app]. rewrite concat_app. cbn [concat].
  assert (M : forall l : str, concat (map (fun c => [] ++ [c]) l) = l) by (induction l; cbn in *; congruence).
  destruct t as [|b t].
  - cbn [concat app]. rewrite app_nil_r. rewrite (andb_comm (s_reset s)).
    destruct (str_eqb q []) eqn:Q; cbn [negb andb].
    + apply str_eqb_eq in Q. now rewrite Q.
    + destruct (s_reset s); [reflexivity|]. destruct H as [H|[H|H]]; [discriminate|cbn in H; lia|].
      rewrite H in Q. discriminate.
  - cbn [concat]. rewrite M. rewrite app_nil_r. rewrite (andb_comm (s_reset s)).
    destruct (negb (str_eqb q []) && s_reset s); rewrite <- !app_assoc; cbn [app]; rewrite <- ?app_assoc; reflexivity.
Qed.

(** * Escaping *)
Lemma replace_char : forall c new s, replace [c] new s = flat_map (fun x => if x =? c then new else [x]) s.
Proof.
  intros c new s. unfold replace. induction s as [|x s IH]; [reflexivity|].
  cbn [replace_aux startswith flat_map]. rewrite Z.eqb_sym. destruct (x =? c); cbn [andb].
  - cbn [List.length Nat.sub]. now rewrite IH.
  - now rewrite IH.
Qed.

Lemma flat_map_flat_map : forall A B C (f : A -> list B) (g : B -> list C) l,
  flat_map g (flat_map f l) = flat_map (fun x => flat_map g (f x)) l.
Proof. induction l as [|a l IH]; [reflexivity|]. cbn. now rewrite flat_map_app, IH. Qed.

Lemma escape_entities : forall t, escape_html t = flat_map entity t.
Proof.
  intro t. unfold escape_html, html_escape.
  change (lit "'") with [39]. change (lit """") with [34]. change (lit ">") with [62]. change (lit "<") with [60].
  change (lit "&") with [38]. change (lit " ") with [32].
  rewrite !replace_char, !flat_map_flat_map. apply flat_map_ext. intro c. unfold entity.
  destruct (Z.eqb_spec c 38); [subst; reflexivity|].
  destruct (Z.eqb_spec c 60); [subst; reflexivity|].
  destruct (Z.eqb_spec c 62); [subst; reflexivity|].
  destruct (Z.eqb_spec c 34); [subst; reflexivity|].
  destruct (Z.eqb_spec c 39); [subst; reflexivity|].
  destruct (Z.eqb_spec c 32); [subst; reflexivity|].
  assert (N : forall k, k <> c -> forall new : str, (if c =? k then new else [c]) = [c]).
  { intros k K new. destruct (Z.eqb_spec c k); [congruence|reflexivity]. }
  cbn [flat_map app].
  repeat (rewrite ?N by lia; cbn [flat_map app]). reflexivity.
Qed.

Lemma escape_safe : forall t c, In c (escape_html t) -> ~ In c [60; 62; 34; 39; 32].
Proof.
  intros t c H. rewrite escape_entities in H. apply in_flat_map in H. destruct H as [x [_ H]].
  unfold entity in H.
  destruct (x =? 38); [cbn in *; intuition lia|]. destruct (Z.eqb_spec x 60); [cbn in *; intuition lia|].
  destruct (Z.eqb_spec x 62); [cbn in *; intuition lia|]. destruct (Z.eqb_spec x 34); [cbn in *; intuition lia|].
  destruct (Z.eqb_spec x 39); [cbn in *; intuition lia|]. destruct (Z.eqb_spec x 32); [cbn in *; intuition lia|].
  destruct H as [<-|[]]. cbn. intuition lia.
Qed.


Lemma entity_cases : forall c, (c <> 38 /\ entity c = [c]) \/ (In (entity c) entities).
Proof.
  intro c. unfold entity, entities.
  destruct (Z.eqb_spec c 38); [right; cbn; auto|]. destruct (c =? 60); [right; cbn; auto|].
  destruct (c =? 62); [right; cbn; auto|]. destruct (c =? 34); [right; cbn; auto 10|].
  destruct (c =? 39); [right; cbn; auto 10|]. destruct (c =? 32); [right; cbn; auto 10|]. now left.
Qed.

Lemma entities_amp : forall u, In u entities -> exists v, u = 38 :: v /\ ~ In 38 v.
Proof.
  intros u H. cbn in H. repeat (destruct H as [H|H]); subst; try contradiction;
    eexists; (split; [reflexivity|cbn; intuition lia]).
Qed.

Lemma escape_amp : forall t p q, escape_html t = p ++ 38 :: q ->
  exists u r, In (38 :: u) entities /\ q = u ++ r.
Proof.
  intro t. rewrite escape_entities. induction t as [|c t IH]; intros p q H; [destruct p; discriminate|].
  cbn [flat_map] in H. destruct (entity_cases c) as [[N E]|E].
  - rewrite E in H. destruct p as [|x p]; cbn in H.
    + injection H as H _. congruence.
    + injection H as _ H. eapply IH. exact H.
  - destruct (entities_amp _ E) as [v [Ev Nv]]. rewrite Ev in H, E.
    destruct p as [|x p]; cbn in H.
    + injection H as H. exists v, (flat_map entity t). auto.
    + injection H as _ H.
      assert (exists p', p = v ++ p' /\ flat_map entity t = p' ++ 38 :: q) as [p' [_ H']].
      { clear - H Nv. revert p H. induction v as [|y v IHv]; intros p H.
        - exists p. auto.
        - destruct p as [|x p]; cbn in H.
          + injection H as H _. cbn in Nv. exfalso. apply Nv. auto.
          + injection H as -> H. cbn in Nv. destruct (IHv ltac:(tauto) p H) as [p' [-> E]]. exists p'. auto. }
      eapply IH. exact H'.
Qed.

(** no entity is the beginning of another *)
Lemma entity_prefix : forall c d r r', entity c ++ r = entity d ++ r' -> c = d /\ r = r'.
Proof.
  intros c d r r' H. unfold entity in H.
  repeat match type of H with
         | context [if c =? ?k then _ else _] => destruct (Z.eqb_spec c k)
         | context [if d =? ?k then _ else _] => destruct (Z.eqb_spec d k)
         end; subst; cbn in H; try (injection H; intros; subst; auto; lia); try discriminate;
  try (injection H; intros; congruence).
Qed.
Lemma escape_inj : forall a b, escape_html a = escape_html b -> a = b.
Proof.
  intros a b. rewrite !escape_entities. revert b. induction a as [|c a IH]; intros [|d b] H.
  - reflexivity.
  - exfalso. cbn in H. destruct (entity_cases d) as [[_ E]|E]; [rewrite E in H; discriminate|].
    destruct (entities_amp _ E) as [v [Ev _]]. rewrite Ev in H. discriminate.
  - exfalso. cbn in H. destruct (entity_cases c) as [[_ E]|E]; [rewrite E in H; discriminate|].
    destruct (entities_amp _ E) as [v [Ev _]]. rewrite Ev in H. discriminate.
  - cbn in H. apply entity_prefix in H. destruct H as [-> H]. f_equal. auto.
Qed.
