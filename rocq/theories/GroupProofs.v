(** Lemmas for Span.group (C24). *)
From Coq Require Import ZArith List Bool String Lia.
From Verif Require Import PyBase F64 SpaceModel ColorTab ColorModel ColorSpec AnsiRe SpanModel Vt PyLemmas SplitLemmas FloatLemmas
  ColorProofs ColorProofs2 SpaceSpec SpaceProofs PaletteSpec PaletteProofs KeyProofs SpanSpec SpanProofs SpanProofs2 ParseProofs
  ParseProofs2 ParseProofs3.
Open Scope Z_scope.

Lemma flags_ext : forall f g, (forall k, get_flag k f = get_flag k g) -> f = g.
Proof.
  intros f g H. pose proof (H FBold). pose proof (H FDim). pose proof (H FItalic). pose proof (H FUnderline).
  pose proof (H FBlink). pose proof (H FFastBlink). pose proof (H FInvert). pose proof (H FConceal).
  pose proof (H FStrike). pose proof (H FOpaque). clear H.
  destruct f, g. cbn in *. congruence.
Qed.
Lemma flags_eqb_iff : forall f g, flags_eqb f g = true <-> f = g.
Proof.
  intros f g. unfold flags_eqb. split.
  - intro H. rewrite forallb_forall in H. apply flags_ext. intro k. apply eqb_prop. apply H.
    destruct k; cbn; auto 20.
  - intros ->. apply forallb_forall. intros k _. apply eqb_reflx.
Qed.
Lemma plain_flags_eq : forall f, plain_flags f -> f = no_flags.
Proof. intros f H. apply flags_ext. intro k. rewrite H. destruct k; reflexivity. Qed.
Lemma plain_existsb : forall f, existsb (fun k => get_flag k f) all_flags = false <-> plain_flags f.
Proof.
  intro f. split.
  - intros H k. destruct (get_flag k f) eqn:G; [|reflexivity]. rewrite <- H. symmetry. apply existsb_exists.
    exists k. split; [destruct k; cbn; auto 20|exact G].
  - intro H. rewrite (plain_flags_eq f H). reflexivity.
Qed.

Lemma code_inj : forall j k, code j = code k -> j = k.
Proof. intros [] []; intro H; reflexivity || discriminate H. Qed.
Lemma in_codes : forall f k, In (code k) (codes f) <-> get_flag k f = true.
Proof.
  intros f k. unfold codes. rewrite in_map_iff. split.
  - intros [j [E I]]. apply filter_In in I. apply code_inj in E. subst. tauto.
  - intro G. exists k. split; [reflexivity|]. apply filter_In. split; [destruct k; cbn; auto 20|exact G].
Qed.
Lemma codes_inj : forall f g, codes f = codes g -> f = g.
Proof.
  intros f g H. apply flags_ext. intro k. apply eq_true_iff_eq. rewrite <- !in_codes. now rewrite H.
Qed.
Lemma codes_nonneg : forall f, Forall (fun n => 0 <= n) (codes f).
Proof. intro f. unfold codes. rewrite Forall_map. apply Forall_forall. intros [] _; cbn; lia. Qed.
Lemma sgr_text_inj : forall a b, Forall (fun n => 0 <= n) a -> Forall (fun n => 0 <= n) b -> sgr_text a = sgr_text b -> a = b.
Proof.
  intros a b Ha Hb E. destruct a as [|x a]; destruct b as [|y b]; [reflexivity| | |].
  - exfalso. destruct (sgr_text_params (y :: b) Hb) as [_ [_ N]]; [discriminate|]. rewrite <- E in N. now elim N.
  - exfalso. destruct (sgr_text_params (x :: a) Ha) as [_ [_ N]]; [discriminate|]. rewrite E in N. now elim N.
  - destruct (sgr_text_params (x :: a) Ha) as [P _]; [discriminate|].
    destruct (sgr_text_params (y :: b) Hb) as [Q _]; [discriminate|]. congruence.
Qed.
Lemma colorless_inj : forall f g, colorless_body f = colorless_body g -> f = g.
Proof.
  intros f g H. rewrite !colorless_codes in H. apply codes_inj. apply sgr_text_inj; auto using codes_nonneg.
Qed.

(** * Cells *)
(** the text stored for a character *)
Definition cell_text (ch : Z) (f : flags) (rst : bool) : str :=
  span_str {| env_cs := TRUE_COLOR; env_pow := fun _ _ => fone |} (mkSpan [ch] None None [] f rst).

Lemma total_colorless : forall e t f l r, total_body e (mkSpan t None None l f r) = colorless_body f.
Proof.
  intros. unfold total_body. cbn [s_fg s_bg s_flags opt_list map app join]. cbv zeta. rewrite zlen_nil.
  destruct (colorless_body f); reflexivity.
Qed.

Lemma uncolored_str : forall e ch f rst, span_str e (mkSpan [ch] None None [] f rst) =
  csi_or_empty (colorless_body f) ++ [ch] ++ (if rst && negb (str_eqb (colorless_body f) []) then RESET else []).
Proof.
  intros. unfold span_str, span_sequences. rewrite total_colorless. cbn [s_text s_reset s_link str_eqb]. cbv zeta.
  do 4 f_equal. destruct (colorless_body f); reflexivity.
Qed.

Lemma stored_text : forall ch f fg bg rst t fg' bg', stored (ch, f, fg, bg, rst) (t, fg', bg') ->
  fg' = fg /\ bg' = bg /\ t = cell_text ch f rst.
Proof.
  intros ch f fg bg rst t fg' bg' [H1 [H2 H3]]. split; [exact H1|]. split; [exact H2|].
  unfold cell_text. rewrite uncolored_str. destruct H3 as [[P ->]|[P [b [Eb ->]]]].
  - rewrite (plain_flags_eq f P). cbn. now rewrite andb_false_r.
  - rewrite <- colorless_join in Eb. subst b. rewrite <- plain_existsb, <- colorless_nil in P.
    destruct (colorless_body f) as [|x b]; [now elim P|]. unfold csi_or_empty, csi_m. cbn [str_eqb negb].
    rewrite andb_true_r. rewrite <- !app_assoc. reflexivity.
Qed.

Lemma cell_parsed : forall ch f rst, fl_opaque f = false -> ch <> 27 ->
  first_from (cell_text ch f rst) = Ok (Some (mkSpan [ch] None None [] f true)).
Proof.
  intros ch f rst Ho Hc. unfold cell_text. set (e := {| env_cs := TRUE_COLOR; env_pow := fun _ _ => fone |}).
  destruct (parse_printed e (mkSpan [ch] None None [] f rst) None None I I Ho eq_refl) as [s' [Y [T L]]].
  { split; [discriminate|]. cbn [s_text]. intros [E|[]]. congruence. }
  unfold first_from. rewrite Y. do 2 f_equal. destruct s' as [t fg bg l g r]. cbn [s_text] in T. subst t.
  unfold looks_like in L. cbn [s_fg s_bg s_flags s_link s_reset styled rend0 r_fg r_bg r_bold r_dim r_italic r_underline
    r_blink r_rapid r_inverse r_conceal r_strike] in L. rewrite ?orb_false_r in L. cbv zeta in L.
  destruct L as [L1 [L2 [L3 [L4 [L5 [L6 [L7 [L8 [L9 [L10 [L11 [L12 [L13 L14]]]]]]]]]]]]]. subst l r.
  destruct fg as [c|]; [destruct L1 as [_ [_ [_ []]]]|]. destruct bg as [c|]; [destruct L2 as [_ [_ [_ []]]]|].
  f_equal. destruct f, g. cbn in *. subst. reflexivity.
Qed.

(** [t] is the printed form (without reset) of a first cell exactly for an equal cell without color *)
Lemma text_tail : forall (a b : str) (x y : Z), a ++ [x] = b ++ [y] -> a = b /\ x = y.
Proof. intros a b x y H. now apply app_inj_tail. Qed.

Lemma printed_cell : forall b c ch f rst, csi_or_empty b ++ [c] = cell_text ch f rst ->
  c <> 27 -> b = colorless_body f /\ c = ch.
Proof.
  intros b c ch f rst H Hc. unfold cell_text in H. rewrite uncolored_str in H.
  destruct (rst && negb (str_eqb (colorless_body f) [])) eqn:R.
  - exfalso. apply andb_true_iff in R. destruct R as [_ R]. destruct (colorless_body f) as [|x d] eqn:C; [discriminate|].
    unfold csi_or_empty at 2 in H. unfold RESET, csi_m in H. cbn [lit] in H.
    assert (E : csi_or_empty b ++ [c] = (([27; 91] ++ (x :: d) ++ [109]) ++ [ch] ++ [27; 91; 48]) ++ [109]).
    { rewrite H. unfold ESC. rewrite <- !app_assoc. reflexivity. }
    apply text_tail in E. destruct E as [E _]. destruct b as [|y b]; [discriminate|].
    unfold csi_or_empty, csi_m in E.
    assert (E2 : ([27; 91] ++ (y :: b)) ++ [109] = (([27; 91] ++ (x :: d) ++ [109]) ++ [ch] ++ [27; 91]) ++ [48]).
    { unfold ESC in E. rewrite <- !app_assoc in E. rewrite <- !app_assoc. exact E. }
    apply text_tail in E2. destruct E2 as [_ E2]. discriminate.
  - rewrite app_nil_r in H. apply text_tail in H. destruct H as [H ->]. split; [|reflexivity].
    unfold csi_or_empty in H. destruct b as [|y b]; destruct (colorless_body f) as [|x d] eqn:C; try reflexivity; try discriminate.
    unfold csi_m in H. injection H as H1 H2. apply text_tail in H2. destruct H2 as [H2 _]. congruence.
Qed.

(** * The loop *)
Definition style_of (s : span) : flags * option color * option color := (s_flags s, s_fg s, s_bg s).

Lemma opt_color_eqb_iff : forall a b, opt_color_eqb a b = true <-> eq_color a b.
Proof.
  intros [a|] [b|]; cbn; try (split; [discriminate|contradiction]); [|tauto].
  unfold color_eqb. rewrite andb_true_iff, triple_eqb_iff. tauto.
Qed.
Lemma style_eqb_iff : forall a b, s_link a = [] -> s_link b = [] -> (style_attrs_eqb a b = true <-> same_look a b).
Proof.
  intros a b Ha Hb. unfold style_attrs_eqb, same_look. rewrite Ha, Hb. rewrite !andb_true_iff, !opt_color_eqb_iff, flags_eqb_iff.
  cbn [str_eqb]. tauto.
Qed.

(** first parameter of a colored span *)
Lemma color_text_first : forall bg x k, color_text bg x k -> exists n ps, k = sgr_text (n :: ps) /\ Forall (fun n => 0 <= n) (n :: ps) /\ 9 < n /\ n <> 99.
Proof.
  intros bg x k [ps [H ->]]. pose proof (color_params_nonneg _ _ _ H) as [N _]. unfold color_params in H. cbv zeta in H.
  destruct x as [|n|r g b]; [contradiction| |].
  - destruct H as [[R ->]|[[R ->]|[R ->]]]; (eexists; eexists; split; [reflexivity|]; split; [exact N|]; destruct bg; lia).
  - destruct H as [_ ->]. eexists; eexists. split; [reflexivity|]. split; [exact N|]. destruct bg; lia.
Qed.

Lemma first_param : forall n ps more, exists qs, sgr_text (n :: ps) ++ more = dec n ++ qs /\
  (qs = more \/ exists r, qs = 59 :: r).
Proof.
  intros n ps more. unfold sgr_text. destruct ps as [|m ps].
  - cbn [map join]. exists more. auto.
  - cbn [map]. rewrite join_cons. eexists. split; [|right]; [rewrite <- app_assoc; reflexivity|]. eexists. reflexivity.
Qed.

Lemma codes_small : forall f n, In n (codes f) -> n <= 9 \/ n = 99.
Proof. intros f n H. unfold codes in H. apply in_map_iff in H. destruct H as [[] [<- _]]; cbn; lia. Qed.

Lemma colored_total : forall e s, (exists c, s_fg s = Some c \/ s_bg s = Some c) -> regular e (s_fg s) -> regular e (s_bg s) ->
  forall f, total_body e s <> colorless_body f.
Proof.
  intros e s Hc Rf Rb f E.
  assert (D : exists n ps, total_body e s = sgr_text (n :: ps) /\ Forall (fun n => 0 <= n) (n :: ps) /\ 9 < n /\ n <> 99).
  { assert (APP : forall n ps k, Forall (fun n => 0 <= n) (n :: ps) -> 9 < n /\ n <> 99 ->
       (k = [] \/ exists qs, k = lit ";" ++ sgr_text qs /\ qs <> [] /\ Forall (fun n => 0 <= n) qs) ->
       exists n' ps', sgr_text (n :: ps) ++ k = sgr_text (n' :: ps') /\ Forall (fun n => 0 <= n) (n' :: ps') /\ 9 < n' /\ n' <> 99).
    { intros n ps k N R [->|[qs [-> [Q1 Q2]]]].
      - rewrite app_nil_r. eauto.
      - exists n, (ps ++ qs). change (n :: ps ++ qs) with ((n :: ps) ++ qs). split; [|split; [apply Forall_app; auto|exact R]].
        symmetry. apply sgr_text_app; [discriminate|exact Q1]. }
    assert (FL : colorless_body (s_flags s) = [] \/ (codes (s_flags s) <> [] /\ colorless_body (s_flags s) <> [])).
    { rewrite colorless_codes. destruct (codes (s_flags s)) eqn:C; [left; reflexivity|right]. split; [discriminate|].
      rewrite <- C. apply sgr_text_params; [apply codes_nonneg|rewrite C; discriminate]. }
    assert (FIN : forall n ps, Forall (fun n => 0 <= n) (n :: ps) -> 9 < n /\ n <> 99 ->
       exists n' ps', (match colorless_body (s_flags s) with
         | [] => sgr_text (n :: ps)
         | c => sgr_text (n :: ps) ++ (if zlen (sgr_text (n :: ps)) =? 0 then [] else lit ";") ++ colorless_body (s_flags s)
         end) = sgr_text (n' :: ps') /\ Forall (fun n => 0 <= n) (n' :: ps') /\ 9 < n' /\ n' <> 99).
    { intros n ps N R. destruct FL as [FL|[FL1 FL2]].
      - rewrite FL. eauto.
      - destruct (colorless_body (s_flags s)) as [|c cs] eqn:C; [congruence|].
        assert (ZL : zlen (sgr_text (n :: ps)) =? 0 = false).
        { apply Z.eqb_neq. destruct (sgr_text_params (n :: ps) N) as [_ [_ X]]; [discriminate|].
          destruct (sgr_text (n :: ps)) as [|z0 l0]; [congruence|]. rewrite zlen_cons. pose proof (zlen_nonneg _ l0). lia. }
        rewrite ZL. apply APP; auto. right. exists (codes (s_flags s)). rewrite <- C, colorless_codes.
        split; [reflexivity|]. split; [exact FL1|apply codes_nonneg]. }
    unfold total_body. cbv zeta.
    destruct (s_fg s) as [a|] eqn:Ea.
    - destruct (Rf a eq_refl) as [x X]. destruct (color_text_first _ _ _ X) as [n [ps [Ka [N R]]]].
      destruct (s_bg s) as [b|] eqn:Eb.
      + destruct (Rb b eq_refl) as [y Y]. destruct (color_text_first _ _ _ Y) as [m [qs [Kb [M S]]]].
        cbn [opt_list map app]. rewrite join_cons. cbn [join]. rewrite Ka, Kb.
        destruct (APP n ps (59 :: sgr_text (m :: qs)) N R) as [n' [ps' [E1 [E2 E3]]]].
        { right. exists (m :: qs). split; [reflexivity|]. split; [discriminate|exact M]. }
        unfold str in *. change (lit ";" ++ sgr_text (m :: qs)) with (59 :: sgr_text (m :: qs)).
        rewrite E1. apply FIN; auto.
      + cbn [opt_list map app join]. rewrite Ka. apply FIN; auto.
    - destruct (s_bg s) as [b|] eqn:Eb.
      + destruct (Rb b eq_refl) as [y Y]. destruct (color_text_first _ _ _ Y) as [m [qs [Kb [M S]]]].
        cbn [opt_list map app join]. rewrite Kb. apply FIN; auto.
      + destruct Hc as [c [Hc|Hc]]; discriminate. }
  destruct D as [n [ps [T [N [R1 R2]]]]]. rewrite T, colorless_codes in E.
  apply sgr_text_inj in E; [|exact N|apply codes_nonneg].
  destruct (codes_small f n) as [S|S]; [rewrite <- E; now left|lia|lia].
Qed.

Lemma eq_color_sym : forall a b, eq_color a b -> eq_color b a.
Proof. intros [a|] [b|]; cbn; auto. rewrite feqb_sym. intuition. Qed.
Lemma same_look_sym : forall a b, same_look a b -> same_look b a.
Proof. unfold same_look. intros a b [H1 [H2 H3]]. auto using eq_color_sym. Qed.

Definition dressed (f : flags) (fg bg : option color) (u : str) : list (Z * flags * option color * option color) :=
  map (fun c => (c, f, fg, bg)) u.
Lemma letters_text : forall s, letters s = dressed (s_flags s) (s_fg s) (s_bg s) (s_text s).
Proof. reflexivity. Qed.


Definition prev_ok (e : env) (attrs : span) (prev : str) (rest : list scell) : Prop :=
  prev = [] \/
  exists c r mid, c <> 27 /\ prev = csi_or_empty (total_body e attrs) ++ [c] /\
    (s_fg attrs = None -> s_bg attrs = None -> Forall (fun x => cell_flags x = s_flags attrs /\ uncolored x) mid) /\
    no_clash ((c, s_flags attrs, s_fg attrs, s_bg attrs, r) :: mid ++ rest).

Lemma no_clash_tail : forall c l, no_clash (c :: l) -> no_clash l.
Proof. intros c l H a x mid d b E. apply (H (c :: a) x mid d b). now rewrite E. Qed.

Lemma prev_ok_step : forall e attrs prev d rest,
  (s_fg attrs = None -> s_bg attrs = None -> cell_flags d = s_flags attrs /\ uncolored d) ->
  prev_ok e attrs prev (d :: rest) -> prev_ok e attrs prev rest.
Proof.
  intros e attrs prev d rest H [P|[c [r [mid [P1 [P2 [P3 P4]]]]]]]; [now left|right].
  exists c, r, (mid ++ [d]). split; [exact P1|]. split; [exact P2|]. split.
  - intros A B. apply Forall_app. split; [auto|]. constructor; [auto|constructor].
  - rewrite <- app_assoc. exact P4.
Qed.

Lemma index_last : forall (t : str) c, index (-1) (t ++ [c]) = Ok [c].
Proof.
  intros t c. unfold index. cbv zeta. rewrite zlen_app. change (zlen [c]) with 1.
  pose proof (zlen_nonneg _ t). destruct (Z.ltb_spec (-1) 0); [|lia].
  destruct (Z.ltb_spec (-1 + (zlen t + 1)) 0); [lia|]. cbn [orb].
  destruct (Z.leb_spec (zlen t + 1) (-1 + (zlen t + 1))); [lia|].
  replace (Z.to_nat (-1 + (zlen t + 1))) with (List.length t) by (unfold zlen; lia).
  rewrite nth_error_app2 by lia. now rewrite Nat.sub_diag.
Qed.

Definition keeps (g h : span) : Prop :=
  s_flags h = s_flags g /\ s_fg h = s_fg g /\ s_bg h = s_bg g.

Lemma mutate_colors : forall s fg bg, mutate s [MFg fg; MBg bg] = mkSpan (s_text s) fg bg (s_link s) (s_flags s) true.
Proof. reflexivity. Qed.

Lemma total_style : forall e a b, s_flags a = s_flags b -> s_fg a = s_fg b -> s_bg a = s_bg b -> total_body e a = total_body e b.
Proof. intros e a b H1 H2 H3. unfold total_body. now rewrite H1, H2, H3. Qed.

Lemma group_loop_spec : forall e scells row attrs g prev,
  Forall2 stored scells row -> Forall (scell_ok e) scells ->
  regular e (s_fg attrs) -> regular e (s_bg attrs) -> s_link attrs = [] ->
  keeps attrs g -> s_link g = [] -> s_text g <> [] -> s_reset g = true ->
  prev_ok e attrs prev scells -> no_clash scells ->
  exists h t u, group_loop e row g false attrs prev = Ok (h :: t) /\
    keeps g h /\ s_text h = s_text g ++ u /\
    Forall good_group (h :: t) /\ maximal (h :: t) /\
    Forall2 carries (dressed (s_flags g) (s_fg g) (s_bg g) u ++ flat_map letters t) scells.
Proof.
  intros e scells. induction scells as [|d scells IH]; intros row attrs g prev ST OK Rf Rb La K Lg Tg Rg P NC.
  { inversion ST; subst. exists g, [], []. split; [reflexivity|]. split; [repeat split|].
    rewrite app_nil_r. split; [reflexivity|]. split; [constructor; [split; auto|constructor]|].
    split; [exact I|]. constructor. }
  inversion ST as [|? c ? row' S1 S2]; subst. inversion OK as [|? ? O1 O2]; subst.
  destruct d as [[[[ch f] fg] bg] rst]. destruct c as [[t fg'] bg'].
  destruct (stored_text _ _ _ _ _ _ _ _ S1) as [-> [-> ->]].
  destruct O1 as [C27 [Op [Rfg Rbg]]]. cbn [group_loop].
  destruct K as [K1 [K2 K3]].
  destruct (str_eqb (cell_text ch f rst) prev) eqn:E.
  - apply str_eqb_eq in E.
    destruct P as [P|[c0 [r0 [mid [P1 [P2 [P3 P4]]]]]]].
    { exfalso. rewrite P in E. unfold cell_text in E. rewrite uncolored_str in E.
      apply app_eq_nil in E. destruct E as [_ E]. discriminate. }
    rewrite P2 in E. symmetry in E.
    destruct (printed_cell _ _ _ _ _ E P1) as [Q1 Q2]. subst c0.
    assert (U : s_fg attrs = None /\ s_bg attrs = None).
    { destruct (s_fg attrs) as [a|] eqn:A; [exfalso; apply (colored_total e attrs) in Q1; auto; [rewrite A; eauto|now rewrite A]|].
      destruct (s_bg attrs) as [b|] eqn:B; [exfalso; apply (colored_total e attrs) in Q1; auto; [eauto|now rewrite A|now rewrite B]|]. auto. }
    destruct U as [U1 U2].
    assert (F : s_flags attrs = f).
    { apply colorless_inj. rewrite <- Q1. destruct attrs as [at1 at2 at3 at4 at5 at6]. cbn in U1, U2. subst. symmetry. apply total_colorless. }
    assert (UD : uncolored (ch, f, fg, bg, rst)).
    { apply (P4 [] (ch, s_flags attrs, s_fg attrs, s_bg attrs, r0) mid (ch, f, fg, bg, rst) scells).
      - reflexivity.
      - cbn. auto.
      - cbn [cell_flags]. auto.
      - reflexivity.
      - cbn. auto. }
    rewrite <- E. rewrite index_last. cbn [bindr].
    rewrite mutate_text.
    destruct (IH row' attrs (mkSpan (s_text g ++ [ch]) (s_fg g) (s_bg g) (s_link g) (s_flags g) true) prev) as [h [t [u H]]]; auto.
    + repeat split; assumption.
    + cbn [s_text]. destruct (s_text g); discriminate.
    + apply (prev_ok_step e attrs prev (ch, f, fg, bg, rst)); [intros _ _; split; [cbn; auto|exact UD]|].
      right. exists ch, r0, mid. auto.
    + now apply no_clash_tail in NC.
    + destruct H as [H1 [H2 [H3 [H4 [H5 H6]]]]]. rewrite P2. rewrite P2 in H1.
      exists h, t, (ch :: u). split; [exact H1|]. split; [exact H2|]. split; [cbn [s_text] in H3; rewrite H3, <- app_assoc; reflexivity|].
      split; [exact H4|]. split; [exact H5|]. cbn [dressed map app]. constructor; [|exact H6].
      destruct UD as [-> ->]. cbn. rewrite K1, K2, K3, U1, U2. auto.
  - rewrite cell_parsed by assumption. cbn [bindr]. rewrite mutate_colors. cbn [s_text s_link s_flags].
    set (sp := mkSpan [ch] fg bg [] f true).
    destruct (style_attrs_eqb sp attrs) eqn:SA.
    + apply style_eqb_iff in SA; [|reflexivity|exact La]. destruct SA as [A1 [A2 A3]]. cbn [s_flags s_fg s_bg sp] in A1, A2, A3.
      rewrite mutate_text.
      destruct (IH row' attrs (mkSpan (s_text g ++ [ch]) (s_fg g) (s_bg g) (s_link g) (s_flags g) true) prev) as [h [t [u H]]]; auto.
      * repeat split; assumption.
      * cbn [s_text]. destruct (s_text g); discriminate.
      * apply (prev_ok_step e attrs prev (ch, f, fg, bg, rst)); [|exact P]. intros U1 U2. split; [exact A1|].
        rewrite U1 in A2. rewrite U2 in A3. cbn. destruct fg; [contradiction|]. destruct bg; [contradiction|]. auto.
      * now apply no_clash_tail in NC.
      * destruct H as [H1 [H2 [H3 [H4 [H5 H6]]]]].
        exists h, t, (ch :: u). split; [exact H1|]. split; [exact H2|]. split; [cbn [s_text] in H3; rewrite H3, <- app_assoc; reflexivity|].
        split; [exact H4|]. split; [exact H5|]. cbn [dressed map app]. constructor; [|exact H6].
        cbn. rewrite K1, K2, K3. split; [reflexivity|]. split; [auto|]. auto using eq_color_sym.
    + assert (N : ~ same_look sp attrs).
      { intro L. apply (style_eqb_iff sp attrs eq_refl La) in L. congruence. }
      destruct (IH row' sp sp (span_str e (mutate sp [MReset false]))) as [h [t [u H]]]; auto.
      * repeat split.
      * discriminate.
      * right. exists ch, rst, []. split; [exact C27|]. split.
        -- unfold span_str. cbn [s_link s_text s_reset mutate fold_left apply_mopt sp str_eqb andb]. cbv zeta. rewrite app_nil_r.
           unfold span_sequences. do 2 f_equal.
        -- split; [constructor|]. exact NC.
      * now apply no_clash_tail in NC.
      * destruct H as [H1 [H2 [H3 [H4 [H5 H6]]]]]. cbn [s_text sp] in H3.
        exists g, (h :: t), []. unfold sp in H1 at 1. fold sp in H1. rewrite H1. cbn [bindr]. split; [reflexivity|].
        split; [repeat split|]. split; [now rewrite app_nil_r|].
        split; [constructor; [split; auto|exact H4]|].
        split.
        -- split; [|exact H5]. intro L. apply N. destruct H2 as [h1 [h2 h3]]. unfold same_look in *.
           rewrite h1, h2, h3, K1, K2, K3 in L. destruct L as [L1 [L2 L3]]. auto using eq_color_sym.
        -- cbn [dressed map app flat_map]. unfold letters at 1. rewrite H3. cbn [map app].
           destruct H2 as [h1 [h2 h3]]. rewrite h1, h2, h3. constructor; [cbn; auto|].
           fold (dressed (s_flags sp) (s_fg sp) (s_bg sp) u). exact H6.
Qed.

Lemma group_spec : forall e scells row, Forall2 stored scells row -> Forall (scell_ok e) scells -> no_clash scells -> scells <> [] ->
  exists gs, group e row = Ok gs /\ gs <> [] /\ Forall good_group gs /\ maximal gs /\
    Forall2 carries (flat_map letters gs) scells.
Proof.
  intros e scells row ST OK NC N. destruct scells as [|d scells]; [congruence|].
  inversion ST as [|? c ? row' S1 S2]; subst. inversion OK as [|? ? O1 O2]; subst.
  destruct d as [[[[ch f] fg] bg] rst]. destruct c as [[t fg'] bg'].
  destruct (stored_text _ _ _ _ _ _ _ _ S1) as [-> [-> ->]].
  destruct O1 as [C27 [Op [Rfg Rbg]]]. unfold group. cbn [group_loop].
  assert (E : str_eqb (cell_text ch f rst) [] = false).
  { unfold cell_text. rewrite uncolored_str. destruct (str_eqb _ []) eqn:X; [|reflexivity]. apply str_eqb_eq in X.
    apply app_eq_nil in X. destruct X as [_ X]. discriminate. }
  rewrite E. rewrite cell_parsed by assumption. cbn [bindr]. rewrite mutate_colors. cbn [s_text s_link s_flags].
  set (sp := mkSpan [ch] fg bg [] f true).
  assert (FIN : forall h t u sp', s_text sp' = [ch] -> s_flags sp' = f -> (s_fg sp' = fg \/ eq_color (s_fg sp') fg) ->
     (s_bg sp' = bg \/ eq_color (s_bg sp') bg) -> keeps sp' h -> s_text h = s_text sp' ++ u ->
     Forall2 carries (dressed (s_flags sp') (s_fg sp') (s_bg sp') u ++ flat_map letters t) scells ->
     Forall2 carries (flat_map letters (h :: t)) ((ch, f, fg, bg, rst) :: scells)).
  { intros h t u sp' A B C D [H1 [H2 H3]] H4 H5. cbn [flat_map]. unfold letters at 1. rewrite H4, H1, H2, H3, A. cbn [map app].
    constructor; [cbn; auto|]. exact H5. }
  destruct (style_attrs_eqb sp EMPTY_SPAN) eqn:SA.
  - apply style_eqb_iff in SA; [|reflexivity|reflexivity]. destruct SA as [A1 [A2 A3]]. cbn [s_flags s_fg s_bg sp EMPTY_SPAN plain_span] in A1, A2, A3.
    destruct fg; [contradiction|]. destruct bg; [contradiction|]. subst f.
    destruct (group_loop_spec e scells row' EMPTY_SPAN (mutate EMPTY_SPAN [MText [ch]]) []) as [h [t [u H]]]; auto.
    + repeat split.
    + discriminate.
    + now left.
    + now apply no_clash_tail in NC.
    + destruct H as [H1 [H2 [H3 [H4 [H5 H6]]]]]. exists (h :: t). split; [exact H1|]. split; [discriminate|].
      split; [exact H4|]. split; [exact H5|].
      apply (FIN h t u (mutate EMPTY_SPAN [MText [ch]])); auto.
  - destruct (group_loop_spec e scells row' sp sp (span_str e (mutate sp [MReset false]))) as [h [t [u H]]]; auto.
    + repeat split.
    + discriminate.
    + right. exists ch, rst, []. split; [exact C27|]. split.
      * unfold span_str. cbn [s_link s_text s_reset mutate fold_left apply_mopt sp str_eqb andb]. cbv zeta. rewrite app_nil_r.
        unfold span_sequences. do 2 f_equal.
      * split; [constructor|]. exact NC.
    + now apply no_clash_tail in NC.
    + destruct H as [H1 [H2 [H3 [H4 [H5 H6]]]]]. rewrite H1. cbn [bindr]. exists (h :: t). split; [reflexivity|]. split; [discriminate|].
      split; [exact H4|]. split; [exact H5|]. apply (FIN h t u sp); auto.
Qed.

Lemma no_clash_colored : forall row, Forall (fun c => ~ uncolored c) row -> no_clash row.
Proof.
  intros row H a c mid d b E U. exfalso. rewrite E in H. apply Forall_app in H. destruct H as [_ H]. inversion H; contradiction.
Qed.
Lemma no_clash_plain : forall row, Forall uncolored row -> no_clash row.
Proof.
  intros row H a c mid d b E _ _ _ _. rewrite E in H. apply Forall_app in H. destruct H as [_ H]. inversion H as [|? ? _ H2]; subst.
  apply Forall_app in H2. destruct H2 as [_ H2]. inversion H2; assumption.
Qed.
