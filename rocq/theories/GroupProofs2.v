(** Span.group: what is kept of any row (C24_exact). *)
From Coq Require Import ZArith List Bool String Lia.
From Verif Require Import PyBase F64 SpaceModel ColorTab ColorModel ColorSpec AnsiRe SpanModel Vt PyLemmas SplitLemmas FloatLemmas
  ColorProofs ColorProofs2 SpaceSpec SpaceProofs PaletteSpec PaletteProofs KeyProofs SpanSpec SpanProofs SpanProofs2 ParseProofs
  ParseProofs2 ParseProofs3 GroupProofs GroupSpec.
Import ListNotations.
Open Scope Z_scope.

(** * Cells marked opaque *)
Lemma clean_opaque : forall f, fl_opaque (clean f) = false.
Proof. now intros []. Qed.
Lemma clean_same : forall f, fl_opaque f = false -> clean f = f.
Proof. intros []. cbn. now intros ->. Qed.
Lemma marked_codes : forall f, fl_opaque f = true -> codes f = codes (clean f) ++ [99].
Proof.
  intros f H. unfold codes, all_flags. set (l := [FBold; FDim; FItalic; FUnderline; FBlink; FFastBlink; FInvert; FConceal; FStrike]).
  change [FBold; FDim; FItalic; FUnderline; FBlink; FFastBlink; FInvert; FConceal; FStrike; FOpaque] with (l ++ [FOpaque]).
  rewrite !filter_app, !map_app. cbn [filter get_flag]. rewrite H, clean_opaque, app_nil_r. f_equal. f_equal.
  apply filter_ext_in. intros k Hk. unfold l in Hk. cbn [In] in Hk. destruct f.
  repeat (destruct Hk as [<-|Hk]; [reflexivity|]). destruct Hk.
Qed.
Lemma flags_pen : forall f, fl_opaque f = false -> sgr (codes f) rend0 = styled f None None rend0.
Proof.
  intros f H. set (s := mkSpan [0] None None [] f true). set (e := {| env_cs := TRUE_COLOR; env_pow := fun _ _ => fone |}).
  destruct (has_style s) eqn:Hs.
  - destruct (total_sgr e s None None I I H Hs) as [ps [T [S [N G]]]]. unfold s in T. rewrite total_colorless, colorless_codes in T.
    apply sgr_text_inj in T; [|apply codes_nonneg|now apply supported_nonneg]. rewrite T. exact G.
  - destruct (unstyled_flags s Hs) as [U _]. cbn [s s_flags] in U. rewrite U. reflexivity.
Qed.
(** the mark is lost: its setter begins a color that never ends *)
Lemma marked_parsed : forall ch f rst, fl_opaque f = true -> ch <> 27 ->
  first_from (cell_text ch f rst) = Ok (Some (mkSpan [ch] None None [] (clean f) true)).
Proof.
  intros ch f rst Ho Hc. unfold cell_text. rewrite uncolored_str. rewrite colorless_codes, (marked_codes f Ho).
  set (ps := codes (clean f)).
  assert (Sp : supported ps) by (apply codes_supported, clean_opaque).
  assert (Nn : Forall (fun n => 0 <= n) (ps ++ [99])).
  { apply Forall_app. split; [now apply supported_nonneg|]. constructor; [lia|constructor]. }
  assert (Ne : ps ++ [99] <> []) by (intro X; apply app_eq_nil in X; destruct X; discriminate).
  destruct (sgr_text_params _ Nn Ne) as [_ [Pc Nt]].
  destruct (parse_supported ps Sp [dec 99] no_options rend0 no_options_like) as [o [E L]].
  assert (PS : parse_sequence (sgr_text (ps ++ [99])) no_options = (o, Ok None)).
  { unfold parse_sequence. rewrite split_sgr_text by assumption. rewrite map_app. cbn [map]. rewrite E. reflexivity. }
  destruct (opt_like_span o _ [ch] L) as [s [S1 [S2 S3]]].
  set (tail := if rst && negb (str_eqb (sgr_text (ps ++ [99])) []) then RESET else []).
  assert (T : csi_or_empty (sgr_text (ps ++ [99])) ++ [ch] ++ tail = line_of [] [(sgr_text (ps ++ [99]), [ch])] ++ tail).
  { unfold line_of, csi_or_empty. destruct (sgr_text (ps ++ [99])) as [|x b]; [congruence|]. unfold csi_m. cbn [flat_map fst snd app].
    rewrite app_nil_r, <- !app_assoc. reflexivity. }
  unfold first_from.
  match goal with |- context [yield_from ?x] => replace x with (line_of [] [(sgr_text (ps ++ [99]), [ch])] ++ tail) by (symmetry; exact T) end.
  rewrite yield_line.
  - cbn [run_pieces]. rewrite PS, S1. cbn [app]. do 2 f_equal. destruct s as [t fg bg l g r]. cbn [s_text] in S2. subst t.
    unfold ps in S3. rewrite flags_pen in S3 by apply clean_opaque.
    unfold looks_like in S3. cbn [s_fg s_bg s_flags s_link s_reset styled rend0 r_fg r_bg r_bold r_dim r_italic r_underline
      r_blink r_rapid r_inverse r_conceal r_strike] in S3. rewrite ?orb_false_r in S3. cbv zeta in S3.
    destruct S3 as [L1 [L2 [L3 [L4 [L5 [L6 [L7 [L8 [L9 [L10 [L11 [L12 [L13 L14]]]]]]]]]]]]]. subst l r.
    destruct fg as [c|]; [destruct L1 as [_ [_ [_ []]]]|]. destruct bg as [c|]; [destruct L2 as [_ [_ [_ []]]]|].
    f_equal. destruct f, g. cbn in *. subst. reflexivity.
  - intros [].
  - constructor; [|constructor]. split; cbn [fst snd]; [now apply params_body_ok|]. split; [discriminate|]. intros [X|[]]. congruence.
  - discriminate.
  - unfold tail. destruct (_ && _); [right|left]; reflexivity.
Qed.
Lemma any_parsed : forall ch f rst, ch <> 27 ->
  first_from (cell_text ch f rst) = Ok (Some (mkSpan [ch] None None [] (clean f) true)).
Proof.
  intros ch f rst H. destruct (fl_opaque f) eqn:E; [now apply marked_parsed|]. rewrite (clean_same f E). now apply cell_parsed.
Qed.

Definition plainly_colored (s : span) : Prop := exists c, s_fg s = Some c \/ s_bg s = Some c.
(** the state of the loop, and the run it stands for *)
Definition run_ok (e : env) (attrs : span) (prev : str) (r : run) : Prop :=
  match r with
  | None => plainly_colored attrs /\ exists c, c <> 27 /\ prev = csi_or_empty (total_body e attrs) ++ [c]
  | Some (f, o) => s_fg attrs = None /\ s_bg attrs = None /\ s_flags attrs = f /\
      match o with
      | None => prev = []
      | Some c => c <> 27 /\ prev = csi_or_empty (colorless_body f) ++ [c]
      end
  end.

Lemma total_uncolored : forall e s, s_fg s = None -> s_bg s = None -> total_body e s = colorless_body (s_flags s).
Proof. intros e [t fg bg l f r] H1 H2. cbn in *. subst. apply total_colorless. Qed.
Lemma attached : forall f, str_eqb (colorless_body f) [] = if flags_dec f no_flags then true else false.
Proof.
  intro f. destruct (flags_dec f no_flags) as [->|N]; [reflexivity|]. apply str_eqb_neq. intro E. apply N.
  apply colorless_nil, plain_existsb in E. now apply plain_flags_eq.
Qed.
Lemma retold_iff : forall e attrs prev r ch f fg bg rst, run_ok e attrs prev r -> regular e (s_fg attrs) -> regular e (s_bg attrs) ->
  str_eqb (cell_text ch f rst) prev = retold r (ch, f, fg, bg, rst).
Proof.
  intros e attrs prev r ch f fg bg rst H Rf Rb.
  assert (NE : cell_text ch f rst <> []).
  { unfold cell_text. rewrite uncolored_str. intro X. apply app_eq_nil in X. destruct X as [_ X]. discriminate. }
  destruct r as [[f' [c|]]|]; cbn [run_ok retold] in *.
  - destruct H as [H1 [H2 [H3 [H4 H5]]]]. apply eq_true_iff_eq. rewrite str_eqb_eq. split.
    + intro E. rewrite H5 in E. symmetry in E. destruct (printed_cell _ _ _ _ _ E H4) as [Q1 Q2]. apply colorless_inj in Q1. subst c.
      destruct (flags_dec f' f) as [_|N]; [|congruence]. rewrite Z.eqb_refl. cbn [andb]. rewrite Q1 in E.
      destruct rst; [|reflexivity]. cbn [negb orb]. unfold cell_text in E. rewrite uncolored_str in E. cbn [andb] in E.
      rewrite attached in E. destruct (flags_dec f no_flags); [reflexivity|]. cbn [negb] in E.
      apply app_inv_head in E. cbn in E. discriminate.
    + intro E. apply andb_true_iff in E. destruct E as [E E3]. apply andb_true_iff in E. destruct E as [E1 E2].
      destruct (flags_dec f' f) as [->|]; [|discriminate]. apply Z.eqb_eq in E2. subst c.
      unfold cell_text. rewrite uncolored_str, H5, attached. f_equal.
      destruct rst; [|reflexivity]. cbn [negb orb] in E3. rewrite E3. reflexivity.
  - destruct H as [H1 [H2 [H3 H4]]]. rewrite H4. now apply str_eqb_neq.
  - destruct H as [HC [c [H4 H5]]]. apply str_eqb_neq. intro E. rewrite H5 in E. symmetry in E.
    destruct (printed_cell _ _ _ _ _ E H4) as [Q1 Q2]. apply (colored_total e attrs) in Q1; auto.
Qed.

Lemma group_loop_kept : forall e scells row attrs g prev r,
  Forall2 stored scells row -> Forall (scell_fine e) scells ->
  regular e (s_fg attrs) -> regular e (s_bg attrs) -> s_link attrs = [] ->
  keeps attrs g -> s_link g = [] -> s_text g <> [] -> s_reset g = true ->
  run_ok e attrs prev r ->
  exists h t u, group_loop e row g false attrs prev = Ok (h :: t) /\
    keeps g h /\ s_text h = s_text g ++ u /\
    Forall good_group (h :: t) /\ maximal (h :: t) /\
    Forall2 carries (dressed (s_flags g) (s_fg g) (s_bg g) u ++ flat_map letters t) (kept_row r scells).
Proof.
  intros e scells. induction scells as [|d scells IH]; intros row attrs g prev r ST OK Rf Rb La K Lg Tg Rg P.
  { inversion ST; subst. exists g, [], []. split; [reflexivity|]. split; [repeat split|].
    rewrite app_nil_r. split; [reflexivity|]. split; [constructor; [split; auto|constructor]|].
    split; [exact I|]. constructor. }
  inversion ST as [|? c ? row' S1 S2]; subst. inversion OK as [|? ? O1 O2]; subst.
  destruct d as [[[[ch f] fg] bg] rst]. destruct c as [[t fg'] bg'].
  destruct (stored_text _ _ _ _ _ _ _ _ S1) as [-> [-> ->]].
  destruct O1 as [C27 [Rfg Rbg]]. cbn [group_loop kept_row].
  destruct K as [K1 [K2 K3]].
  rewrite (retold_iff e attrs prev r ch f fg bg rst P Rf Rb).
  destruct (retold r (ch, f, fg, bg, rst)) eqn:E.
  - destruct r as [[f' [c|]]|]; try discriminate. cbn [retold] in E.
    apply andb_true_iff in E. destruct E as [E E3]. apply andb_true_iff in E. destruct E as [E1 E2].
    destruct (flags_dec f' f) as [->|]; [|discriminate]. apply Z.eqb_eq in E2. subst c.
    destruct P as [U1 [U2 [U3 [P1 P2]]]].
    assert (T : cell_text ch f rst = prev).
    { apply str_eqb_eq. rewrite (retold_iff e attrs prev (Some (f, Some ch)) ch f fg bg rst); [|cbn; auto 10|auto|auto].
      cbn [retold]. destruct (flags_dec f f); [|congruence]. now rewrite Z.eqb_refl, E3. }
    rewrite T, P2, index_last. cbn [bindr]. rewrite mutate_text. rewrite <- P2.
    destruct (IH row' attrs (mkSpan (s_text g ++ [ch]) (s_fg g) (s_bg g) (s_link g) (s_flags g) true) prev (Some (f, Some ch))) as [h [t [u H]]]; auto.
    + repeat split; assumption.
    + cbn [s_text]. destruct (s_text g); discriminate.
    + cbn. auto 10.
    + destruct H as [H1 [H2 [H3 [H4 [H5 H6]]]]].
      exists h, t, (ch :: u). split; [exact H1|]. split; [exact H2|]. split; [cbn [s_text] in H3; rewrite H3, <- app_assoc; reflexivity|].
      split; [exact H4|]. split; [exact H5|]. cbn [dressed map app colorless]. constructor; [|exact H6].
      cbn. rewrite K1, K2, K3, U1, U2. auto.
  - rewrite any_parsed by assumption. cbn [bindr]. rewrite mutate_colors. cbn [s_text s_link s_flags].
    set (sp := mkSpan [ch] fg bg [] (clean f) true).
    destruct (style_attrs_eqb sp attrs) eqn:SA.
    + apply style_eqb_iff in SA; [|reflexivity|exact La]. destruct SA as [A1 [A2 A3]]. cbn [s_flags s_fg s_bg sp] in A1, A2, A3.
      rewrite mutate_text.
      destruct (IH row' attrs (mkSpan (s_text g ++ [ch]) (s_fg g) (s_bg g) (s_link g) (s_flags g) true) prev (next_run r (ch, f, fg, bg, rst))) as [h [t [u H]]]; auto.
      * repeat split; assumption.
      * cbn [s_text]. destruct (s_text g); discriminate.
      * destruct r as [[f' o]|]; cbn [run_ok] in P.
        -- destruct P as [U1 [U2 [U3 U4]]]. rewrite U1 in A2. rewrite U2 in A3. destruct fg; [contradiction|]. destruct bg; [contradiction|].
           cbn [next_run]. destruct (flags_dec f' (clean f)) as [->|N]; [cbn; auto|]. congruence.
        -- destruct P as [[k HC] P2]. assert (N : next_run None (ch, f, fg, bg, rst) = None).
           { destruct HC as [HC|HC]; rewrite HC in *; [destruct fg; [reflexivity|contradiction]|destruct fg; [reflexivity|destruct bg; [reflexivity|contradiction]]]. }
           rewrite N. cbn. split; [exists k; exact HC|exact P2].
      * destruct H as [H1 [H2 [H3 [H4 [H5 H6]]]]].
        exists h, t, (ch :: u). split; [exact H1|]. split; [exact H2|]. split; [cbn [s_text] in H3; rewrite H3, <- app_assoc; reflexivity|].
        split; [exact H4|]. split; [exact H5|]. cbn [dressed map app]. constructor; [|exact H6].
        cbn. rewrite K1, K2, K3. split; [reflexivity|]. split; [auto|]. auto using eq_color_sym.
    + assert (N : ~ same_look sp attrs).
      { intro L. apply (style_eqb_iff sp attrs eq_refl La) in L. congruence. }
      destruct (IH row' sp sp (span_str e (mutate sp [MReset false])) (next_run r (ch, f, fg, bg, rst))) as [h [t [u H]]]; auto.
      * repeat split.
      * discriminate.
      * assert (T : span_str e (mutate sp [MReset false]) = csi_or_empty (total_body e sp) ++ [ch]).
        { unfold span_str. cbn [s_link s_text s_reset mutate fold_left apply_mopt sp str_eqb andb]. cbv zeta. rewrite app_nil_r.
          unfold span_sequences. do 2 f_equal. }
        rewrite T. unfold next_run.
        destruct fg as [fg|]; [cbn; split; [exists fg; now left|eauto]|].
        destruct bg as [bg|]; [cbn; split; [exists bg; now right|eauto]|].
        assert (T' : total_body e sp = colorless_body (clean f)) by (apply total_uncolored; reflexivity). rewrite T'.
        destruct r as [[f' o]|].
        -- destruct (flags_dec f' (clean f)) as [->|M]; [|cbn; auto 10]. exfalso. apply N. destruct P as [U1 [U2 [U3 _]]].
           unfold same_look. cbn [sp s_flags s_fg s_bg]. rewrite U1, U2. cbn. auto.
        -- cbn. auto 10.
      * destruct H as [H1 [H2 [H3 [H4 [H5 H6]]]]]. cbn [s_text sp] in H3.
        exists g, (h :: t), []. unfold sp in H1 at 1. fold sp in H1. rewrite H1. cbn [bindr]. split; [reflexivity|].
        split; [repeat split|]. split; [now rewrite app_nil_r|].
        split; [constructor; [split; auto|exact H4]|].
        split.
        -- split; [|exact H5]. intro L. apply N. destruct H2 as [h1 [h2 h3]]. unfold same_look in *.
           rewrite h1, h2, h3, K1, K2, K3 in L. destruct L as [L1 [L2 L3]]. auto using eq_color_sym.
        -- cbn [dressed map app flat_map]. unfold letters at 1. rewrite H3. cbn [map app].
           destruct H2 as [h1 [h2 h3]]. rewrite h1, h2, h3. constructor; [cbn; auto|].
           fold (dressed (s_flags sp) (s_fg sp) (s_bg sp) u). exact H6.
Qed.

Lemma group_kept : forall e scells row, Forall2 stored scells row -> Forall (scell_fine e) scells -> scells <> [] ->
  exists gs, group e row = Ok gs /\ gs <> [] /\ Forall good_group gs /\ maximal gs /\
    Forall2 carries (flat_map letters gs) (kept_row row_start scells).
Proof.
  intros e scells row ST OK N. destruct scells as [|d scells]; [congruence|].
  inversion ST as [|? c ? row' S1 S2]; subst. inversion OK as [|? ? O1 O2]; subst.
  destruct d as [[[[ch f] fg] bg] rst]. destruct c as [[t fg'] bg'].
  destruct (stored_text _ _ _ _ _ _ _ _ S1) as [-> [-> ->]].
  destruct O1 as [C27 [Rfg Rbg]]. unfold group. cbn [group_loop kept_row retold row_start unmark].
  assert (E : str_eqb (cell_text ch f rst) [] = false).
  { unfold cell_text. rewrite uncolored_str. destruct (str_eqb _ []) eqn:X; [|reflexivity]. apply str_eqb_eq in X.
    apply app_eq_nil in X. destruct X as [_ X]. discriminate. }
  rewrite E. rewrite any_parsed by assumption. cbn [bindr]. rewrite mutate_colors. cbn [s_text s_link s_flags].
  set (sp := mkSpan [ch] fg bg [] (clean f) true). set (rest := kept_row (next_run _ _) scells).
  assert (FIN : forall h t u sp', s_text sp' = [ch] -> s_flags sp' = clean f -> (s_fg sp' = fg \/ eq_color (s_fg sp') fg) ->
     (s_bg sp' = bg \/ eq_color (s_bg sp') bg) -> keeps sp' h -> s_text h = s_text sp' ++ u ->
     Forall2 carries (dressed (s_flags sp') (s_fg sp') (s_bg sp') u ++ flat_map letters t) rest ->
     Forall2 carries (flat_map letters (h :: t)) ((ch, clean f, fg, bg, rst) :: rest)).
  { intros h t u sp' A B C D [H1 [H2 H3]] H4 H5. cbn [flat_map]. unfold letters at 1. rewrite H4, H1, H2, H3, A. cbn [map app].
    constructor; [cbn; auto|]. exact H5. }
  destruct (style_attrs_eqb sp EMPTY_SPAN) eqn:SA.
  - apply style_eqb_iff in SA; [|reflexivity|reflexivity]. destruct SA as [A1 [A2 A3]]. cbn [s_flags s_fg s_bg sp EMPTY_SPAN plain_span] in A1, A2, A3.
    destruct fg; [contradiction|]. destruct bg; [contradiction|].
    assert (NR : next_run row_start (ch, f, None, None, rst) = row_start).
    { cbn [next_run row_start]. destruct (flags_dec no_flags (clean f)); congruence. }
    destruct (group_loop_kept e scells row' EMPTY_SPAN (mutate EMPTY_SPAN [MText [ch]]) [] row_start) as [h [t [u H]]]; auto.
    + repeat split.
    + discriminate.
    + cbn. auto.
    + destruct H as [H1 [H2 [H3 [H4 [H5 H6]]]]]. exists (h :: t). split; [exact H1|]. split; [discriminate|].
      split; [exact H4|]. split; [exact H5|].
      apply (FIN h t u (mutate EMPTY_SPAN [MText [ch]])); auto. unfold rest. rewrite NR. exact H6.
  - destruct (group_loop_kept e scells row' sp sp (span_str e (mutate sp [MReset false])) (next_run row_start (ch, f, fg, bg, rst))) as [h [t [u H]]]; auto.
    + repeat split.
    + discriminate.
    + assert (T : span_str e (mutate sp [MReset false]) = csi_or_empty (total_body e sp) ++ [ch]).
      { unfold span_str. cbn [s_link s_text s_reset mutate fold_left apply_mopt sp str_eqb andb]. cbv zeta. rewrite app_nil_r.
        unfold span_sequences. do 2 f_equal. }
      rewrite T. unfold next_run, row_start.
      destruct fg as [fg|]; [cbn; split; [exists fg; now left|eauto]|].
      destruct bg as [bg|]; [cbn; split; [exists bg; now right|eauto]|].
      assert (T' : total_body e sp = colorless_body (clean f)) by (apply total_uncolored; reflexivity). rewrite T'.
      destruct (flags_dec no_flags (clean f)) as [Ef|M]; [|cbn; auto 10]. exfalso.
      assert (L : same_look sp EMPTY_SPAN) by (unfold same_look; cbn [sp s_flags s_fg s_bg]; rewrite <- Ef; repeat split). apply (style_eqb_iff sp EMPTY_SPAN eq_refl eq_refl) in L. congruence.
    + destruct H as [H1 [H2 [H3 [H4 [H5 H6]]]]]. rewrite H1. cbn [bindr]. exists (h :: t). split; [reflexivity|]. split; [discriminate|].
      split; [exact H4|]. split; [exact H5|]. apply (FIN h t u sp); auto.
Qed.

(** * Rows that are kept as they are, but for the mark *)
Definition reached (a : list scell) : run := fold_left next_run a row_start.
Lemma reached_snoc : forall a d, reached (a ++ [d]) = next_run (reached a) d.
Proof. intros. unfold reached. now rewrite fold_left_app. Qed.
Definition alike (c x : scell) : Prop := own_flags x = own_flags c /\ uncolored x.
Lemma next_uncolored : forall r d, uncolored d -> next_run r d =
  match r with
  | Some (f', _) => if flags_dec f' (own_flags d) then r else Some (own_flags d, Some (cell_char d))
  | None => Some (own_flags d, Some (cell_char d))
  end.
Proof. intros r [[[[ch f] fg] bg] rst] [-> ->]. reflexivity. Qed.
Lemma next_colored : forall r d, ~ uncolored d -> next_run r d = None.
Proof. intros r [[[[ch f] fg] bg] rst] H. cbn in *. destruct fg; [reflexivity|]. destruct bg; [reflexivity|]. tauto. Qed.
Lemma uncolored_dec : forall d, uncolored d \/ ~ uncolored d.
Proof.
  intros [[[[ch f] fg] bg] rst]. cbn. destruct fg; [right; intros [X _]; discriminate|]. destruct bg; [right; intros [_ X]; discriminate|]. auto.
Qed.

Lemma reached_spec : forall a, match reached a with
  | Some (f, Some c) => exists a0 x mid, a = a0 ++ x :: mid /\ begins a0 x /\ Forall (alike x) mid /\ cell_char x = c /\ own_flags x = f
  | Some (f, None) => f = no_flags /\ Forall (fun x => own_flags x = no_flags /\ uncolored x) a
  | None => exists a0 x, a = a0 ++ [x] /\ ~ uncolored x
  end.
Proof.
  intro a. induction a as [|d a IH] using rev_ind; [cbn; auto|]. rewrite reached_snoc.
  destruct (uncolored_dec d) as [U|U]; [|rewrite next_colored by exact U; eauto].
  rewrite next_uncolored by exact U. destruct (reached a) as [[f [c|]]|] eqn:E.
  - destruct IH as [a0 [x [mid [H1 [H2 [H3 [H4 H5]]]]]]]. destruct (flags_dec f (own_flags d)) as [Ef|N].
    + exists a0, x, (mid ++ [d]). split; [rewrite H1, <- app_assoc; reflexivity|]. split; [exact H2|]. split; [|auto].
      apply Forall_app. split; [exact H3|]. constructor; [|constructor]. split; [congruence|exact U].
    + exists a, d, []. split; [reflexivity|]. split; [|auto]. split; [exact U|].
      subst a. rewrite rev_app_distr. cbn [rev]. rewrite <- app_assoc.
      assert (L : forall p, In p (rev mid ++ [x]) -> own_flags p = f).
      { intros p Hp. apply in_app_or in Hp. destruct Hp as [Hp|[<-|[]]]; [|exact H5]. apply in_rev in Hp. rewrite Forall_forall in H3.
        rewrite (proj1 (H3 p Hp)). exact H5. }
      rewrite app_assoc. destruct (rev mid ++ [x]) as [|p q] eqn:Eq; [now destruct (rev mid)|]. cbn [app]. intros [_ F].
      apply N. rewrite <- F. symmetry. apply L. now left.
  - destruct IH as [-> F]. destruct (flags_dec no_flags (own_flags d)) as [Ef|N].
    + split; [reflexivity|]. apply Forall_app. split; [exact F|]. constructor; [split; [symmetry; exact Ef|exact U]|constructor].
    + exists a, d, []. split; [reflexivity|]. split; [|auto]. split; [exact U|].
      destruct (rev a) as [|p q] eqn:Er; [congruence|]. intros [_ Fp]. apply N. rewrite <- Fp. symmetry.
      rewrite Forall_forall in F. apply F. apply in_rev. rewrite Er. now left.
  - destruct IH as [a0 [x [-> Ux]]]. exists (a0 ++ [x]), d, []. split; [reflexivity|]. split; [|auto]. split; [exact U|].
    rewrite rev_app_distr. cbn. tauto.
Qed.
Lemma begins_reached : forall a x mid, begins a x -> Forall (alike x) mid -> reached (a ++ x :: mid) = Some (own_flags x, Some (cell_char x)).
Proof.
  intros a x mid [U B] F. unfold reached. rewrite fold_left_app. cbn [fold_left]. change (fold_left next_run a row_start) with (reached a).
  assert (S : next_run (reached a) x = Some (own_flags x, Some (cell_char x))).
  { rewrite next_uncolored by exact U. pose proof (reached_spec a) as R. destruct (reached a) as [[f o]|]; [|reflexivity].
    destruct (flags_dec f (own_flags x)) as [Ef|N]; [|reflexivity]. exfalso. destruct o as [c|].
    - destruct R as [a0 [y [m [H1 [H2 [H3 [H4 H5]]]]]]]. subst a. rewrite rev_app_distr in B. cbn [rev] in B. rewrite <- app_assoc in B.
      destruct H2 as [U2 _]. destruct (rev m) as [|p q] eqn:Em.
      + cbn in B. apply B. split; [exact U2|congruence].
      + cbn in B. apply B. rewrite Forall_forall in H3. assert (Ip : In p m) by (apply in_rev; rewrite Em; now left).
        destruct (H3 p Ip). split; [assumption|congruence].
    - destruct R as [-> R]. destruct (rev a) as [|p q] eqn:Er; [congruence|]. rewrite Forall_forall in R.
      assert (Ip : In p a) by (apply in_rev; rewrite Er; now left). destruct (R p Ip). apply B. split; [assumption|congruence]. }
  rewrite S. clear S. induction F as [|y mid [Hy1 Hy2] F IH]; [reflexivity|]. cbn [fold_left].
  rewrite next_uncolored by exact Hy2. destruct (flags_dec (own_flags x) (own_flags y)); [exact IH|congruence].
Qed.

Lemma retold_parts : forall r d, retold r d = true <-> r = Some (cell_flags d, Some (cell_char d)) /\ bare d.
Proof.
  intros r [[[[ch f] fg] bg] rst]. cbn [retold cell_flags cell_char bare]. split.
  - destruct r as [[f' [c|]]|]; try discriminate. intro E. apply andb_true_iff in E. destruct E as [E E3].
    apply andb_true_iff in E. destruct E as [E1 E2]. destruct (flags_dec f' f) as [->|]; [|discriminate].
    apply Z.eqb_eq in E2. subst c. split; [reflexivity|]. destruct rst; [right|now left].
    cbn in E3. now destruct (flags_dec f no_flags).
  - intros [-> B]. destruct (flags_dec f f); [|congruence]. rewrite Z.eqb_refl. cbn.
    destruct B as [->| ->]; [reflexivity|]. destruct (flags_dec no_flags no_flags); [|congruence]. apply orb_true_r.
Qed.
Lemma colorless_same : forall d, colorless d = unmark d -> uncolored d.
Proof. intros [[[[ch f] fg] bg] rst]. cbn. intro H. injection H as _ <- <-. auto. Qed.
Lemma clean_clean : forall f, clean (clean f) = clean f.
Proof. now intros []. Qed.
Lemma retold_clean : forall pre d, retold (reached pre) d = true -> own_flags d = cell_flags d.
Proof.
  intros pre d H. apply retold_parts in H. destruct H as [E _]. pose proof (reached_spec pre) as R. rewrite E in R.
  destruct R as [a0 [x [mid [_ [_ [_ [_ R]]]]]]]. unfold own_flags at 1. rewrite <- R. unfold own_flags. apply clean_clean.
Qed.
Lemma retold_same : forall pre d, retold (reached pre) d = true -> uncolored d -> colorless d = unmark d.
Proof.
  intros pre d H U. pose proof (retold_clean pre d H) as C. destruct d as [[[[ch f] fg] bg] rst]. unfold own_flags in C. cbn in U, C |- *.
  destruct U as [-> ->]. now rewrite C.
Qed.
Lemma retold_next : forall pre d, retold (reached pre) d = true -> uncolored d -> next_run (reached pre) d = reached pre.
Proof.
  intros pre d H U. pose proof (retold_clean pre d H) as C. apply retold_parts in H. destruct H as [-> _]. rewrite next_uncolored by exact U.
  rewrite C. now destruct (flags_dec (cell_flags d) (cell_flags d)).
Qed.
Lemma kept_faithful : forall suf pre, kept_row (reached pre) suf = map unmark suf ->
  forall m d b, suf = m ++ d :: b -> retold (reached (pre ++ m)) d = true -> uncolored d.
Proof.
  intro suf. induction suf as [|x suf IH]; intros pre K m d b E R; [destruct m; discriminate|].
  cbn [kept_row map] in K.
  assert (K' : kept_row (reached (pre ++ [x])) suf = map unmark suf /\ (retold (reached pre) x = true -> uncolored x)).
  { rewrite reached_snoc. destruct (retold (reached pre) x) eqn:Er.
    - injection K as K1 K2. apply colorless_same in K1. rewrite (retold_next _ _ Er K1). auto.
    - injection K as K2. split; [exact K2|discriminate]. }
  destruct K' as [K' KU]. destruct m as [|y m].
  - cbn in E. injection E as -> ->. rewrite app_nil_r in R. auto.
  - cbn in E. injection E as -> E. apply (IH (pre ++ [y]) K' m d b E). rewrite <- app_assoc. exact R.
Qed.
Lemma faithful_kept : forall suf pre, faithful (pre ++ suf) -> kept_row (reached pre) suf = map unmark suf.
Proof.
  intro suf. induction suf as [|x suf IH]; intros pre F; [reflexivity|]. cbn [kept_row map].
  assert (F' : faithful ((pre ++ [x]) ++ suf)) by (rewrite <- app_assoc; exact F).
  specialize (IH (pre ++ [x]) F'). rewrite reached_snoc in IH. destruct (retold (reached pre) x) eqn:Er.
  - assert (U : uncolored x).
    { pose proof Er as Er'. apply retold_parts in Er. destruct Er as [Er B]. pose proof (reached_spec pre) as R. rewrite Er in R.
      destruct R as [a0 [y [mid [H1 [H2 [H3 [H4 H5]]]]]]]. apply (F a0 y mid x suf); auto. rewrite H1, <- app_assoc. reflexivity. }
    rewrite (retold_next _ _ Er U) in IH. rewrite IH. f_equal. now apply (retold_same pre).
  - now rewrite IH.
Qed.
Lemma kept_iff : forall row, kept_row row_start row = map unmark row <-> faithful row.
Proof.
  intro row. split.
  - intros K a c mid d b E B M E1 E2 Bd. apply (kept_faithful row [] K (a ++ c :: mid) d b).
    + rewrite E, <- app_assoc. reflexivity.
    + apply retold_parts. cbn [app]. rewrite (begins_reached a c mid B M). split; [congruence|exact Bd].
  - intro F. apply (faithful_kept row []). exact F.
Qed.
