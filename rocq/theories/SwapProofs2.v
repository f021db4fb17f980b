(** Equal spans are interchangeable in exports. *)
From Coq Require Import ZArith List Bool String Lia.
From Verif Require Import PyBase PyLemmas F64 SpaceModel ColorModel AnsiRe SpanModel Vt SpanSpec ScreenModel ScreenSpec ScreenProofs SpanValueModel SpanValueSpec
  SpanValueProofs SvgDocModel SvgGeoModel SvgTextModel SwapSpec SwapProofs.
Import ListNotations.
Open Scope list_scope.
Open Scope Z_scope.

Definition spsim (e : env) (a b : span) : Prop :=
  s_text a = s_text b /\ osim e (s_fg a) (s_fg b) /\ osim e (s_bg a) (s_bg b) /\ s_link a = s_link b /\ s_flags a = s_flags b /\ s_reset a = s_reset b.
Lemma spsim_refl : forall e a, spsim e a a.
Proof. intros. unfold spsim. auto 8 using osim_refl. Qed.
Lemma text_sim : forall e a b t, spsim e a b -> spsim e (mutate a [MText t]) (mutate b [MText t]).
Proof. intros e a b t [T [F [B [L [G R]]]]]. unfold spsim. cbn. auto 8. Qed.
Lemma reset_sim : forall e a b t, spsim e a b -> spsim e (mutate a [MReset t]) (mutate b [MReset t]).
Proof. intros e a b t [T [F [B [L [G R]]]]]. unfold spsim. cbn. auto 8. Qed.
Lemma style_sim : forall e a b x y, spsim e a b -> spsim e x y -> style_attrs_eqb a x = style_attrs_eqb b y.
Proof.
  intros e a b x y [T [F [B [L [G R]]]]] [T' [F' [B' [L' [G' R']]]]]. unfold style_attrs_eqb.
  now rewrite (osim_eqb e _ _ _ _ F F'), (osim_eqb e _ _ _ _ B B'), L, G, L', G'.
Qed.
Lemma attrs_sim : forall e a b x y, spsim e a b -> spsim e x y -> attrs_eqb a x = attrs_eqb b y.
Proof.
  intros e a b x y S S'. unfold attrs_eqb. rewrite (style_sim e a b x y S S'). destruct S as [-> _]. destruct S' as [-> _]. reflexivity.
Qed.
Lemma str_sim : forall e a b, spsim e a b -> span_str e a = span_str e b.
Proof.
  intros e a b [T [F [B [L [G R]]]]]. unfold span_str, span_sequences, total_body.
  now rewrite (osim_text e _ _ F), (osim_text e _ _ B), T, L, G, R.
Qed.
Definition gsim (e : env) (a b : res (list span)) : Prop :=
  match a, b with Ok x, Ok y => Forall2 (spsim e) x y | Err x, Err y => x = y | _, _ => False end.
Lemma group_sim : forall e l l', Forall2 (cellsim e) l l' -> forall g g' em a a' p, spsim e g g' -> spsim e a a' ->
  gsim e (group_loop e l g em a p) (group_loop e l' g' em a' p).
Proof.
  intros e l l' H. induction H as [|[[t f] b] [[t' f'] b'] l l' [-> [F B]] H IH]; intros g g' em a a' p G A; cbn [group_loop].
  - cbn. auto.
  - destruct (str_eqb t' p).
    + destruct (index (-1) t') as [x|x]; cbn [bindr]; [|reflexivity]. pose proof G as [T _]. rewrite T. apply IH; auto. now apply text_sim.
    + destruct (first_from t') as [o|x]; cbn [bindr]; [|reflexivity].
      set (s := match o with Some s => s | None => EMPTY_SPAN end).
      assert (S : spsim e (mutate s [MFg f; MBg b]) (mutate s [MFg f'; MBg b'])) by (unfold spsim; cbn; auto 8).
      rewrite (style_sim e _ _ _ _ S A). pose proof G as [T _]. pose proof S as [T' _].
      destruct (style_attrs_eqb (mutate s [MFg f'; MBg b']) a').
      * rewrite T, T'. apply IH; auto. now apply text_sim.
      * rewrite (str_sim e _ _ (reset_sim e _ _ false S)).
        pose proof (IH _ _ false _ _ (span_str e (mutate (mutate s [MFg f'; MBg b']) [MReset false])) S S) as K.
        destruct (group_loop e l _ _ _ _) as [r|r], (group_loop e l' _ _ _ _) as [r'|r']; cbn [gsim] in K; try contradiction; cbn [bindr]; [|exact K].
        cbn [gsim]. destruct em; auto.
Qed.
Lemma osim_hex : forall e a b, osim e a b -> option_map color_hex a = option_map color_hex b.
Proof. intros e [c|] [d|] H; cbn in *; try contradiction; [|reflexivity]. destruct H as [H _]. unfold color_hex. now rewrite H. Qed.
Lemma svg_sim : forall e a b n dfg dbg inline cls, spsim e a b -> get_svg_styles a = get_svg_styles b /\ as_svg a n dfg dbg inline cls = as_svg b n dfg dbg inline cls.
Proof.
  intros e a b n dfg dbg inline cls [T [F [B [L [G R]]]]].
  apply osim_hex in F. apply osim_hex in B.
  assert (S : get_svg_styles a = get_svg_styles b) by (rewrite !styles_by_hex, F, B, G; reflexivity).
  split; [exact S|].
  assert (C : (color_hex (fst (svg_colors a dfg dbg)), color_hex (snd (svg_colors a dfg dbg))) = (color_hex (fst (svg_colors b dfg dbg)), color_hex (snd (svg_colors b dfg dbg)))).
  { unfold svg_colors. rewrite G. destruct (s_fg a), (s_fg b); try discriminate; destruct (s_bg a), (s_bg b); try discriminate; cbn [option_map] in F, B;
    destruct (fl_invert (s_flags b)); cbn [fst snd]; congruence. }
  unfold as_svg. rewrite S, T. destruct (svg_colors a dfg dbg) as [p q], (svg_colors b dfg dbg) as [p' q']. cbn [fst snd] in C. injection C as -> ->. reflexivity.
Qed.
Definition opsim (e : env) (a b : option span) : Prop := match a, b with None, None => True | Some c, Some d => spsim e c d | _, _ => False end.
Lemma text_row_sim : forall e fs dfg dbg l l', Forall2 (spsim e) l l' -> forall x y i p p', opsim e p p' ->
  let '(u, v, j, q) := text_row fs dfg dbg l x y i p in let '(u', v', j', q') := text_row fs dfg dbg l' x y i p' in
  u = u' /\ v = v' /\ j = j' /\ opsim e q q'.
Proof.
  intros e fs dfg dbg l l' H. induction H as [|a b l l' S H IH]; intros x y i p p' P; cbn [text_row]; [auto|].
  replace (match p with Some p => if attrs_eqb p a then i else i + 1 | None => i + 1 end)
    with (match p' with Some p => if attrs_eqb p b then i else i + 1 | None => i + 1 end)
    by (destruct p, p'; cbn in P; try contradiction; [now rewrite (attrs_sim e _ _ _ _ P S)|reflexivity]).
  set (i' := match p' with Some p => if attrs_eqb p b then i else i + 1 | None => i + 1 end).
  pose proof S as [T _]. unfold span_len. rewrite T.
  pose proof (IH (nadd x (NFlt (fmul (fofZ (zlen (s_text b))) (fmul (fofZ fs) SVG_CHAR_WIDTH)))) y i' (Some a) (Some b) S) as K.
  destruct (text_row fs dfg dbg l _ y i' _) as [[[u v] j] q], (text_row fs dfg dbg l' _ y i' _) as [[[u' v'] j'] q'].
  destruct K as [-> [-> [-> K]]].
  destruct (svg_sim e a b (span_numbers fs x y (s_text b)) dfg dbg false (Some (svg_class i')) S) as [S1 S2].
  unfold svg_rule. rewrite S1, S2. auto.
Qed.
Lemma text_rows_sim : forall e fs dfg dbg r r', csm e r r' -> forall y i p p', opsim e p p' ->
  text_rows e fs dfg dbg r y i p = text_rows e fs dfg dbg r' y i p'.
Proof.
  intros e fs dfg dbg r r' H. induction H as [|a b r r' R H IH]; intros y i p p' P; cbn [text_rows]; [reflexivity|].
  pose proof (group_sim e a b R EMPTY_SPAN EMPTY_SPAN true EMPTY_SPAN EMPTY_SPAN [] (spsim_refl e _) (spsim_refl e _)) as G. unfold group.
  destruct (group_loop e a _ _ _ _) as [l|x], (group_loop e b _ _ _ _) as [l'|x']; cbn [gsim] in G; try contradiction; cbn [bindr]; [|now rewrite G].
  pose proof (text_row_sim e fs dfg dbg l l' G (NInt 0) y i p p' P) as K.
  destruct (text_row fs dfg dbg l _ y i p) as [[[u v] j] q], (text_row fs dfg dbg l' _ y i p') as [[[u' v'] j'] q'].
  destruct K as [-> [-> [-> K]]]. now rewrite (IH (nadd y (NFlt (fmul (fofZ fs) SVG_CHAR_HEIGHT))) j' q q' K).
Qed.
Lemma run_sim : forall e ops ops' s t c c', ssim e s t -> cache_ok e c -> cache_ok e c' -> Forall2 (equal_op e) ops ops' -> calm_run e (s, c) ops ->
  ssim e (fst (run e (s, c) ops)) (fst (run e (t, c') ops')).
Proof.
  intros e ops ops' s t c c' S C C' H. revert s t c c' S C C'. induction H as [|o p ops ops' E H IH]; intros s t c c' S C C' K; [exact S|].
  unfold run. cbn [fold_left]. fold (run e). destruct K as [K1 K2]. destruct (step_sim e s t c c' o p S C C' E K1) as [T [S' [D D']]].
  destruct (step e (s, c) o) as [s1 c1], (step e (t, c') p) as [t1 c2]. now apply (IH s1 t1 c1 c2).
Qed.
Lemma exported : forall e ops ops' s c fs dfg dbg w h, cache_ok e c -> calm_run e (s, c) ops -> Forall2 (equal_op e) ops ops' ->
  export_svg_with_styles e (fst (run e (s, c) ops)) fs dfg dbg = export_svg_with_styles e (fst (run e (s, c) ops')) fs dfg dbg /\
  export_text e (fst (run e (s, c) ops)) w h fs dfg dbg = export_text e (fst (run e (s, c) ops')) w h fs dfg dbg.
Proof.
  intros e ops ops' s c fs dfg dbg w h C K H. pose proof (run_sim e ops ops' s s c c (ssim_refl e s) C C H K) as [_ [_ [M _]]].
  assert (E : export_svg_with_styles e (fst (run e (s, c) ops)) fs dfg dbg = export_svg_with_styles e (fst (run e (s, c) ops')) fs dfg dbg)
    by (apply text_rows_sim; [exact M|exact Logic.I]).
  split; [exact E|]. unfold export_text. now rewrite E.
Qed.
