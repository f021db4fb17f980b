(** Lemmas: leaked pens, recovery, programs on a terminal. *)
From Coq Require Import ZArith Reals List Bool Lia String Permutation Sorting.Sorted.
From Verif Require Import PyBase PyLemmas F64 SpaceModel ColorModel ColorSpec ColorProofs ColorProofs2 AnsiRe SpanModel Vt SpanSpec
  SpanProofs SpanProofs2 ScreenModel ScreenSpec ScreenProofs ScreenProofs2 ScreenProofs3 ScreenProofs4 ScreenProofs5 ScreenProofs6 ScreenProofs7 ScreenProofs8 DrawSpec
  DrawProofs DrawProofs2 DrawProofs3 CutProofs CutProofs2 TileSpec TileProofs RedrawSpec CoreModel TermModel TermSpec SessionSpec SessionProofs PenSpec PenProofs PenProofs2.
Import ListNotations.
Open Scope Z_scope.

(** * The next draw *)
Lemma next_draw : forall sh w h D q, on_screen w h q -> d_due D q = true ->
  (first_due w h D q -> d_seen (show_event sh w h D (EAct ADraw)) q = inked sh (d_ink D q) (d_pen D)) /\
  (~ first_due w h D q -> d_seen (show_event sh w h D (EAct ADraw)) q = inked sh (d_ink D q) rend0).
Proof.
  intros sh w h D q Hq Hd. cbn [show_event d_seen]. rewrite Hd. destruct (pos_no_nth w h q Hq) as [_ Hn]. split; intro F; f_equal.
  - apply drawing_pen_none. intros k Hk. destruct (nth_no_pos w h k ltac:(lia)) as [Hp Ek]. unfold puts.
    destruct (d_due D (nth_pos w k)) eqn:E; [|reflexivity]. cbn [andb]. apply F; auto. apply (above_no w h); auto. lia.
  - assert (X : exists k, (k < pos_no w q)%nat /\ puts D (nth_pos w k) = true).
    { destruct (existsb (fun k => puts D (nth_pos w k)) (seq 0 (pos_no w q))) eqn:E.
      - apply existsb_exists in E. destruct E as [k [H1 H2]]. apply in_seq in H1. exists k. split; [lia|exact H2].
      - exfalso. apply F. intros p Hp Ha Hdp. destruct (written (d_ink D p)) eqn:Ew; [|reflexivity]. exfalso.
        apply (above_no w h) in Ha; auto. destruct (pos_no_nth w h p Hp) as [Ep _].
        assert (T : existsb (fun k => puts D (nth_pos w k)) (seq 0 (pos_no w q)) = true).
        { apply existsb_exists. exists (pos_no w p). split; [apply in_seq; lia|]. unfold puts. rewrite Ep, Hdp, Ew. reflexivity. }
        congruence. }
    destruct X as [k [H1 H2]]. exact (drawing_pen_some w D _ k H1 H2).
Qed.
Lemma drawing_pen0 : forall w D n, d_pen D = rend0 -> drawing_pen w D n = rend0.
Proof. intros w D n H. induction n as [|n IH]; cbn [drawing_pen]; [exact H|]. destruct (_ && _); [reflexivity|exact IH]. Qed.

(** * True displays *)
Lemma true_act : forall sh w h D a, true_display sh w h D -> true_display sh w h (show_event sh w h D (EAct a)).
Proof.
  intros sh w h D [data tb force|fill|] [H1 H2]; cbn [show_event]; split; cbn [d_pen d_due d_seen d_ink]; auto.
  - intros q Hq E. apply orb_false_iff in E. destruct E as [E1 E2]. apply negb_false_iff, same_ink_iff in E2. rewrite E2. auto.
  - intros q Hq E. discriminate.
  - intros q Hq _. destruct (d_due D q) eqn:E; [|auto]. now rewrite drawing_pen0.
Qed.
Lemma true_acts : forall sh w h evs D, Forall no_pens evs -> true_display sh w h D -> true_display sh w h (fold_left (show_event sh w h) evs D).
Proof.
  intros sh w h evs. induction evs as [|v evs IH]; intros D Hv H; [exact H|]. inversion Hv as [|? ? H1 H2]; subst. cbn [fold_left].
  apply IH; auto. destruct v as [a| |]; try contradiction. now apply true_act.
Qed.
Lemma none_due_drawn : forall sh w h D q, d_due (show_event sh w h D (EAct ADraw)) q = false.
Proof. reflexivity. Qed.
(** after any events: draw, clear, and anything but full redraws *)
Lemma own_shown : forall sh w h evs fill acts D, Forall no_pens acts -> forall q, on_screen w h q ->
  let D' := fold_left (show_event sh w h) (evs ++ EAct ADraw :: EAct (AClear fill) :: acts ++ [EAct ADraw]) D in
  d_seen D' q = inked sh (d_ink D' q) rend0 /\ d_pen D' = rend0.
Proof.
  intros sh w h evs fill acts D Ha q Hq. cbv zeta. rewrite fold_left_app. cbn [fold_left]. rewrite fold_left_app. cbn [fold_left].
  set (D1 := fold_left _ evs D).
  assert (T : true_display sh w h (show_event sh w h (show_event sh w h D1 (EAct ADraw)) (EAct (AClear fill)))).
  { split; [reflexivity|]. intros p _ E. discriminate. }
  pose proof (true_act sh w h _ ADraw (true_acts sh w h acts _ Ha T)) as [T1 T2]. split; [|exact T1]. apply T2; auto.
Qed.
Lemma rest_shown : forall sh w h fill origin m acts, e_rend m = rend0 -> Forall no_pens acts -> forall q, on_screen w h q ->
  let D' := fold_left (show_event sh w h) (acts ++ [EAct ADraw]) (first_display fill origin m) in
  d_seen D' q = inked sh (d_ink D' q) rend0 /\ d_pen D' = rend0.
Proof.
  intros sh w h fill origin m acts Hm Ha q Hq. cbv zeta. rewrite fold_left_app. cbn [fold_left].
  assert (T : true_display sh w h (first_display fill origin m)) by (split; [exact Hm|intros p _ E; discriminate]).
  pose proof (true_act sh w h _ ADraw (true_acts sh w h acts _ Ha T)) as [T1 T2]. split; [|exact T1]. apply T2; auto.
Qed.

(** * The picture *)
Definition ink_look (sh : triple -> ecolor) (v : Z * rend) (i : ink) : Prop := inked sh i rend0 = (fst v, snd v, []).
Lemma span_ink_look : forall sh s, drawable s -> Forall2 (fun g i => ink_look sh (painted sh g) i) (map (fun c => (c, s)) (s_text s)) (span_inks s).
Proof.
  intros sh s [_ [Hr _]]. unfold span_inks.
  assert (G : forall f (g : tile -> ink), (s_reset s = false -> f = no_flags) -> forall text,
     Forall2 (fun c t => tile_char t = c /\ tile_flags t = f) text (worn_tiles f (s_reset s) text)).
  { intros f g Hf text. induction text as [|c text IH]; [constructor|]. destruct text as [|c' text].
    - cbn [worn_tiles]. constructor; [|constructor]. destruct (s_reset s); [split; reflexivity|]. rewrite Hf by reflexivity. split; reflexivity.
    - change (worn_tiles f (s_reset s) (c :: c' :: text)) with (mkTile c f false :: worn_tiles f (s_reset s) (c' :: text)). constructor; [split; reflexivity|exact IH]. }
  assert (Hf : s_reset s = false -> s_flags s = no_flags).
  { intro E. specialize (Hr E). apply same_flags_iff. unfold same_flags. apply forallb_forall. intros k _. rewrite Hr. destruct k; reflexivity. }
  specialize (G (s_flags s) (fun t => mkInk t None None) Hf (s_text s)).
  induction G as [|c t text ts [E1 E2] G IH]; [constructor|]. cbn [map]. constructor; [|exact IH].
  unfold ink_look, inked, painted. cbn [ink_tile ink_fg ink_bg fst snd option_map]. rewrite E1, E2. destruct (s_fg s), (s_bg s); reflexivity.
Qed.
Lemma data_ink_look : forall sh w h data, Forall (fun entry => Forall drawable (snd entry)) data ->
  Forall2 (same_place (fun g i => ink_look sh (painted sh g) i)) (flat_map (spots w h) data) (flat_map (ink_spots w h) data).
Proof.
  intros sh w h data H. induction H as [|[[x y] line] data Hl Hd IH]; [constructor|]. cbn [flat_map]. apply Forall2_app; [|exact IH].
  unfold spots, ink_spots. destruct (_ && _); [|constructor]. apply number_related. unfold glyphs. cbn [snd] in Hl.
  clear -Hl. induction Hl as [|s line Hs Hl IH]; [constructor|]. cbn [flat_map]. apply Forall2_app; [now apply span_ink_look|exact IH].
Qed.
Lemma ink_look_act : forall sh w h a P D, act_ok w h a -> (forall q, ink_look sh (P q) (d_ink D q)) ->
  forall q, ink_look sh (paint_act sh w h P a q) (d_ink (show_event sh w h D (EAct a)) q).
Proof.
  intros sh w h [data tb force|fill|] P D Ha H q; cbn [paint_act show_event d_ink]; [|reflexivity|apply H].
  destruct Ha as [_ [_ Hs]].
  pose proof (Forall2_rev _ _ _ _ _ (covering_related _ _ _ q _ _ (data_ink_look sh w h data Hs))) as CV.
  inversion CV as [E1 E2|g t l l' Hgt Hl E1 E2]; [apply H|exact Hgt].
Qed.
Lemma ink_look_acts : forall sh w h acts P D, Forall (act_ok w h) acts -> (forall q, ink_look sh (P q) (d_ink D q)) ->
  forall q, ink_look sh (fold_left (paint_act sh w h) acts P q) (d_ink (fold_left (show_event sh w h) (map EAct acts) D) q).
Proof.
  intros sh w h acts. induction acts as [|a acts IH]; intros P D Ha H; [exact H|]. inversion Ha as [|? ? H1 H2]; subst. cbn [map fold_left].
  apply IH; auto. now apply ink_look_act.
Qed.
Lemma act_event_ok : forall w h a, act_ok w h a -> event_ok w h (EAct a).
Proof.
  intros w h [data tb force|fill|] H; cbn in *; auto. destruct H as [A [B C]]. split; [exact A|]. split; [exact B|].
  revert C. apply Forall_impl. intros en. apply Forall_impl. intros s [D1 [_ D2]]. split; auto.
Qed.

(** Whatever happened before: a draw and a clear, and the screen is right from then on *)
Lemma recovered : forall e sh w h cursor fill origin m evs fill' acts, shades e sh -> is_ctl fill = false -> is_ctl fill' = false ->
  listening m -> fits w h origin m -> Forall (event_ok w h) evs -> Forall (act_ok w h) acts ->
  let '(_, _, m') := fold_left (perform_event e origin) (evs ++ EAct ADraw :: EAct (AClear fill') :: map EAct acts ++ [EAct ADraw])
    (new_screen w h cursor [fill], [], m) in
  let p := fold_left (paint_act sh w h) acts (blank fill') in
  (forall q, on_screen w h q -> seen origin m' q = (fst (p q), snd (p q), [])) /\ at_rest m'.
Proof.
  intros e sh w h cursor fill origin m evs fill' acts Hsh Hfill Hfill' Hm Hf Hv Ha.
  assert (HV : Forall (event_ok w h) (evs ++ EAct ADraw :: EAct (AClear fill') :: map EAct acts ++ [EAct ADraw])).
  { apply Forall_app. split; [exact Hv|]. constructor; [exact Logic.I|]. constructor; [exact Hfill'|]. apply Forall_app. split; [|constructor; [exact Logic.I|constructor]].
    apply Forall_map. revert Ha. apply Forall_impl. intros a. apply act_event_ok. }
  pose proof (shown_exactly e sh w h cursor fill origin m _ Hsh Hfill Hm Hf HV) as S.
  destruct (fold_left (perform_event e origin) _ _) as [[s c] m']. cbv zeta in *. destruct S as [S1 [_ [S3 [[S4 S5] _]]]].
  assert (NP : Forall no_pens (map EAct acts)) by (apply Forall_map, Forall_forall; intros; exact Logic.I).
  pose proof (own_shown sh w h evs fill' (map EAct acts) (first_display fill origin m) NP) as O. cbv zeta in O.
  set (D := fold_left (show_event sh w h) (evs ++ _) _) in *.
  split.
  - intros q Hq. rewrite S1 by exact Hq. destruct (O q Hq) as [-> _].
    assert (L : ink_look sh (fold_left (paint_act sh w h) acts (blank fill') q) (d_ink D q)).
    { unfold D. rewrite fold_left_app. cbn [fold_left]. rewrite fold_left_app. cbn [fold_left]. set (D1 := fold_left _ evs _).
      cbn [show_event d_ink]. apply (ink_look_acts sh w h acts (blank fill')); [exact Ha|]. intro q0. reflexivity. }
    exact L.
  - split; [exact S4|]. split; [|exact S5]. rewrite S3. unfold D. rewrite fold_left_app. cbn [fold_left]. rewrite fold_left_app. reflexivity.
Qed.
(** the same, with any inks *)
Lemma recovered_ink : forall e sh w h cursor fill origin m evs fill' acts, shades e sh -> is_ctl fill = false ->
  listening m -> fits w h origin m -> Forall no_pens acts ->
  let evs' := evs ++ EAct ADraw :: EAct (AClear fill') :: acts ++ [EAct ADraw] in Forall (event_ok w h) evs' ->
  let '(_, _, m') := fold_left (perform_event e origin) evs' (new_screen w h cursor [fill], [], m) in
  let D := fold_left (show_event sh w h) evs' (first_display fill origin m) in
  (forall q, on_screen w h q -> seen origin m' q = inked sh (d_ink D q) rend0) /\ at_rest m'.
Proof.
  intros e sh w h cursor fill origin m evs fill' acts Hsh Hfill Hm Hf NP evs' HV.
  pose proof (shown_exactly e sh w h cursor fill origin m _ Hsh Hfill Hm Hf HV) as S.
  destruct (fold_left (perform_event e origin) _ _) as [[s c] m']. cbv zeta in *. destruct S as [S1 [_ [S3 [[S4 S5] _]]]].
  pose proof (own_shown sh w h evs fill' acts (first_display fill origin m) NP) as O. cbv zeta in O. fold evs' in O.
  split.
  - intros q Hq. rewrite S1 by exact Hq. apply (O q Hq).
  - split; [exact S4|]. split; [|exact S5]. rewrite S3. unfold evs'. rewrite fold_left_app. cbn [fold_left]. rewrite fold_left_app. reflexivity.
Qed.
(** on a terminal at rest, without full redraws *)
Lemma rest_ink : forall e sh w h cursor fill origin m acts, shades e sh -> is_ctl fill = false ->
  at_rest m -> fits w h origin m -> Forall no_pens acts -> Forall (event_ok w h) acts ->
  let '(_, _, m') := fold_left (perform_event e origin) (acts ++ [EAct ADraw]) (new_screen w h cursor [fill], [], m) in
  let D := fold_left (show_event sh w h) (acts ++ [EAct ADraw]) (first_display fill origin m) in
  (forall q, on_screen w h q -> seen origin m' q = inked sh (d_ink D q) rend0) /\ at_rest m'.
Proof.
  intros e sh w h cursor fill origin m acts Hsh Hfill [M1 [M2 M3]] Hf NP HV.
  assert (HV' : Forall (event_ok w h) (acts ++ [EAct ADraw])) by (apply Forall_app; split; [exact HV|constructor; [exact Logic.I|constructor]]).
  pose proof (shown_exactly e sh w h cursor fill origin m _ Hsh Hfill (conj M1 M3) Hf HV') as S.
  destruct (fold_left (perform_event e origin) _ _) as [[s c] m']. cbv zeta in *. destruct S as [S1 [_ [S3 [[S4 S5] _]]]].
  pose proof (rest_shown sh w h fill origin m acts M2 NP) as O. cbv zeta in O.
  split.
  - intros q Hq. rewrite S1 by exact Hq. apply (O q Hq).
  - split; [exact S4|]. split; [|exact S5]. rewrite S3, fold_left_app. reflexivity.
Qed.

(** The next draw of a terminal *)
Lemma leaked : forall e sh w h cursor fill origin m evs, shades e sh -> is_ctl fill = false ->
  listening m -> fits w h origin m -> Forall (event_ok w h) evs ->
  let '(_, _, m') := fold_left (perform_event e origin) (evs ++ [EAct ADraw]) (new_screen w h cursor [fill], [], m) in
  let D := fold_left (show_event sh w h) evs (first_display fill origin m) in
  forall q, on_screen w h q -> 
    (d_due D q = false -> seen origin m' q = d_seen D q) /\
    (d_due D q = true -> first_due w h D q -> seen origin m' q = inked sh (d_ink D q) (d_pen D)) /\
    (d_due D q = true -> ~ first_due w h D q -> seen origin m' q = inked sh (d_ink D q) rend0).
Proof.
  intros e sh w h cursor fill origin m evs Hsh Hfill Hm Hf HV.
  assert (HV' : Forall (event_ok w h) (evs ++ [EAct ADraw])) by (apply Forall_app; split; [exact HV|constructor; [exact Logic.I|constructor]]).
  pose proof (shown_exactly e sh w h cursor fill origin m _ Hsh Hfill Hm Hf HV') as S.
  destruct (fold_left (perform_event e origin) _ _) as [[s c] m']. cbv zeta in *. destruct S as [S1 _]. rewrite fold_left_app in S1. cbn [fold_left] in S1.
  set (D := fold_left (show_event sh w h) evs (first_display fill origin m)) in *. intros q Hq. rewrite S1 by exact Hq. split; [|split].
  - intro E. cbn [show_event d_seen]. now rewrite E.
  - intros E F. now apply (next_draw sh w h D q Hq E).
  - intros E F. now apply (next_draw sh w h D q Hq E).
Qed.

(** * A program on a new terminal *)
Section Session.
Variables (v : tenv) (e : env) (tb : color) (sh : triple -> ecolor) (w h : Z) (origin : pos) (m0 : emu).
Hypothesis Hv : peaceful v.
Hypothesis Hsh : shades e sh.
Hypothesis Hf : fits w h origin m0.
Notation dinv := (dinv e w h origin (e_grid m0) (e_w m0) (e_h m0)).
Lemma event_done : forall s D r st, at_work v e tb origin s -> dinv (world_of m0 s) D -> stands_for tb r st -> event_ok w h (event_of st) ->
  exists s', ask r v s = (s', Ok tt) /\ at_work v e tb origin s' /\ world_of m0 s' = perform_event e origin (world_of m0 s) (event_of st).
Proof.
  intros s D r st W Wi R A. destruct r as [d p f|c| |]; cbn [stands_for] in R.
  - assert (X : exists l, (match d with PSpans l => Ok l | PStr t => parse_line t end) = Ok l /\ st = SAct (AWrite [(p, l)] tb f)).
    { destruct d as [l|t]; [exists l; auto|exact R]. }
    clear R. destruct X as [l [E ->]]. destruct W as [We Wt Wo].
    destruct A as [Hd [Ht Hs]]. destruct Wi as [I1 I2 I3 I4 I5 I6 _ _ _ _ _ _ _ _ _].
    cbn [world_of fst snd] in *.
    assert (Hcalm : calm_write (t_screen s) [(p, l)]) by (split; [exact I4|rewrite I1, I2; exact Hd]).
    assert (Hfine : fine_data [(p, l)]).
    { unfold fine_data. revert Hs. apply Forall_impl. intros en. apply Forall_impl. apply inkable_fine. }
    destruct (write_bulk_effect e (t_cache s) (t_screen s) [(p, l)] tb f I6 I3 Hcalm Ht Hfine) as [s' [c' [n [Ew _]]]].
    exists (set_screen s' c' s). split; [|split].
    + cbn [ask]. unfold seqM, bindM, twrite. rewrite We, Wt, E. unfold write. rewrite Ew. reflexivity.
    + split; [exact We|exact Wt|exact Wo].
    + unfold world_of. cbn [perform_event event_of perform]. rewrite Ew. reflexivity.
  - subst st. destruct W as [We Wt Wo]. eexists. split; [reflexivity|]. split; [split; [exact We|exact Wt|exact Wo]|reflexivity].
  - subst st. destruct (drawn_out v e tb origin m0 Hv s false W) as [s' [E [W' K]]]. exists s'. auto.
  - subst st. destruct (drawn_out v e tb origin m0 Hv s true W) as [s' [E [W' K]]]. exists s'. auto.
Qed.
Lemma events_done : forall reqs sts s D, at_work v e tb origin s -> dinv (world_of m0 s) D ->
  Forall2 (stands_for tb) reqs sts -> Forall (fun st => event_ok w h (event_of st)) sts ->
  exists s', ask_all reqs v s = (s', Ok tt) /\ world_of m0 s' = fold_left (perform_event e origin) (map event_of sts) (world_of m0 s).
Proof.
  intros reqs sts s D W I0 F. revert s D W I0. induction F as [|r a reqs sts R F IH]; intros s D W I0 A.
  - exists s. auto.
  - inversion A as [|? ? A1 A2]; subst.
    destruct (event_done s D r a W I0 R A1) as [s1 [E1 [W1 K1]]].
    destruct (IH s1 (show_event sh w h D (event_of a)) W1) as [s2 [E2 K2]]; [|exact A2|].
    + rewrite K1. apply dinv_event; auto.
    + exists s2. split; [|cbn [map fold_left]; now rewrite K2, K1].
      cbn [ask_all fold_right]. unfold seqM, bindM at 1. rewrite E1. exact E2.
Qed.
End Session.
Lemma session_exactly : forall v e bg tb sh m reqs sts, peaceful v -> color_env v (new_terminal v bg) = Ok e ->
  as_background bg true None = Ok tb -> shades e sh -> listening m -> fits (fst (te_size v)) (snd (te_size v)) (1, 1) m ->
  Forall2 (stands_for tb) reqs sts -> Forall (fun st => event_ok (fst (te_size v)) (snd (te_size v)) (event_of st)) sts ->
  exists s, ask_all reqs v (new_terminal v bg) = (s, Ok tt) /\
    let m' := vt (t_out s) m in
    let D := fold_left (show_event sh (fst (te_size v)) (snd (te_size v))) (map event_of sts) (first_display 32 (1, 1) m) in
    (forall x y, 0 <= x < fst (te_size v) -> 0 <= y < snd (te_size v) -> e_grid m' x y = d_seen D (x, y)) /\
    (forall x y, ~ (0 <= x < fst (te_size v) /\ 0 <= y < snd (te_size v)) -> e_grid m' x y = e_grid m x y) /\
    e_rend m' = d_pen D /\ listening m'.
Proof.
  intros v e bg tb sh m reqs sts Hv He Ht Hsh Hm Hf F A. set (w := fst (te_size v)) in *. set (h := snd (te_size v)) in *.
  pose proof (new_at_work v e bg tb He Ht) as W0.
  pose proof (dinv_start e w h (1, 1) (e_grid m) (e_w m) (e_h m) (0, 0) 32 m eq_refl Hm eq_refl eq_refl eq_refl) as I0.
  destruct (events_done v e tb sh w h (1, 1) m Hv Hsh Hf reqs sts (new_terminal v bg) _ W0 I0 F A) as [s [E K]].
  exists s. split; [exact E|].
  assert (A' : Forall (event_ok w h) (map event_of sts)) by (apply Forall_map; exact A).
  pose proof (shown_exactly e sh w h (0, 0) 32 (1, 1) m (map event_of sts) Hsh eq_refl Hm Hf A') as D.
  destruct (fold_left (perform_event e (1, 1)) _ _) as [[s1 c1] m1] eqn:E1 in D.
  assert (EQ : (s1, c1, m1) = (t_screen s, t_cache s, vt (t_out s) m)) by (rewrite <- E1; symmetry; exact K).
  injection EQ as _ _ ->. cbv zeta in D |- *. destruct D as [D1 [D2 [D3 [D4 _]]]].
  split; [|split; [|split; [exact D3|exact D4]]].
  - intros x y Hx Hy. pose proof (D1 (x, y) (conj Hx Hy)) as D. unfold seen in D. cbn [fst snd] in D.
    replace (x + 1 - 1) with x in D by lia. replace (y + 1 - 1) with y in D by lia. exact D.
  - intros x y N. apply D2. cbn [fst snd]. unfold on_screen. cbn [fst snd]. lia.
Qed.
