(** Lemmas: programs that repaint when the window gets another size. *)
From Coq Require Import ZArith Reals List Bool Lia String.
From Verif Require Import PyBase PyLemmas F64 SpaceModel ColorModel ColorSpec AnsiRe SpanModel Vt SpanSpec
  ScreenModel ScreenSpec ScreenProofs4 DrawSpec DrawProofs2 RedrawSpec TileSpec PenSpec PenProofs PenProofs2 PenProofs3
  CoreModel TermModel TermSpec SessionSpec SessionProofs ReshapeSpec ReshapeModel ReshapeProofs ReshapeProofs2 PainterSpec.
Import ListNotations.
Open Scope Z_scope.
Open Scope list_scope.

(** what requests do not change *)
Record same_rest (s s' : tstate) : Prop := {
  sr_prev : t_prev s' = t_prev s; sr_forced : t_forced s' = t_forced s; sr_bg : t_bgcol s' = t_bgcol s; sr_origin : t_origin s' = t_origin s
}.
Lemma same_rest_refl : forall s, same_rest s s.
Proof. split; reflexivity. Qed.
Lemma same_rest_trans : forall a b c, same_rest a b -> same_rest b c -> same_rest a c.
Proof. intros a b c [] []. split; congruence. Qed.

Section Turn.
Variables (v : tenv) (e : env) (tb : color) (sh : triple -> ecolor) (origin : pos) (m0 : emu).
Hypothesis Hv : peaceful v.
Hypothesis Hsh : shades e sh.
Lemma at_work_same : forall s s', same_rest s s' -> at_work v e tb origin s -> at_work v e tb origin s'.
Proof.
  intros s s' [S1 S2 S3 S4] [W1 W2 W3]. split; [|congruence|congruence].
  unfold color_env, color_space in *. rewrite S2. exact W1.
Qed.
Lemma draw_sends : forall s b, at_work v e tb origin s -> exists s', draw b v s = (s', Ok tt) /\ same_rest s s' /\
  world_of m0 s' = let '(ansi, sc) := render (t_screen s) origin b in (sc, t_cache s, vt ansi (vt (t_out s) m0)).
Proof.
  intros s b [We Wt Wo]. destruct Hv as [Hc Hfile]. unfold draw. rewrite Wo.
  destruct (render (t_screen s) origin b) as [ansi sc]. rewrite Hfile. unfold stream_write.
  cbn [set_screen t_writes]. rewrite Hc. eexists. split; [reflexivity|]. split; [split; reflexivity|].
  unfold world_of. cbn [set_out set_screen t_screen t_cache t_out]. now rewrite vt_twice.
Qed.
Lemma request_done : forall s V r st, at_work v e tb origin s -> vinv e origin (world_of m0 s) V -> stands_for tb r st ->
  happening_ok origin V (HDo (event_of st)) ->
  exists s', ask r v s = (s', Ok tt) /\ same_rest s s' /\ world_of m0 s' = happen e origin (world_of m0 s) (HDo (event_of st)).
Proof.
  intros s V r st W Wi R A. destruct r as [d p f|c| |]; cbn [stands_for] in R.
  - assert (X : exists l, (match d with PSpans l => Ok l | PStr t => parse_line t end) = Ok l /\ st = SAct (AWrite [(p, l)] tb f)).
    { destruct d as [l|t]; [exists l; auto|exact R]. }
    clear R. destruct X as [l [E ->]]. destruct W as [We Wt Wo].
    destruct A as [[Hd [Ht Hs]] _]. destruct Wi as [I1 I2 I3 I4 I5 I6 _ _ _ _ _ _ _].
    cbn [world_of fst snd] in *.
    assert (Hcalm : calm_write (t_screen s) [(p, l)]) by (split; [exact I4|rewrite I1, I2; exact Hd]).
    assert (Hfine : fine_data [(p, l)]).
    { unfold fine_data. revert Hs. apply Forall_impl. intros en. apply Forall_impl. apply inkable_fine. }
    destruct (write_bulk_effect e (t_cache s) (t_screen s) [(p, l)] tb f I6 I3 Hcalm Ht Hfine) as [s' [c' [n [Ew _]]]].
    exists (set_screen s' c' s). split; [|split].
    + cbn [ask]. unfold seqM, bindM, twrite. rewrite We, Wt, E. unfold write. rewrite Ew. reflexivity.
    + split; reflexivity.
    + unfold world_of. cbn [happen perform_event event_of perform]. rewrite Ew. reflexivity.
  - subst st. eexists. split; [reflexivity|]. split; [split; reflexivity|reflexivity].
  - subst st. destruct (draw_sends s false W) as [s' [E [S' K]]]. exists s'. auto.
  - subst st. destruct (draw_sends s true W) as [s' [E [S' K]]]. exists s'. auto.
Qed.
Lemma requests_done : forall reqs sts s V, at_work v e tb origin s -> vinv e origin (world_of m0 s) V ->
  Forall2 (stands_for tb) reqs sts -> happenings_ok sh origin V (dos sts) ->
  exists s', ask_all reqs v s = (s', Ok tt) /\ same_rest s s' /\ vinv e origin (world_of m0 s') (shows sh origin V (dos sts)).
Proof.
  intros reqs sts s V W I0 F. revert s V W I0. induction F as [|r a reqs sts R F IH]; intros s V W I0 A.
  - exists s. split; [reflexivity|]. split; [apply same_rest_refl|exact I0].
  - destruct A as [A1 A2]. destruct (request_done s V r a W I0 R A1) as [s1 [E1 [S1 K1]]].
    destruct (IH s1 (show sh origin V (HDo (event_of a)))) as [s2 [E2 [S2 K2]]]; [now apply (at_work_same s)| |exact A2|].
    + rewrite K1. apply vinv_happen; auto.
    + exists s2. split; [|split; [exact (same_rest_trans _ _ _ S1 S2)|exact K2]].
      cbn [ask_all fold_right]. unfold seqM, bindM at 1. rewrite E1. exact E2.
Qed.
End Turn.

Lemma ask_all_app : forall a b v s, ask_all (a ++ b) v s = (ask_all a ;; ask_all b) v s.
Proof.
  intros a b v. induction a as [|r a IH]; intro s; [reflexivity|]. cbn [app ask_all fold_right]. unfold seqM, bindM in *.
  destruct (ask r v s) as [s1 [x|x]]; [|reflexivity]. fold (ask_all (a ++ b)). fold (ask_all a). rewrite IH. reflexivity.
Qed.
Lemma tell_asks : forall paints sz v s, tell sz (asking paints) v s = ask_all (flat_map (fun p => p sz) paints) v s.
Proof.
  intros paints sz v. induction paints as [|p paints IH]; intro s; [reflexivity|]. cbn [asking map tell flat_map].
  rewrite ask_all_app. unfold seqM, bindM. destruct (ask_all (p sz) v s) as [s1 [x|x]]; [|reflexivity]. apply IH.
Qed.
Lemma size_eqb_iff : forall a b, size_eqb a b = true <-> a = b.
Proof. intros [a1 a2] [b1 b2]. unfold size_eqb. cbn [fst snd]. rewrite andb_true_iff, !Z.eqb_eq. split; [intros [-> ->]; reflexivity|]. intro E. injection E as -> ->. auto. Qed.

Section Turns.
Variables (v0 : tenv) (bg : color) (e : env) (tb : color) (sh : triple -> ecolor).
Variables (paints : list (Z * Z -> list request)) (paint : Z * Z -> list step).
Hypothesis Hsh : shades e sh.
Hypothesis Hbg : as_background bg true None = Ok tb.
Hypothesis Hpaint : forall sz, Forall2 (stands_for tb) (flat_map (fun p => p sz) paints) (paint sz).

Record tinv (k : tstate * emu) (V : view) : Prop := {
  ti_world : vinv e (1, 1) (t_screen (fst k), t_cache (fst k), snd k) V;
  ti_prev : t_prev (fst k) = Some (v_w V, v_h V);
  ti_forced : t_forced (fst k) = None;
  ti_bg : t_bgcol (fst k) = bg;
  ti_origin : t_origin (fst k) = (1, 1)
}.
Lemma size_steady : forall sts V, v_w (shows sh (1, 1) V (dos sts)) = v_w V /\ v_h (shows sh (1, 1) V (dos sts)) = v_h V.
Proof.
  intro sts. induction sts as [|st sts IH]; intro V; [split; reflexivity|].
  change (shows sh (1, 1) V (dos (st :: sts))) with (shows sh (1, 1) (show sh (1, 1) V (HDo (event_of st))) (dos sts)).
  destruct (IH (show sh (1, 1) V (HDo (event_of st)))) as [-> ->]. destruct V as [w h tw th ink due seen_ pen]. destruct st as [[| |]|]; split; reflexivity.
Qed.
Lemma turn_done : forall t sts k V, tinv k V -> turn_fair v0 bg e tb (t, sts) ->
  happenings_ok sh (1, 1) V (turn_happenings paint V t sts) ->
  exists k', take_turn (asking paints) t k = Ok k' /\ tinv k' (shows sh (1, 1) V (turn_happenings paint V t sts)).
Proof.
  intros [v window reqs] sts [s m] V [T1 T2 T3 T4 T5] [Hv [He Hr]] Hh. cbn [fst snd tn_env tn_reqs tn_window] in *.
  unfold turn_happenings in *. cbn [tn_env tn_window tn_reqs] in *. set (sz := te_size v) in *.
  set (m1 := match window with Some m' => m' | None => m end).
  apply happenings_app in Hh. destruct Hh as [Hh1 Hh2]. rewrite !shows_app.
  set (V1 := shows sh (1, 1) V (match window with Some m' => [HTerminal m'] | None => [] end)) in *.
  assert (W1 : vinv e (1, 1) (world_of m1 (heard s)) V1 /\ v_w V1 = v_w V /\ v_h V1 = v_h V).
  { unfold V1, m1. destruct window as [m'|].
    - split; [|destruct V; split; reflexivity]. destruct Hh1 as [Hh1 _]. exact (vinv_happen e sh (1, 1) Hsh _ _ (HTerminal m') T1 Hh1).
    - split; [exact T1|split; reflexivity]. }
  destruct W1 as [W1 [Ww Wh]]. clearbody V1. clear T1 Hh1.
  apply happenings_app in Hh2. destruct Hh2 as [Hh2 Hh3].
  assert (AW : at_work v e tb (1, 1) (heard s)).
  { split; [|cbn [heard set_out t_bgcol]; rewrite T4; exact Hbg|exact T5]. unfold color_env, color_space in *. cbn [heard set_out t_forced].
    rewrite T3. exact He. }
  cbn [take_turn tn_env tn_reqs tn_window]. fold m1.
  assert (SZ : exists s2, size_with (asking paints) v (heard s) = (set_prev (Some sz) s2, Ok sz) /\ same_rest (heard s) s2 /\
    vinv e (1, 1) (world_of m1 s2) (shows sh (1, 1) V1 (if size_eqb sz (v_w V, v_h V) then [] else HResize (fst sz) (snd sz) 32 true :: dos (paint sz)))).
  { unfold size_with. fold sz. cbn [heard set_out t_prev]. rewrite T2. destruct (size_eqb sz (v_w V, v_h V)) eqn:E.
    - exists (heard s). split; [reflexivity|]. split; [apply same_rest_refl|exact W1].
    - set (s1 := set_screen (resize (t_screen (heard s)) sz (lit " ") true) (t_cache (heard s)) (heard s)).
      destruct Hh2 as [Hr1 Hr2].
      assert (I1 : vinv e (1, 1) (world_of m1 s1) (show sh (1, 1) V1 (HResize (fst sz) (snd sz) 32 true))).
      { pose proof (vinv_happen e sh (1, 1) Hsh _ _ (HResize (fst sz) (snd sz) 32 true) W1 Hr1) as X.
        unfold world_of, s1 in *. cbn [happen] in X. destruct sz as [w h]. exact X. }
      destruct (requests_done v e tb sh (1, 1) m1 Hv Hsh _ _ s1 _ (at_work_same v e tb (1, 1) (heard s) s1 ltac:(split; reflexivity) AW) I1 (Hpaint sz) Hr2) as [s2 [E2 [S2 I2]]].
      exists s2. split; [|split; [|exact I2]].
      + unfold seqM, bindM. fold s1. rewrite tell_asks, E2. reflexivity.
      + apply (same_rest_trans _ s1); [split; reflexivity|exact S2]. }
  destruct SZ as [s2 [E2 [S2 I2]]]. set (V2 := shows sh (1, 1) V1 _) in *.
  assert (AW3 : at_work v e tb (1, 1) (set_prev (Some sz) s2)).
  { pose proof (at_work_same v e tb (1, 1) _ _ S2 AW) as [X1 X2 X3]. split; assumption. }
  destruct (requests_done v e tb sh (1, 1) m1 Hv Hsh _ _ (set_prev (Some sz) s2) V2 AW3 I2 Hr Hh3) as [s3 [E3 [S3 I3]]].
  exists (s3, vt (t_out s3) m1). split.
  - unfold seqM, bindM. rewrite E2, E3. reflexivity.
  - destruct S3 as [P1 P2 P3 P4]. destruct S2 as [Q1 Q2 Q3 Q4]. split; cbn [fst snd]; try (cbn [heard set_out set_prev t_prev t_forced t_bgcol t_origin] in *; congruence).
    + exact I3.
    + rewrite P1. cbn [set_prev t_prev]. f_equal. destruct (size_steady sts V2) as [-> ->]. unfold V2.
      destruct (size_eqb sz (v_w V, v_h V)) eqn:E.
      * apply size_eqb_iff in E. cbn [shows fold_left]. congruence.
      * change (shows sh (1, 1) V1 (HResize (fst sz) (snd sz) 32 true :: dos (paint sz))) with (shows sh (1, 1) (show sh (1, 1) V1 (HResize (fst sz) (snd sz) 32 true)) (dos (paint sz))).
        destruct (size_steady (paint sz) (show sh (1, 1) V1 (HResize (fst sz) (snd sz) 32 true))) as [-> ->]. destruct V1, sz. reflexivity.
Qed.
Lemma turns_done : forall ts k V, tinv k V -> Forall (turn_fair v0 bg e tb) ts -> turns_ok sh paint V ts ->
  exists k', take_turns (asking paints) (map fst ts) k = Ok k' /\ tinv k' (turns_view sh paint V ts).
Proof.
  intro ts. induction ts as [|[t sts] ts IH]; intros k V I F H; [exists k; split; [reflexivity|exact I]|].
  inversion F as [|? ? F1 F2]; subst. destruct H as [H1 H2]. destruct (turn_done t sts k V I F1 H1) as [k1 [E1 I1]].
  destruct (IH k1 _ I1 F2 H2) as [k2 [E2 I2]]. exists k2. split; [|exact I2]. cbn [map take_turns]. change (fst (t, sts)) with t. rewrite E1. exact E2.
Qed.
Lemma tinv_start : forall m, listening m -> tinv (new_terminal v0 bg, m) (first_view (fst (te_size v0)) (snd (te_size v0)) 32 (1, 1) m).
Proof.
  intros m Hm. split; cbn [fst snd new_terminal t_screen t_cache t_prev t_forced t_bgcol t_origin first_view v_w v_h]; try reflexivity.
  - apply vinv_start; [reflexivity|exact Hm].
  - now destruct (te_size v0).
Qed.
End Turns.

(** * The theorem *)
Lemma turns_exactly : forall v0 bg e tb sh paints paint m ts, shades e sh -> as_background bg true None = Ok tb ->
  (forall sz, Forall2 (stands_for tb) (flat_map (fun p => p sz) paints) (paint sz)) ->
  listening m -> Forall (turn_fair v0 bg e tb) ts ->
  let V0 := first_view (fst (te_size v0)) (snd (te_size v0)) 32 (1, 1) m in
  turns_ok sh paint V0 ts ->
  exists s m', take_turns (asking paints) (map fst ts) (new_terminal v0 bg, m) = Ok (s, m') /\
    let V := turns_view sh paint V0 ts in
    (forall x y, e_grid m' x y = v_seen V (x, y)) /\ e_rend m' = v_pen V /\ listening m' /\
    t_prev s = Some (v_w V, v_h V) /\ (sc_w (t_screen s), sc_h (t_screen s)) = (v_w V, v_h V).
Proof.
  intros v0 bg e tb sh paints paint m ts Hsh Hbg Hp Hm F V0 H.
  destruct (turns_done v0 bg e tb sh paints paint Hsh Hbg Hp ts _ V0 (tinv_start v0 bg e m Hm) F H) as [[s m'] [E [T1 T2 _ _ _]]].
  exists s, m'. split; [exact E|]. cbv zeta. set (V := turns_view sh paint V0 ts) in *. cbn [fst snd] in *.
  destruct T1 as [I1 I2 I3 I4 I5 I6 I7 I8 I9 I10 I11 I12 I13]. cbn [fst snd] in *.
  split; [|split; [exact I8|split; [exact I7|split; [exact T2|congruence]]]].
  intros x y. specialize (I13 (x, y)). unfold seen in I13. cbn [fst snd] in I13. rewrite <- I13. f_equal; lia.
Qed.
