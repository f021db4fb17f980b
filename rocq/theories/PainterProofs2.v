(** Lemmas: loops that read the size and draw, with a listener that paints. *)
From Coq Require Import ZArith Reals List Bool Lia String.
From Verif Require Import PyBase PyLemmas F64 SpaceModel ColorModel ColorSpec AnsiRe SpanModel Vt SpanSpec
  ScreenModel ScreenSpec ScreenProofs4 DrawSpec DrawProofs2 RedrawSpec TileSpec TileProofs PenSpec PenProofs PenProofs2 PenProofs3
  CoreModel TermModel TermSpec SessionSpec SessionProofs ReshapeSpec ReshapeModel ReshapeProofs ReshapeProofs2 PainterSpec PainterProofs.
Import ListNotations.
Open Scope Z_scope.
Open Scope list_scope.

Section Loop.
Variables (sh : triple -> ecolor) (paint : Z * Z -> list step) (F : Z * Z -> pos -> ecell).
Record good (V : view) : Prop := {
  g_pen : v_pen V = rend0; g_due : forall q, v_due V q = None; g_room : (v_tw V, v_th V) = (v_w V, v_h V);
  g_seen : forall q, on_screen (v_w V) (v_h V) q -> v_seen V q = F (v_w V, v_h V) q
}.
Hypothesis Hpaint : forall V, 0 <= v_w V -> 0 <= v_h V -> v_pen V = rend0 -> due_inside V -> (v_tw V, v_th V) = (v_w V, v_h V) ->
  happenings_ok sh (1, 1) V (dos (paint (v_w V, v_h V))) /\ good (shows sh (1, 1) V (dos (paint (v_w V, v_h V)))).

Lemma roomy_window : forall V, (v_tw V, v_th V) = (v_w V, v_h V) -> roomy (1, 1) V.
Proof. intros V E. injection E as E1 E2. unfold roomy. cbn [fst snd]. lia. Qed.
Lemma good_draw : forall V, good V -> happenings_ok sh (1, 1) V (dos [SAct ADraw]) /\ good (shows sh (1, 1) V (dos [SAct ADraw])) /\
  v_w (shows sh (1, 1) V (dos [SAct ADraw])) = v_w V /\ v_h (shows sh (1, 1) V (dos [SAct ADraw])) = v_h V.
Proof.
  intros V [G1 G2 G3 G4]. split.
  - cbn [dos map event_of happenings_ok happening_ok]. split; [|exact Logic.I]. split; [exact Logic.I|]. split; [now apply roomy_window|].
    intros q N. exfalso. apply N. apply G2.
  - destruct V as [w h tw th ink due seen_ pen]. cbn [v_w v_h v_tw v_th v_ink v_due v_seen v_pen] in *. split; [|split; reflexivity].
    split; cbn [dos map event_of shows fold_left show v_w v_h v_tw v_th v_ink v_due v_seen v_pen]; auto.
    intros q Hq. rewrite G2. auto.
Qed.
Lemma good_turn : forall v w V, good V -> 0 <= v_w V -> 0 <= v_h V -> polls (v_w V, v_h V) [(v, w)] ->
  let hs := turn_happenings paint V (mkTurn v w [RDraw]) [SAct ADraw] in
  happenings_ok sh (1, 1) V hs /\ good (shows sh (1, 1) V hs) /\ (v_w (shows sh (1, 1) V hs), v_h (shows sh (1, 1) V hs)) = te_size v /\
  0 <= fst (te_size v) /\ 0 <= snd (te_size v).
Proof.
  intros v w V G W0 H0 P. cbv zeta. unfold turn_happenings. cbn [tn_env tn_window].
  destruct w as [m|].
  - destruct P as [[Hm [Hs [Hw Hh]]] [Hne _]]. destruct (size_eqb (te_size v) (v_w V, v_h V)) eqn:E.
    { apply size_eqb_iff in E. contradiction. }
    destruct (te_size v) as [nw nh] eqn:Es. cbn [fst snd]. injection Hs as S1 S2.
    change ([HTerminal m] ++ (HResize nw nh 32 true :: dos (paint (nw, nh))) ++ dos [SAct ADraw]) with
      (window m nw nh 32 true ++ dos (paint (nw, nh)) ++ dos [SAct ADraw]).
    rewrite !shows_app. pose proof (after_window sh (1, 1) V m nw nh 32 true) as AW. cbv zeta in AW.
    set (V1 := shows sh (1, 1) V (window m nw nh 32 true)) in *. destruct AW as [A1 [A2 [A3 [A4 [A5 [A6 [A7 A8]]]]]]].
    assert (R1 : v_pen V1 = rend0) by (rewrite A5; apply Hm).
    assert (D1 : due_inside V1).
    { intros q. rewrite A8, A1, A2. destruct (inside nw nh q) eqn:Ei; [intros _; now apply inside_iff|]. rewrite (g_due V G). congruence. }
    assert (X1 : (v_tw V1, v_th V1) = (v_w V1, v_h V1)) by (rewrite A1, A2, A3, A4; congruence).
    destruct (Hpaint V1) as [P1 P2]; try assumption; try lia. rewrite A1, A2 in P1, P2.
    destruct (size_steady sh (paint (nw, nh)) V1) as [Z1 Z2]. set (V2 := shows sh (1, 1) V1 (dos (paint (nw, nh)))) in *.
    destruct (good_draw V2 P2) as [Q1 [Q2 [Q3 Q4]]].
    split; [|split; [exact Q2|split; [congruence|lia]]].
    apply happenings_app. split; [|apply happenings_app; split; [exact P1|exact Q1]].
    cbn [window happenings_ok happening_ok]. destruct Hm as [M1 [M2 M3]]. split; [split; assumption|]. split; [reflexivity|exact Logic.I].
  - destruct P as [Hs _]. rewrite Hs. assert (E : size_eqb (v_w V, v_h V) (v_w V, v_h V) = true) by now apply size_eqb_iff.
    rewrite E. cbn [app]. destruct (good_draw V G) as [Q1 [Q2 [Q3 Q4]]]. split; [exact Q1|]. split; [exact Q2|]. split; [congruence|]. cbn [fst snd]. lia.
Qed.
Definition draw_turns (l : list (tenv * option emu)) : list (turn * list step) := map (fun t => draw_turn (fst t) (snd t)) l.
Lemma good_turns : forall l V, good V -> 0 <= v_w V -> 0 <= v_h V -> polls (v_w V, v_h V) l ->
  turns_ok sh paint V (draw_turns l) /\ good (turns_view sh paint V (draw_turns l)) /\
  (v_w (turns_view sh paint V (draw_turns l)), v_h (turns_view sh paint V (draw_turns l))) = last_size (v_w V, v_h V) l.
Proof.
  intro l. induction l as [|[v w] l IH]; intros V G W0 H0 P; [split; [exact Logic.I|split; [exact G|reflexivity]]|].
  assert (P1 : polls (v_w V, v_h V) [(v, w)]) by (destruct w; cbn in *; tauto).
  assert (P2 : polls (te_size v) l) by (destruct w; cbn in P; [tauto|destruct P as [-> P]; exact P]).
  destruct (good_turn v w V G W0 H0 P1) as [T1 [T2 [T3 [T4 T5]]]]. cbn [draw_turns map draw_turn fst snd turns_ok turns_view].
  set (V1 := shows sh (1, 1) V _) in *. destruct (IH V1 T2) as [I1 [I2 I3]].
  - destruct (te_size v) as [a b]. injection T3 as T3 _. cbn in T4. lia.
  - destruct (te_size v) as [a b]. injection T3 as _ T3. cbn in T5. lia.
  - rewrite T3. exact P2.
  - split; [split; [exact T1|exact I1]|]. split; [exact I2|]. fold (draw_turns l). rewrite I3, T3. reflexivity.
Qed.
End Loop.

(** * The program *)
Lemma loop_done : forall v0 bg e tb sh reqs paint F m l, shades e sh -> as_background bg true None = Ok tb ->
  (forall sz, Forall2 (stands_for tb) (reqs sz) (paint sz)) ->
  (forall V, 0 <= v_w V -> 0 <= v_h V -> v_pen V = rend0 -> due_inside V -> (v_tw V, v_th V) = (v_w V, v_h V) ->
    happenings_ok sh (1, 1) V (dos (paint (v_w V, v_h V))) /\ good F (shows sh (1, 1) V (dos (paint (v_w V, v_h V))))) ->
  window_of v0 m -> polls (te_size v0) l ->
  Forall (fun v => peaceful v /\ color_env v (new_terminal v0 bg) = Ok e) (v0 :: map fst l) ->
  exists s m', take_turns (asking [reqs]) (looping reqs v0 l) (new_terminal v0 bg, m) = Ok (s, m') /\
    (forall x y, on_screen (fst (last_size (te_size v0) l)) (snd (last_size (te_size v0) l)) (x, y) ->
       e_grid m' x y = F (last_size (te_size v0) l) (x, y)) /\
    (sc_w (t_screen s), sc_h (t_screen s)) = last_size (te_size v0) l /\ at_rest m'.
Proof.
  intros v0 bg e tb sh reqs paint F m l Hsh Hbg Hst Hp [Hm [Hs [Hw Hh]]] Hl Hv.
  set (V0 := first_view (fst (te_size v0)) (snd (te_size v0)) 32 (1, 1) m).
  assert (SZ : (v_w V0, v_h V0) = te_size v0) by (unfold V0; cbn; now destruct (te_size v0)).
  assert (N0 : 0 <= v_w V0 /\ 0 <= v_h V0) by (unfold V0; cbn; rewrite <- Hs; cbn; lia).
  destruct (Hp V0) as [P1 P2].
  { apply N0. } { apply N0. } { apply Hm. }
  { intro q. unfold V0. cbn [first_view v_due v_w v_h]. destruct (inside _ _ q) eqn:E; [intros _; now apply inside_iff|congruence]. }
  { unfold V0. cbn [first_view v_tw v_th v_w v_h]. rewrite <- Hs. reflexivity. }
  rewrite SZ in P1, P2. set (V1 := shows sh (1, 1) V0 (dos (paint (te_size v0)))) in *.
  destruct (size_steady sh (paint (te_size v0)) V0) as [Z1 Z2]. fold V1 in Z1, Z2.
  assert (SZ1 : (v_w V1, v_h V1) = te_size v0) by congruence.
  destruct (good_turns sh paint F Hp l V1 P2) as [T1 [T2 T3]]; [rewrite Z1; apply N0|rewrite Z2; apply N0|rewrite SZ1; exact Hl|].
  rewrite SZ1 in T3.
  set (ts := (mkTurn v0 None (reqs (te_size v0)), paint (te_size v0)) :: draw_turns l).
  assert (TH : turn_happenings paint V0 (mkTurn v0 None (reqs (te_size v0))) (paint (te_size v0)) = dos (paint (te_size v0))).
  { unfold turn_happenings. cbn [tn_env tn_window]. rewrite SZ. assert (E : size_eqb (te_size v0) (te_size v0) = true) by now apply size_eqb_iff. now rewrite E. }
  destruct (turns_exactly v0 bg e tb sh [reqs] paint m ts Hsh Hbg) as [s [m' [E [S1 [S2 [S3 [S4 S5]]]]]]].
  - intro sz. cbn [flat_map]. rewrite app_nil_r. apply Hst.
  - destruct Hm as [X1 [X2 X3]]. split; assumption.
  - inversion Hv as [|? ? [F1 F2] F3]; subst. constructor; [split; [exact F1|]; split; [exact F2|apply Hst]|].
    unfold draw_turns. apply Forall_map. apply Forall_map in F3. revert F3. apply Forall_impl. intros [v w] [Y1 Y2].
    split; [exact Y1|]. split; [exact Y2|]. constructor; [reflexivity|constructor].
  - fold V0. split; [rewrite TH; exact P1|rewrite TH; exact T1].
  - fold V0 in S1, S2, S4, S5. cbn [ts turns_view] in S1, S2, S4, S5. rewrite TH in S1, S2, S4, S5. fold V1 in S1, S2, S4, S5.
    set (V2 := turns_view sh paint V1 (draw_turns l)) in *. exists s, m'. split; [|split; [|split]].
    + rewrite <- E. unfold looping, ts, draw_turns. cbn [map fst]. rewrite map_map. reflexivity.
    + intros x y Hq. rewrite S1. destruct T2 as [G1 G2 G3 G4]. rewrite <- T3 in *. cbn [fst snd] in Hq. now apply G4.
    + now rewrite S5.
    + destruct S3 as [L1 L2]. split; [exact L1|]. split; [rewrite S2; apply T2|exact L2].
Qed.

(** * Painters that clear and draw *)
Lemma dos_acts : forall acts, dos (map SAct acts) = do_acts acts.
Proof. intro acts. unfold dos, do_acts. rewrite map_map. reflexivity. Qed.
Lemma clear_paint_draw : forall sh fill acts V, is_ctl fill = false -> Forall (act_ok (v_w V) (v_h V)) acts ->
  v_pen V = rend0 -> due_inside V -> (v_tw V, v_th V) = (v_w V, v_h V) ->
  let l := do_acts (AClear fill :: acts ++ [ADraw]) in
  let V' := shows sh (1, 1) V l in
  happenings_ok sh (1, 1) V l /\ v_pen V' = rend0 /\ (forall q, v_due V' q = None) /\ (v_tw V', v_th V') = (v_w V', v_h V') /\
  v_w V' = v_w V /\ v_h V' = v_h V /\
  (forall q, on_screen (v_w V) (v_h V) q ->
     let p := fold_left (paint_act sh (v_w V) (v_h V)) acts (blank fill) in v_seen V' q = (fst (p q), snd (p q), [])).
Proof.
  intros sh fill acts V Hf Ha Hp Hd Hr l V'.
  assert (OKS : Forall (fun a => event_ok (v_w V) (v_h V) (EAct a)) (AClear fill :: acts ++ [ADraw])).
  { constructor; [exact Hf|]. apply Forall_app. split; [|constructor; [exact Logic.I|constructor]].
    revert Ha. apply Forall_impl. intros a. apply act_event_ok. }
  split; [apply acts_happen; [now apply roomy_window|exact Hd|exact OKS]|].
  destruct (steady_acts sh (1, 1) (AClear fill :: acts ++ [ADraw]) V) as [B1 B2 B3 B4 B5]. fold l V' in B1, B2, B3, B4, B5.
  set (Vc := show sh (1, 1) V (HDo (EAct (AClear fill)))).
  destruct (steady_act sh (1, 1) V (AClear fill)) as [C1 C2 C3 C4 C5]. fold Vc in C1, C2, C3, C4, C5.
  set (Va := shows sh (1, 1) Vc (do_acts acts)).
  assert (E2 : V' = show sh (1, 1) Va (HDo (EAct ADraw))).
  { unfold V', l. change (do_acts (AClear fill :: acts ++ [ADraw])) with (HDo (EAct (AClear fill)) :: do_acts (acts ++ [ADraw])).
    rewrite do_acts_app. change (shows sh (1, 1) V (HDo (EAct (AClear fill)) :: do_acts acts ++ do_acts [ADraw])) with (shows sh (1, 1) Vc (do_acts acts ++ do_acts [ADraw])).
    rewrite shows_app. reflexivity. }
  assert (TC : true_view sh Vc).
  { unfold Vc, true_view. destruct V as [w1 h1 tw th ink due seen_ pen]. cbn [v_w v_h v_pen v_seen v_due v_ink show] in *.
    split; [exact Hp|]. intros q Hq. rewrite (proj2 (inside_iff _ _ q) Hq). reflexivity. }
  pose proof (true_view_act sh (1, 1) Va ADraw (true_view_acts sh (1, 1) acts Vc TC)) as [T1 T2]. rewrite <- E2 in T1, T2.
  assert (N : forall q, v_due V' q = None) by (intro q; rewrite E2; destruct Va; reflexivity).
  split; [exact T1|]. split; [exact N|]. split; [congruence|]. split; [exact B1|]. split; [exact B2|].
  intros q Hq. cbv zeta. rewrite B1, B2 in T2. specialize (T2 q Hq). rewrite N in T2. rewrite T2.
  assert (IV : v_ink V' q = v_ink Va q) by (rewrite E2; destruct Va; reflexivity). rewrite IV.
  pose proof (ink_look_view sh (1, 1) acts (blank fill) Vc) as L. rewrite C1, C2 in L.
  apply L; [exact Ha|]. intro q0. unfold Vc. destruct V. reflexivity.
Qed.
Lemma clearing_loop : forall v0 bg e tb sh fill acts reqs m l, shades e sh -> as_background bg true None = Ok tb -> is_ctl fill = false ->
  (forall sz, Forall2 (stands_for tb) (reqs sz) (map SAct (AClear fill :: acts sz ++ [ADraw]))) ->
  (forall w h, 0 <= w -> 0 <= h -> Forall (act_ok w h) (acts (w, h))) ->
  window_of v0 m -> polls (te_size v0) l ->
  Forall (fun v => peaceful v /\ color_env v (new_terminal v0 bg) = Ok e) (v0 :: map fst l) ->
  exists s m', take_turns (asking [reqs]) (looping reqs v0 l) (new_terminal v0 bg, m) = Ok (s, m') /\
    let '(w, h) := last_size (te_size v0) l in
    let p := fold_left (paint_act sh w h) (acts (w, h)) (blank fill) in
    (forall x y, 0 <= x < w -> 0 <= y < h -> e_grid m' x y = (fst (p (x, y)), snd (p (x, y)), [])) /\
    (sc_w (t_screen s), sc_h (t_screen s)) = (w, h) /\ at_rest m'.
Proof.
  intros v0 bg e tb sh fill acts reqs m l Hsh Hbg Hf Hst Ha Hm Hl Hv.
  set (F := fun (sz : Z * Z) (q : pos) => let p := fold_left (paint_act sh (fst sz) (snd sz)) (acts sz) (blank fill) in (fst (p q), snd (p q), []) : ecell).
  destruct (loop_done v0 bg e tb sh reqs (fun sz => map SAct (AClear fill :: acts sz ++ [ADraw])) F m l Hsh Hbg Hst) as [s [m' [E [S1 [S2 S3]]]]]; auto.
  - intros V W0 H0 Hp Hd Hr. rewrite dos_acts.
    destruct (clear_paint_draw sh fill (acts (v_w V, v_h V)) V Hf (Ha _ _ W0 H0) Hp Hd Hr) as [X1 [X2 [X3 [X4 [X5 [X6 X7]]]]]].
    split; [exact X1|]. split; [exact X2|exact X3|exact X4|]. rewrite X5, X6. exact X7.
  - exists s, m'. split; [exact E|]. destruct (last_size (te_size v0) l) as [w h]. cbn [fst snd F] in *. split; [|auto].
    intros x y Hx Hy. apply S1. unfold on_screen. cbn. lia.
Qed.

(** * Painters that ask for a full redraw *)
Lemma look_of : forall sh (i : ink), exists v, ink_look sh v i.
Proof. intros sh i. exists (tile_char (ink_tile i), styled (tile_flags (ink_tile i)) (option_map sh (ink_fg i)) (option_map sh (ink_bg i)) rend0). reflexivity. Qed.
Lemma attributes_colorless : forall f fg bg, attributes (styled f fg bg rend0) = attributes (styled f None None rend0).
Proof. intros f fg bg. destruct f. destruct fg, bg; reflexivity. Qed.
Lemma paint_redraw : forall sh acts chars V, Forall (act_ok (v_w V) (v_h V)) acts -> covers sh (v_w V) (v_h V) acts chars ->
  v_pen V = rend0 -> due_inside V -> (v_tw V, v_th V) = (v_w V, v_h V) ->
  let l := do_acts acts ++ [HDo ERedraw] in
  let V' := shows sh (1, 1) V l in
  happenings_ok sh (1, 1) V l /\ v_pen V' = rend0 /\ (forall q, v_due V' q = None) /\ (v_tw V', v_th V') = (v_w V', v_h V') /\
  v_w V' = v_w V /\ v_h V' = v_h V /\
  (forall q, on_screen (v_w V) (v_h V) q -> v_seen V' q = (chars q, rend0, [])).
Proof.
  intros sh acts chars V Ha Hc Hp Hd Hr l. cbv zeta. rewrite (shows_app sh (1, 1) V (do_acts acts) [HDo ERedraw] : shows sh (1, 1) V l = _).
  assert (OKS : Forall (fun a => event_ok (v_w V) (v_h V) (EAct a)) acts) by (revert Ha; apply Forall_impl; intros a; apply act_event_ok).
  destruct (steady_acts sh (1, 1) acts V) as [B1 B2 B3 B4 B5]. set (Va := shows sh (1, 1) V (do_acts acts)) in *.
  assert (Ra : (v_tw Va, v_th Va) = (v_w Va, v_h Va)) by congruence.
  split.
  { apply happenings_app. split; [apply acts_happen; [now apply roomy_window|exact Hd|exact OKS]|].
    cbn [happenings_ok happening_ok]. split; [|exact Logic.I]. split; [exact Logic.I|]. now apply roomy_window. }
  assert (Pa : v_pen Va = rend0).
  { unfold Va. clear -Hp. revert V Hp. induction acts as [|a acts IH]; intros V Hp; [exact Hp|].
    change (shows sh (1, 1) V (do_acts (a :: acts))) with (shows sh (1, 1) (show sh (1, 1) V (HDo (EAct a))) (do_acts acts)).
    apply IH. destruct V, a; auto. }
  assert (I : forall q, on_screen (v_w V) (v_h V) q -> tile_char (ink_tile (v_ink Va q)) = chars q /\ Forall (eq false) (attributes (own (ink_tile (v_ink Va q))))).
  { pose proof (ink_look_view sh (1, 1) acts (fun q => (tile_char (ink_tile (v_ink V q)), styled (tile_flags (ink_tile (v_ink V q))) (option_map sh (ink_fg (v_ink V q))) (option_map sh (ink_bg (v_ink V q))) rend0)) V Ha ltac:(reflexivity)) as L.
    fold Va in L. intros q Hq. specialize (L q). destruct (Hc (fun q => (tile_char (ink_tile (v_ink V q)), styled (tile_flags (ink_tile (v_ink V q))) (option_map sh (ink_fg (v_ink V q))) (option_map sh (ink_bg (v_ink V q))) rend0)) q Hq) as [H1 H2].
    unfold ink_look, inked in L. injection L as L1 L2. rewrite <- L1 in H1. rewrite <- L2, attributes_colorless in H2. auto. }
  clearbody Va. clear OKS Hd. destruct Va as [w h tw th ink due seen_ pen]. cbn [shows fold_left show v_w v_h v_tw v_th v_ink v_due v_seen v_pen] in *. subst pen. rewrite <- B1, <- B2 in I.
  assert (PA : forall n, (n <= Z.to_nat h * Z.to_nat w)%nat -> pen_at w (fun q => ink_tile (ink q)) rend0 n = rend0) by (apply pen_at_plain; intros q Hq; apply (I q Hq)).
  split; [apply PA; lia|]. split; [reflexivity|]. split; [exact Ra|]. split; [exact B1|]. split; [exact B2|].
  intros q Hq. rewrite <- B1, <- B2 in Hq. rewrite (proj2 (inside_iff w h q) Hq). destruct (pos_no_nth w h q Hq) as [_ Hk]. rewrite PA by lia.
  destruct (I q Hq) as [I1 I2]. now rewrite (plain_own _ I2), I1.
Qed.
Lemma redrawing_loop : forall v0 bg e tb sh acts chars reqs m l, shades e sh -> as_background bg true None = Ok tb ->
  (forall sz, Forall2 (stands_for tb) (reqs sz) (map SAct (acts sz) ++ [SRedraw])) ->
  (forall w h, 0 <= w -> 0 <= h -> Forall (act_ok w h) (acts (w, h)) /\ covers sh w h (acts (w, h)) (chars (w, h))) ->
  window_of v0 m -> polls (te_size v0) l ->
  Forall (fun v => peaceful v /\ color_env v (new_terminal v0 bg) = Ok e) (v0 :: map fst l) ->
  exists s m', take_turns (asking [reqs]) (looping reqs v0 l) (new_terminal v0 bg, m) = Ok (s, m') /\
    let '(w, h) := last_size (te_size v0) l in
    (forall x y, 0 <= x < w -> 0 <= y < h -> e_grid m' x y = (chars (w, h) (x, y), rend0, [])) /\
    (sc_w (t_screen s), sc_h (t_screen s)) = (w, h) /\ at_rest m'.
Proof.
  intros v0 bg e tb sh acts chars reqs m l Hsh Hbg Hst Ha Hm Hl Hv.
  destruct (loop_done v0 bg e tb sh reqs (fun sz => map SAct (acts sz) ++ [SRedraw]) (fun sz q => (chars sz q, rend0, [])) m l Hsh Hbg Hst) as [s [m' [E [S1 [S2 S3]]]]]; auto.
  - intros V W0 H0 Hp Hd Hr. unfold dos. rewrite map_app. fold (dos (map SAct (acts (v_w V, v_h V)))). rewrite dos_acts. cbn [map event_of].
    destruct (Ha _ _ W0 H0) as [A1 A3].
    destruct (paint_redraw sh (acts (v_w V, v_h V)) _ V A1 A3 Hp Hd Hr) as [X1 [X2 [X3 [X4 [X5 [X6 X7]]]]]].
    split; [exact X1|]. split; [exact X2|exact X3|exact X4|]. rewrite X5, X6. exact X7.
  - exists s, m'. split; [exact E|]. destruct (last_size (te_size v0) l) as [w h]. cbn [fst snd] in *. split; [|auto].
    intros x y Hx Hy. apply S1. unfold on_screen. cbn. lia.
Qed.
