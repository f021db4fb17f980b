(** C117: exactly what a terminal shows after any writes, clears, draws and full redraws (screen.py, terminal.py). *)
From Coq Require Import ZArith List Bool String Lia.
From Verif Require Import PyBase F64 SpaceModel ColorModel ColorSpec AnsiRe SpanModel Vt SpanSpec ScreenModel ScreenSpec DrawSpec RedrawSpec TileSpec
  PenSpec PenProofs2 PenProofs3 CoreModel TermModel TermSpec SessionSpec PropScreen PropDraw PropSession PropTile.
Import ListNotations.
Open Scope string_scope.
Open Scope list_scope.
Open Scope Z_scope.

(** ** C117 *)
(** Any sequence of writes (any attributes, reset or not), clears, draws, full redraws and pens set by the program
    itself, on a terminal with any contents and any pen: the terminal shows exactly the display that the events
    describe, has exactly its pen, is untouched outside the screen, and the cells waiting for a draw are exactly
    the ones due. *)
Theorem C117_shown : forall e sh w h cursor fill origin m evs, shades e sh -> is_ctl fill = false ->
  listening m -> fits w h origin m -> Forall (event_ok w h) evs ->
  let '(s, _, m') := fold_left (perform_event e origin) evs (new_screen w h cursor [fill], [], m) in
  let D := fold_left (show_event sh w h) evs (first_display fill origin m) in
  (forall q, on_screen w h q -> seen origin m' q = d_seen D q) /\
  (forall X Y, ~ on_screen w h (X - fst origin + 1, Y - snd origin + 1) -> e_grid m' X Y = e_grid m X Y) /\
  e_rend m' = d_pen D /\ listening m' /\
  (forall q, on_screen w h q -> (pending s q <> None <-> d_due D q = true)).
Proof. exact shown_exactly. Qed.
Print Assumptions C117_shown.
(** The same for a program that uses a new Terminal *)
Theorem C117_session : forall v e bg tb sh m reqs sts, peaceful v -> color_env v (new_terminal v bg) = Ok e ->
  as_background bg true None = Ok tb -> shades e sh -> listening m -> fits (fst (te_size v)) (snd (te_size v)) (1, 1) m ->
  Forall2 (stands_for tb) reqs sts -> Forall (fun st => event_ok (fst (te_size v)) (snd (te_size v)) (event_of st)) sts ->
  exists s, ask_all reqs v (new_terminal v bg) = (s, Ok tt) /\
    let m' := vt (t_out s) m in
    let D := fold_left (show_event sh (fst (te_size v)) (snd (te_size v))) (map event_of sts) (first_display 32 (1, 1) m) in
    (forall x y, 0 <= x < fst (te_size v) -> 0 <= y < snd (te_size v) -> e_grid m' x y = d_seen D (x, y)) /\
    (forall x y, ~ (0 <= x < fst (te_size v) /\ 0 <= y < snd (te_size v)) -> e_grid m' x y = e_grid m x y) /\
    e_rend m' = d_pen D /\ listening m'.
Proof. exact session_exactly. Qed.
Print Assumptions C117_session.

(** What a pen that was left on does to the next draw: the cells due up to and including the first written one,
    in reading order, are shown over it; all other cells due show their own colors and attributes; the cells not
    due stay as they are. *)
Theorem C117_leak : forall e sh w h cursor fill origin m evs, shades e sh -> is_ctl fill = false ->
  listening m -> fits w h origin m -> Forall (event_ok w h) evs ->
  let '(_, _, m') := fold_left (perform_event e origin) (evs ++ [EAct ADraw]) (new_screen w h cursor [fill], [], m) in
  let D := fold_left (show_event sh w h) evs (first_display fill origin m) in
  forall q, on_screen w h q ->
    (d_due D q = false -> seen origin m' q = d_seen D q) /\
    (d_due D q = true -> first_due w h D q -> seen origin m' q = inked sh (d_ink D q) (d_pen D)) /\
    (d_due D q = true -> ~ first_due w h D q -> seen origin m' q = inked sh (d_ink D q) rend0).
Proof. exact leaked. Qed.
Print Assumptions C117_leak.

(** Recovery: whatever happened before, a draw and a clear, then any writes, clears and draws but no full redraw,
    and the next draw shows the picture they describe, exactly. *)
Theorem C117_recovery : forall e sh w h cursor fill origin m evs fill' acts, shades e sh -> is_ctl fill = false -> is_ctl fill' = false ->
  listening m -> fits w h origin m -> Forall (event_ok w h) evs -> Forall (act_ok w h) acts ->
  let '(_, _, m') := fold_left (perform_event e origin) (evs ++ EAct ADraw :: EAct (AClear fill') :: map EAct acts ++ [EAct ADraw])
    (new_screen w h cursor [fill], [], m) in
  let p := fold_left (paint_act sh w h) acts (blank fill') in
  (forall q, on_screen w h q -> seen origin m' q = (fst (p q), snd (p q), [])) /\ at_rest m'.
Proof. exact recovered. Qed.
Print Assumptions C117_recovery.
(** The same with spans whose attributes are not reset, too: every cell shows what it holds *)
Theorem C117_recovery_unreset : forall e sh w h cursor fill origin m evs fill' acts, shades e sh -> is_ctl fill = false ->
  listening m -> fits w h origin m -> Forall no_pens acts ->
  let evs' := evs ++ EAct ADraw :: EAct (AClear fill') :: acts ++ [EAct ADraw] in Forall (event_ok w h) evs' ->
  let '(_, _, m') := fold_left (perform_event e origin) evs' (new_screen w h cursor [fill], [], m) in
  let D := fold_left (show_event sh w h) evs' (first_display fill origin m) in
  (forall q, on_screen w h q -> seen origin m' q = inked sh (d_ink D q) rend0) /\ at_rest m'.
Proof. exact recovered_ink. Qed.
Print Assumptions C117_recovery_unreset.
(** A terminal at rest, no full redraw: every cell shows what it holds after a draw, spans that are not reset
    included (their last character has lost its attributes). *)
Theorem C117_unreset : forall e sh w h cursor fill origin m acts, shades e sh -> is_ctl fill = false ->
  at_rest m -> fits w h origin m -> Forall no_pens acts -> Forall (event_ok w h) acts ->
  let '(_, _, m') := fold_left (perform_event e origin) (acts ++ [EAct ADraw]) (new_screen w h cursor [fill], [], m) in
  let D := fold_left (show_event sh w h) (acts ++ [EAct ADraw]) (first_display fill origin m) in
  (forall q, on_screen w h q -> seen origin m' q = inked sh (d_ink D q) rend0) /\ at_rest m'.
Proof. exact rest_ink. Qed.
Print Assumptions C117_unreset.

(** Bold "abc" whose "c" was replaced, drawn in full: the terminal stays bold.  After a clear and a write of "z" in
    the second cell, a draw shows the first cell, cleared, and "z" bold; the third cell is plain. *)
Definition leaky : list event :=
  map EAct unended ++ [ERedraw; EAct (AClear 46); EAct (AWrite [((1, 0), [sp_ "z" (Some red_) None])] BLACK false)].
Definition red_rend (pen : rend) : rend := styled no_flags (Some (ERgb 255 0 0)) None pen.
Lemma leaky_ok : Forall (event_ok 3 2) leaky.
Proof.
  unfold leaky. apply Forall_app. split.
  - apply Forall_map. generalize (proj2 patches_ok). apply Forall_impl. intros a. apply act_event_ok.
  - apply Forall_cons; [exact I|]. apply Forall_cons; [reflexivity|]. apply Forall_cons; [|apply Forall_nil]. apply act_event_ok.
    split; [|split; [apply fine_solid; lia|all_data draw_tac]].
    apply Forall_cons; [|apply Forall_nil]. split; [reflexivity|]. split; [|first [exact I|intros _ _; vm_compute; reflexivity]].
    repeat (apply Forall_cons; [cbn; intuition discriminate|]). apply Forall_nil.
Qed.
Example C117_ex : Forall (event_ok 3 2) leaky /\ shades e0 exact_shade /\ listening term /\ fits 3 2 (2, 2) term /\
  (let '(_, _, m') := fold_left (perform_event e0 (2, 2)) (leaky ++ [EAct ADraw]) (new_screen 3 2 (0, 0) [32], [], term) in
   map (seen (2, 2) m') [(0, 0); (1, 0); (2, 0)] = [(46, bold_rend, []); (122, red_rend bold_rend, []); (46, rend0, [])]) /\
  (let D := fold_left (show_event exact_shade 3 2) leaky (first_display 32 (2, 2) term) in
   d_pen D = bold_rend /\ first_due 3 2 D (1, 0) /\ ~ first_due 3 2 D (2, 0)).
Proof.
  split; [exact leaky_ok|]. split; [exact e0_shades|]. split; [repeat split|]. split; [apply term_ok|]. split; [vm_compute; reflexivity|].
  cbv zeta. split; [vm_compute; reflexivity|]. split.
  - intros [x y] [P1 P2] Ha _. unfold above in Ha. cbn [fst snd] in *. assert (x = 0 /\ y = 0) as [-> ->] by lia. vm_compute. reflexivity.
  - intro F. specialize (F (1, 0)). assert (E : written (d_ink (fold_left (show_event exact_shade 3 2) leaky (first_display 32 (2, 2) term)) (1, 0)) = false).
    { apply F; [unfold on_screen; cbn; lia|unfold above; cbn; lia|vm_compute; reflexivity]. }
    vm_compute in E. discriminate.
Qed.
(** "ab", bold and not reset, at rest: "a" is bold, "b" is not *)
Definition unreset_ab : list event := [EAct (AWrite [((0, 0), [mkSpan (lit "ab") None None [] (set_flag FBold true no_flags) false])] BLACK false)].
Example C117_unreset_ex : Forall (event_ok 3 2) unreset_ab /\ Forall no_pens unreset_ab /\ at_rest term /\
  let '(_, _, m') := fold_left (perform_event e0 (2, 2)) (unreset_ab ++ [EAct ADraw]) (new_screen 3 2 (0, 0) [32], [], term) in
  map (fun q => attribute 0 (snd (fst (seen (2, 2) m' q)))) [(0, 0); (1, 0)] = [true; false].
Proof.
  split; [|split; [|split; [apply term_ok|vm_compute; reflexivity]]].
  - apply Forall_cons; [|apply Forall_nil]. split; [|split; [apply fine_solid; lia|]].
    + apply Forall_cons; [|apply Forall_nil]. split; [reflexivity|]. split; [|exact I]. apply Forall_cons; [cbn; intuition discriminate|apply Forall_nil].
    + apply Forall_cons; [|apply Forall_nil]. apply Forall_cons; [|apply Forall_nil]. split; [repeat (apply Forall_cons; [reflexivity|]); apply Forall_nil|].
      split; intros c H; discriminate H.
  - apply Forall_cons; [exact I|apply Forall_nil].
Qed.
(** a program: writes bold text, draws in full, writes more *)
Example C117_session_ex : peaceful (rich 3 2) /\ (exists e, color_env (rich 3 2) (new_terminal (rich 3 2) BLACK) = Ok e /\ shades e exact_shade) /\
  as_background BLACK true None = Ok BLACK_BG /\ listening term /\ fits 3 2 (1, 1) term /\
  Forall2 (stands_for BLACK_BG) [RWrite (PSpans [bold_ "ab"]) (1, 0) false; RRedraw; RClear 46; RDraw]
    [SAct (AWrite [((1, 0), [bold_ "ab"])] BLACK_BG false); SRedraw; SAct (AClear 46); SAct ADraw].
Proof.
  split; [split; [intro n; reflexivity|reflexivity]|]. split; [eexists; split; [reflexivity|apply C35_true_color; reflexivity]|].
  split; [reflexivity|]. split; [repeat split|]. split; [unfold fits; cbn; lia|].
  repeat (constructor; [reflexivity|]). constructor.
Qed.
