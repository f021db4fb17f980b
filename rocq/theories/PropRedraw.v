(** C92: full redraws among other draws (Terminal.draw(redraw=True)). *)
From Coq Require Import ZArith List Bool String Lia.
From Verif Require Import PyBase F64 SpaceModel ColorModel ColorSpec AnsiRe SpanModel Vt SpanSpec ScreenModel ScreenSpec DrawSpec RedrawSpec RedrawProofs CoreModel
  TermModel TermSpec SessionSpec SessionProofs PropScreen PropDraw PropSession.
Import ListNotations.
Open Scope string_scope.
Open Scope list_scope.
Open Scope Z_scope.

(** ** C92 *)
(** Any history of writes of text without attributes, clears, draws and full redraws, ending in a
    draw: every cell shows the character and colors of the last thing written there, or its
    character in the default colors, but this only if it was redrawn and did not change after that.
    The rest of the terminal is untouched, the terminal is left at rest. *)
Theorem C92_redraws : forall e sh w h cursor fill origin m steps, shades e sh -> is_ctl fill = false ->
  at_rest m -> fits w h origin m -> Forall (step_ok w h) steps ->
  let '(s, _, m') := fold_left (perform_step e origin) (steps ++ [SAct ADraw]) (new_screen w h cursor [fill], [], m) in
  let p := fold_left (paint_step sh w h) steps (blank fill) in
  (forall q, on_screen w h q -> seen origin m' q = (fst (p q), snd (p q), []) \/
     (redrawn sh w h (blank fill) steps q /\ seen origin m' q = (fst (p q), rend0, []))) /\
  (forall X Y, ~ on_screen w h (X - fst origin + 1, Y - snd origin + 1) -> e_grid m' X Y = e_grid m X Y) /\
  at_rest m' /\ sc_buf s = [].
Proof. exact redraws. Qed.
Print Assumptions C92_redraws.
(** The same for a program that uses a new terminal *)
Theorem C92_session : forall v e bg tb sh m reqs steps, peaceful v -> color_env v (new_terminal v bg) = Ok e ->
  as_background bg true None = Ok tb -> shades e sh -> at_rest m -> fits (fst (te_size v)) (snd (te_size v)) (1, 1) m ->
  Forall2 (stands_for tb) reqs steps -> Forall (step_ok (fst (te_size v)) (snd (te_size v))) steps ->
  exists s, ask_all (reqs ++ [RDraw]) v (new_terminal v bg) = (s, Ok tt) /\
    let m' := vt (t_out s) m in
    let p := fold_left (paint_step sh (fst (te_size v)) (snd (te_size v))) steps (blank 32) in
    (forall x y, 0 <= x < fst (te_size v) -> 0 <= y < snd (te_size v) -> e_grid m' x y = (fst (p (x, y)), snd (p (x, y)), []) \/
       (redrawn sh (fst (te_size v)) (snd (te_size v)) (blank 32) steps (x, y) /\ e_grid m' x y = (fst (p (x, y)), rend0, []))) /\
    (forall x y, ~ (0 <= x < fst (te_size v) /\ 0 <= y < snd (te_size v)) -> e_grid m' x y = e_grid m x y) /\ at_rest m'.
Proof. exact session_redraws. Qed.
Print Assumptions C92_session.
(** a history in which "a" was redrawn and stays uncolored, "b" is written again and gets its color *)
Definition again := [SAct (AWrite abc BLACK false); SAct ADraw; SRedraw; SAct (AWrite [((2, 0), [sp_ "x" (Some red_) None])] BLACK false)].
Example C92_ex : Forall (step_ok 3 2) again /\ redrawn exact_shade 3 2 (blank 32) again (1, 0) /\ ~ redrawn exact_shade 3 2 (blank 32) again (2, 0) /\
  let '(s, _, m') := fold_left (perform_step e0 (2, 2)) (again ++ [SAct ADraw]) (new_screen 3 2 (0, 0) [32], [], term) in
  seen (2, 2) m' (1, 0) = (97, rend0, []) /\ seen (2, 2) m' (2, 0) = (120, styled no_flags (Some (ERgb 255 0 0)) None rend0, []).
Proof.
  split; [|split; [|split]].
  - unfold again. apply Forall_cons; [split; [exact abc_act|repeat constructor]|]. apply Forall_cons; [split; exact I|]. apply Forall_cons; [exact I|].
    apply Forall_cons; [|apply Forall_nil]. split; [|repeat constructor]. split; [|split; [apply fine_solid; lia|all_data draw_tac]].
    apply Forall_cons; [|apply Forall_nil]. split; [reflexivity|]. split; [|first [exact I|intros _ _; vm_compute; reflexivity]].
    repeat (apply Forall_cons; [cbn; intuition discriminate|]). apply Forall_nil.
  - exists [SAct (AWrite abc BLACK false); SAct ADraw], [SAct (AWrite [((2, 0), [sp_ "x" (Some red_) None])] BLACK false)].
    split; [reflexivity|]. intros [|a [|b l]] l' E; cbn [app] in E; [reflexivity| |discriminate]. injection E as <- _. reflexivity.
  - intros [b [a [E H]]]. specialize (H [] a eq_refl). rewrite app_nil_r in H. unfold again in E.
    destruct b as [|b0 [|b1 [|b2 [|b3 [|b4 b]]]]]; cbn [app] in E; try discriminate.
    injection E as <- <- <-. vm_compute in H. discriminate.
  - vm_compute. auto.
Qed.
