(** C109: every instant of a draw, and draws that are cut short (screen.py, Terminal.draw). *)
From Coq Require Import ZArith Reals List Bool String Lia.
From Verif Require Import PyBase PyLemmas F64 SpaceModel ColorModel ColorSpec AnsiRe SpanModel Vt SpanSpec SpanProofs2 ScreenModel ScreenSpec
  DrawSpec CutProofs2 PropScreen PropDraw.
Import ListNotations.
Open Scope string_scope.
Open Scope list_scope.
Open Scope Z_scope.

(** ** C109 *)
(** After any history, when any part [a] of the output of a draw has reached the terminal: the terminal
    displays the new picture above some position (in reading order), what it displayed before from there
    on, and nothing outside the screen has changed.  No other picture is ever seen. *)
Theorem C109_instant : forall e sh w h cursor fill origin m acts, shades e sh -> is_ctl fill = false ->
  at_rest m -> fits w h origin m -> Forall (act_ok w h) acts ->
  let '(s, _, m1) := fold_left (perform e origin) acts (new_screen w h cursor [fill], [], m) in
  let p := fold_left (paint_act sh w h) acts (blank fill) in
  forall a b, fst (render s origin false) = a ++ b ->
  exists cut : pos,
    (forall q, on_screen w h q -> above q cut -> seen origin (vt a m1) q = (fst (p q), snd (p q), [])) /\
    (forall q, on_screen w h q -> ~ above q cut -> seen origin (vt a m1) q = seen origin m1 q) /\
    (forall X Y, ~ on_screen w h (X - fst origin + 1, Y - snd origin + 1) -> e_grid (vt a m1) X Y = e_grid m X Y).
Proof. exact every_instant. Qed.
Print Assumptions C109_instant.

(** If the rest never arrives, drawing again does not help, however often: the cells count as drawn. *)
Theorem C109_draw_refuted : forall e sh w h cursor fill origin m acts n, shades e sh -> is_ctl fill = false ->
  at_rest m -> fits w h origin m -> Forall (act_ok w h) acts ->
  let '(s, c, m1) := fold_left (perform e origin) acts (new_screen w h cursor [fill], [], m) in
  forall a b, fst (render s origin false) = a ++ b ->
  let '(_, _, m') := fold_left (perform e origin) (repeat ADraw n) (snd (render s origin false), c, vt a m1) in
  e_grid m' = e_grid (vt a m1).
Proof. exact draw_repairs_nothing. Qed.
Print Assumptions C109_draw_refuted.

(** A full redraw gives every cell its character and its attributes, wherever the draw was cut, in the middle
    of an escape sequence too.  Missing for the whole claim: no other attributes, no colors
    (C109_redraw_refuted). *)
Theorem C109_redraw_partial : forall e sh w h cursor fill origin m acts, shades e sh -> is_ctl fill = false ->
  at_rest m -> fits w h origin m -> Forall (act_ok w h) acts ->
  let '(s, _, m1) := fold_left (perform e origin) acts (new_screen w h cursor [fill], [], m) in
  let p := fold_left (paint_act sh w h) acts (blank fill) in
  forall a b, fst (render s origin false) = a ++ b ->
  let m' := vt (fst (render (snd (render s origin false)) origin true)) (vt a m1) in
  (forall q, on_screen w h q -> exists rd, at_least (snd (p q)) rd /\ seen origin m' q = (fst (p q), rd, [])) /\
  (forall X Y, ~ on_screen w h (X - fst origin + 1, Y - snd origin + 1) -> e_grid m' X Y = e_grid m X Y).
Proof. exact redraw_repairs. Qed.
Print Assumptions C109_redraw_partial.

(** The attributes that were on when the draw was cut stay on: a full redraw shows a plain character in them. *)
Definition cut_acts : list act := [AWrite [((0, 0), [sp_ "b" None None; bold_a])] BLACK false].
Definition cut_screen : screen := fst (fst (fold_left (perform e0 (1, 1)) cut_acts (new_screen 2 1 (0, 0) (lit " "), [], term))).
Definition cut_out : str := fst (render cut_screen (1, 1) false).
Definition cut_part : str := firstn (List.length cut_out - 8) cut_out.
Theorem C109_redraw_refuted : Forall (act_ok 2 1) cut_acts /\
  let m' := vt (fst (render (snd (render cut_screen (1, 1) false)) (1, 1) true)) (vt cut_part term) in
  fold_left (paint_act exact_shade 2 1) cut_acts (blank 32) (0, 0) = (98, with_fg (ERgb 255 255 255) rend0) /\
  exists rd, seen (1, 1) m' (0, 0) = (98, rd, []) /\ r_bold rd = true /\ r_fg rd = ERgb 255 0 0 /\ r_bg rd = ERgb 0 0 255.
Proof.
  split.
  - unfold cut_acts. apply Forall_cons; [|apply Forall_nil]. split; [|split; [apply fine_solid; lia|all_data draw_tac]].
    apply Forall_cons; [|apply Forall_nil]. split; [reflexivity|]. split; [|intros _ _; vm_compute; reflexivity].
    repeat (apply Forall_cons; [cbn; intuition discriminate|]). apply Forall_nil.
  - cbv zeta. split; [reflexivity|]. eexists. split; [vm_compute; reflexivity|]. vm_compute. auto.
Qed.
Print Assumptions C109_redraw_refuted.

(** the history of PropDraw.v, drawn up to the middle of a sequence *)
Example C109_ex : shades e0 exact_shade /\ at_rest term /\ fits 3 2 (2, 2) term /\ Forall (act_ok 3 2) history /\
  let s := fst (fst (fold_left (perform e0 (2, 2)) history (new_screen 3 2 (0, 0) (lit " "), [], term))) in
  exists a b, fst (render s (2, 2) false) = a ++ b /\ (20 <= List.length a)%nat /\ (20 <= List.length b)%nat.
Proof.
  split; [exact e0_shades|]. split; [apply term_ok|]. split; [apply term_ok|]. split; [exact history_ok|]. cbv zeta.
  set (out := fst (render _ _ _)). exists (firstn 25 out), (skipn 25 out). split; [symmetry; apply firstn_skipn|].
  split; apply Nat.leb_le; vm_compute; reflexivity.
Qed.
