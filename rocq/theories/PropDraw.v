(** C35, C36, C38, C40, C60: what the terminal displays (screen.py, Terminal.draw). *)
From Coq Require Import ZArith Reals List Bool String Lia.
From Verif Require Import PyBase PyLemmas F64 SpaceModel ColorModel ColorSpec AnsiRe SpanModel Vt SpanSpec SpanProofs2 ScreenModel ScreenSpec
  GreySpec DrawSpec DrawProofs2 DrawProofs3 RedrawSpec RedrawProofs ScrollProofs ScrollProofs2 ScrollProofs3 PropScreen.
Import ListNotations.
Open Scope string_scope.
Open Scope list_scope.
Open Scope Z_scope.

(** * Objects of the examples *)
Definition exact_shade (t : triple) : ecolor := let '(r, g, b) := t in ERgb r g b.
Definition bold_a : span := mkSpan (lit "a") (Some red_) (Some on_blue) [] (set_flag FBold true no_flags) true.
Definition history := [AWrite abc BLACK false; ADraw; AClear 46; AWrite [((2, 0), [bold_a; sp_ "bc" None None])] BLACK false].
Definition term := emu0 5 4.
Lemma e0_shades : shades e0 exact_shade.
Proof. exact (shade_true e0 eq_refl). Qed.
Lemma value_rgb : forall r g b l, 0 <= r < 256 -> 0 <= g < 256 -> 0 <= b < 256 -> by_value (mkColor (r, g, b) l fone TRUE_COLOR None).
Proof. intros. split; [now apply ok_rgb|]. split; [reflexivity|exact I]. Qed.
Ltac draw_tac := split; [repeat (apply Forall_cons; [reflexivity|]); apply Forall_nil|split; [intros H; discriminate H|
  split; intros c H; cbn in H; first [discriminate H|injection H as <-; split; [apply value_rgb; lia|reflexivity]]]].
Lemma abc_drawable : Forall (fun entry => Forall drawable (snd entry)) abc.
Proof. unfold abc. all_data draw_tac. Qed.
Lemma abc_act : act_ok 3 2 (AWrite abc BLACK false).
Proof. split; [exact (proj2 (proj1 (proj2 (proj2 abc_ok))))|]. split; [apply abc_ok|apply abc_drawable]. Qed.
Lemma history_ok : Forall (act_ok 3 2) history.
Proof.
  unfold history. apply Forall_cons; [exact abc_act|]. apply Forall_cons; [exact I|]. apply Forall_cons; [reflexivity|]. apply Forall_cons; [|apply Forall_nil].
  split; [|split; [apply fine_solid; lia|all_data draw_tac]].
  apply Forall_cons; [|apply Forall_nil]. split; [reflexivity|]. split; [|intros _ _; vm_compute; reflexivity].
  repeat (apply Forall_cons; [cbn; intuition discriminate|]). apply Forall_nil.
Qed.
Lemma term_ok : at_rest term /\ fits 3 2 (2, 2) term.
Proof. split; [repeat split|]. unfold fits. cbn. lia. Qed.

(** ** C35 *)
(** After any history of writes, clears and draws ending in a draw, every cell of the terminal
    displays the character, attributes and colors of the last thing written there (the fill of the
    last clear if there is none); the rest of the terminal is untouched and left at rest.  The
    picture [p] is defined from the texts and colors given by the caller only.  [sh] tells how the
    terminal displays each color; C35_colors says it is the requested color or the nearest one. *)
Theorem C35_drawing : forall e sh w h cursor fill origin m acts, shades e sh -> is_ctl fill = false ->
  at_rest m -> fits w h origin m -> Forall (act_ok w h) acts ->
  let '(s, _, m') := fold_left (perform e origin) (acts ++ [ADraw]) (new_screen w h cursor [fill], [], m) in
  let p := fold_left (paint_act sh w h) acts (blank fill) in
  (forall q, on_screen w h q -> seen origin m' q = (fst (p q), snd (p q), [])) /\
  (forall X Y, ~ on_screen w h (X - fst origin + 1, Y - snd origin + 1) -> e_grid m' X Y = e_grid m X Y) /\
  at_rest m' /\ sc_buf s = [].
Proof. exact drawing. Qed.
Print Assumptions C35_drawing.
(** Such colors of the terminal exist in every color space: the exact color, the nearest of the
    palette, or a grey (the one of its lightness, if the pow of the platform is accurate). *)
Theorem C35_colors : forall e, (env_cs e = NO_COLOR -> pow_accurate (env_pow e)) ->
  exists sh, shades e sh /\ forall c, by_value c -> approximates e c (sh (c_rgb c)).
Proof. exact shade_exists. Qed.
Print Assumptions C35_colors.
Theorem C35_true_color : forall e, env_cs e = TRUE_COLOR -> shades e exact_shade.
Proof. exact shade_true. Qed.
Print Assumptions C35_true_color.
Example C35_ex : shades e0 exact_shade /\ at_rest term /\ fits 3 2 (2, 2) term /\ Forall (act_ok 3 2) history /\
  let p := fold_left (paint_act exact_shade 3 2) history (blank 32) in
  p (2, 0) = (97, mkRend (ERgb 255 0 0) (ERgb 0 0 255) true false false false false false false false false) /\
  p (0, 1) = (98, mkRend (ERgb 255 255 255) EDefault false false false false false false false false false) /\
  p (1, 0) = (46, rend0).
Proof. split; [exact e0_shades|]. split; [apply term_ok|]. split; [apply term_ok|]. split; [exact history_ok|]. vm_compute. auto. Qed.

(** ** C36 *)
(** After a full redraw every cell of the terminal shows the right character with at least its own
    attributes, and the rest of the terminal is untouched; but every cell is in the default colors,
    whatever was written. *)
Theorem C36_redraw_partial : forall e sh w h cursor fill origin m acts, shades e sh -> is_ctl fill = false ->
  at_rest m -> fits w h origin m -> Forall (act_ok w h) acts ->
  let '(s, _, m1) := fold_left (perform e origin) acts (new_screen w h cursor [fill], [], m) in
  let p := fold_left (paint_act sh w h) acts (blank fill) in
  let m' := vt (fst (render s origin true)) m1 in
  (forall q, on_screen w h q -> exists rd, seen origin m' q = (fst (p q), rd, []) /\ r_fg rd = EDefault /\ r_bg rd = EDefault /\ at_least (snd (p q)) rd) /\
  (forall X Y, ~ on_screen w h (X - fst origin + 1, Y - snd origin + 1) -> e_grid m' X Y = e_grid m X Y).
Proof. exact redrawing. Qed.
Print Assumptions C36_redraw_partial.
(** When no cell has attributes, none is shown with any, and the terminal is left at rest *)
Theorem C36_plain : forall e sh w h cursor fill origin m acts, shades e sh -> is_ctl fill = false ->
  at_rest m -> fits w h origin m -> Forall (act_ok w h) acts ->
  let '(s, _, m1) := fold_left (perform e origin) acts (new_screen w h cursor [fill], [], m) in
  let p := fold_left (paint_act sh w h) acts (blank fill) in
  let m' := vt (fst (render s origin true)) m1 in
  (forall q, on_screen w h q -> Forall (eq false) (attributes (snd (p q)))) ->
  (forall q, on_screen w h q -> seen origin m' q = (fst (p q), rend0, [])) /\ at_rest m'.
Proof. exact redrawing_plain. Qed.
Print Assumptions C36_plain.
Example C36_plain_ex : Forall (act_ok 3 2) [AWrite abc BLACK false] /\
  let p := fold_left (paint_act exact_shade 3 2) [AWrite abc BLACK false] (blank 32) in
  p (1, 0) = (97, styled no_flags (Some (ERgb 255 0 0)) (Some (ERgb 0 0 255)) rend0) /\
  (forall q, Forall (eq false) (attributes (snd (p q)))).
Proof.
  split; [apply Forall_cons; [exact abc_act|apply Forall_nil]|]. split; [reflexivity|].
  intros q. apply plain_paint; [repeat constructor|]. intro q'. repeat constructor.
Qed.
(** The full statement (the same picture as a draw) is false *)
Theorem C36_colors_refuted : exists acts, Forall (act_ok 3 2) acts /\
  let '(s, _, m1) := fold_left (perform e0 (2, 2)) acts (new_screen 3 2 (0, 0) [32], [], term) in
  seen (2, 2) (vt (fst (render s (2, 2) true)) m1) (1, 0) <> seen (2, 2) (vt (fst (render s (2, 2) false)) m1) (1, 0).
Proof. exists [AWrite abc BLACK false]. split; [apply Forall_cons; [exact abc_act|apply Forall_nil]|]. vm_compute. discriminate. Qed.
Print Assumptions C36_colors_refuted.
(** Bold "abc" whose "b" was replaced by a plain "x": a redraw shows the "x" bold *)
Definition bold_ (t : string) : span := mkSpan (lit t) None None [] (set_flag FBold true no_flags) true.
Definition patched := [AWrite [((0, 1), [bold_ "abc"])] BLACK false; AWrite [((1, 1), [sp_ "x" None None])] BLACK false].
(** ... and the rest of the window too, when the last letter was replaced: the fill of a later clear
    is drawn bold *)
Definition unended := [AWrite [((0, 1), [bold_ "abc"])] BLACK false; AWrite [((2, 1), [sp_ "x" None None])] BLACK false].
Lemma patches_ok : Forall (act_ok 3 2) patched /\ Forall (act_ok 3 2) unended.
Proof.
  split; unfold patched, unended; (repeat (apply Forall_cons || apply Forall_nil)); (split; [|split; [apply fine_solid; lia|all_data draw_tac]]);
    (apply Forall_cons; [|apply Forall_nil]); (split; [reflexivity|]); (split; [|first [exact I|intros _ _; vm_compute; reflexivity]]);
    (repeat (apply Forall_cons; [cbn; intuition discriminate|])); apply Forall_nil.
Qed.
Theorem C36_leak_refuted : exists acts, Forall (act_ok 3 2) acts /\
  let p := fold_left (paint_act exact_shade 3 2) acts (blank 32) in
  let '(s, _, m1) := fold_left (perform e0 (2, 2)) acts (new_screen 3 2 (0, 0) [32], [], term) in
  r_bold (snd (p (1, 1))) = false /\ r_bold (snd (fst (seen (2, 2) (vt (fst (render s (2, 2) true)) m1) (1, 1)))) = true.
Proof. exists patched. split; [apply patches_ok|]. vm_compute. auto. Qed.
Print Assumptions C36_leak_refuted.
Theorem C36_leftover_refuted : exists acts, Forall (act_ok 3 2) acts /\
  let '(s, c, m1) := fold_left (perform e0 (2, 2)) acts (new_screen 3 2 (0, 0) [32], [], term) in
  let '(out, s') := render s (2, 2) true in
  let '(_, _, m2) := fold_left (perform e0 (2, 2)) [AClear 46; ADraw] (s', c, vt out m1) in
  seen (2, 2) m2 (0, 0) = (46, styled (set_flag FBold true no_flags) None None rend0, []).
Proof. exists unended. split; [apply patches_ok|]. vm_compute. auto. Qed.
Print Assumptions C36_leftover_refuted.

(** ** C38 *)
(** Drawing after a resize touches no cell outside the new size, when everything had been drawn
    before; but it shows the fill in every cell, the retained ones included. *)
Theorem C38_resize_partial : forall e sh w h cursor fill origin m acts w' h' fill', shades e sh -> is_ctl fill = false -> is_ctl fill' = false ->
  at_rest m -> fits w h origin m -> fits w' h' origin m -> Forall (act_ok w h) acts ->
  let '(s, _, m1) := fold_left (perform e origin) (acts ++ [ADraw]) (new_screen w h cursor [fill], [], m) in
  let m' := vt (fst (render (resize s (w', h') [fill'] true) origin false)) m1 in
  (forall q, on_screen w' h' q -> seen origin m' q = (fill', rend0, [])) /\
  (forall X Y, ~ on_screen w' h' (X - fst origin + 1, Y - snd origin + 1) -> e_grid m' X Y = e_grid m1 X Y).
Proof. exact resized. Qed.
Print Assumptions C38_resize_partial.
(** The retained cell holds "a", the terminal shows a space *)
Theorem C38_retained_refuted : exists acts, Forall (act_ok 3 2) acts /\
  let '(s, _, m1) := fold_left (perform e0 (2, 2)) (acts ++ [ADraw]) (new_screen 3 2 (0, 0) [32], [], term) in
  let s' := resize s (2, 2) [32] true in
  option_map (fun c => fst (fst c)) (cell_at s' (1, 0)) = Some (lit "a") /\
  seen (2, 2) (vt (fst (render s' (2, 2) false)) m1) (1, 0) = (32, rend0, []).
Proof. exists [AWrite abc BLACK false]. split; [apply Forall_cons; [exact abc_act|apply Forall_nil]|]. vm_compute. auto. Qed.
Print Assumptions C38_retained_refuted.
(** What was pending outside the new size is drawn there *)
Theorem C38_outside_refuted : exists acts, Forall (act_ok 3 2) acts /\
  let '(s, _, m1) := fold_left (perform e0 (2, 2)) acts (new_screen 3 2 (0, 0) [32], [], term) in
  let m' := vt (fst (render (resize s (1, 1) [32] true) (2, 2) false)) m1 in
  ~ on_screen 1 1 (1, 0) /\ fst (fst (seen (2, 2) m' (1, 0))) = 97.
Proof.
  exists [AWrite abc BLACK false]. split; [apply Forall_cons; [exact abc_act|apply Forall_nil]|].
  destruct (fold_left _ _ _) as [[s c] m1] eqn:E. split; [unfold on_screen; cbn; lia|].
  replace s with (fst (fst (fold_left (perform e0 (2, 2)) [AWrite abc BLACK false] (new_screen 3 2 (0, 0) [32], [], term)))) by (now rewrite E).
  replace m1 with (snd (fold_left (perform e0 (2, 2)) [AWrite abc BLACK false] (new_screen 3 2 (0, 0) [32], [], term))) by (now rewrite E).
  vm_compute. reflexivity.
Qed.
Print Assumptions C38_outside_refuted.

(** ** C40 *)
(** One span written below the last row of the screen, within its width: the screen is scrolled by
    one row, its last row holds the text and nothing else, exactly the text is pending and counted.
    [scrolled] spells this out.  The screen is scrolled by one row only, however far below the text
    is written, and the last character is drawn with a line feed. *)
Theorem C40_scroll_partial : forall e c s sp x y tb force, cache_ok e c -> shaped s ->
  opaque_span sp -> fine_span sp -> ~ In NL (s_text sp) -> s_text sp <> [] ->
  0 <= x -> x + zlen (s_text sp) <= sc_w s -> 0 < sc_h s -> sc_h s + sc_off s <= y ->
  exists s' c', write_bulk e c s [((x, y), [sp])] tb force = (s', c', Ok (zlen (s_text sp))) /\ scrolled e sp x y s s'.
Proof. exact scroll_write. Qed.
Print Assumptions C40_scroll_partial.
(** What the next draw does, for all histories and all rows: the text overwrites the last row of the
    terminal; if there is a row below, nothing scrolls; if there is none, everything moves up and the
    last row is left blank.  Neither is the scrolled screen. *)
Theorem C40_terminal_partial : forall e sh w h cursor fill origin m acts sp x y tb force, shades e sh -> is_ctl fill = false ->
  at_rest m -> fits w h origin m -> Forall (act_ok w h) acts ->
  drawable sp -> s_text sp <> [] -> 0 <= x -> x + zlen (s_text sp) <= w -> 0 < h -> h <= y ->
  let '(s, c, m1) := fold_left (perform e origin) (acts ++ [ADraw]) (new_screen w h cursor [fill], [], m) in
  let p := paint_act sh w h (fold_left (paint_act sh w h) acts (blank fill)) (AWrite [((x, h - 1), [sp])] tb force) in
  let '(s', _, _) := write_bulk e c s [((x, y), [sp])] tb force in
  let m' := vt (fst (render s' origin false)) m1 in
  (snd origin - 1 + h < e_h m -> forall q, on_screen w h q -> seen origin m' q = (fst (p q), snd (p q), [])) /\
  (snd origin - 1 + h = e_h m ->
     (forall q, on_screen w (h - 1) q -> seen origin m' q = (fst (p (fst q, snd q + 1)), snd (p (fst q, snd q + 1)), [])) /\
     (forall X, 0 <= X < w -> seen origin m' (X, h - 1) = eblank)).
Proof. exact scrolling. Qed.
Print Assumptions C40_terminal_partial.
(** The full statement is false: the last row of the screen holds "a", that of the terminal is blank *)
Theorem C40_refuted : exists y,
  let s := snd (render (new_screen 3 2 (0, 0) [46]) (1, 1) false) in
  let m := vt (fst (render (new_screen 3 2 (0, 0) [46]) (1, 1) false)) (emu0 3 2) in
  let s' := fst (fst (write_bulk e0 [] s [((0, y), [sp_ "a" None None])] BLACK false)) in
  option_map (fun c => fst (fst c)) (cell_at s' (0, 1)) = Some (lit "a") /\
  seen (1, 1) (vt (fst (render s' (1, 1) false)) m) (0, 1) = eblank.
Proof. exists 2. vm_compute. auto. Qed.
Print Assumptions C40_refuted.
(** Written three rows below, the text is in the last row but the row before it, written earlier to
    the last row, has only moved up by one *)
Theorem C40_far_refuted : exists s,
  option_map (fun c => fst (fst c)) (cell_at s (0, 1)) = Some (lit "z") /\
  let s' := fst (fst (write_bulk e0 [] s [((0, 4), [sp_ "a" None None])] BLACK false)) in
  sc_off s' = 3 /\ option_map (fun c => fst (fst c)) (cell_at s' (0, 0)) = Some (lit "z").
Proof. exists (fst (fst (write_bulk e0 [] s32 [((0, 1), [sp_ "z" None None])] BLACK false))). vm_compute. auto. Qed.
Print Assumptions C40_far_refuted.
Example C40_ex : cache_ok e0 [] /\ shaped s32 /\ drawable bold_a /\ opaque_span bold_a /\ fine_span bold_a /\
  1 + zlen (s_text bold_a) <= sc_w s32 /\ sc_h s32 + sc_off s32 <= 2 /\ fits 3 2 (2, 3) term /\ snd (2, 3) - 1 + 2 = e_h term.
Proof.
  assert (D : drawable bold_a) by draw_tac.
  split; [constructor|]. split; [apply abc_ok|]. split; [exact D|]. split; [now apply drawable_opaque|]. split; [now apply drawable_fine|].
  split; [vm_compute; discriminate|]. split; [vm_compute; discriminate|]. split; [unfold fits; cbn; lia|reflexivity].
Qed.

(** ** C60 *)
(** On a screen that never scrolled, text written at the origin after a clear is in the first cells *)
Theorem C60_clear_write : forall e c s fill sp tb force, cache_ok e c -> sc_off s = 0 ->
  fine_span sp -> opaque_span sp -> fine tb -> ~ In NL (s_text sp) -> 0 < sc_w s -> 0 < sc_h s ->
  exists s' c' n, write e c (clear s fill) [sp] (Some (0, 0)) tb force = (s', c', Ok n) /\
    forall k ch, 0 <= k -> k < sc_w s -> nth_error (get_characters e sp true true) (Z.to_nat k) = Some ch ->
      exists new, cell_at s' (k, 0) = Some new /\ same_cell new (plain_cell (ch, sp)).
Proof. exact clear_then_write. Qed.
Print Assumptions C60_clear_write.
(** On one that has, nothing written above the scroll offset appears, cleared or not *)
Theorem C60_swallowed : forall e c s fill x y line tb force, cache_ok e c -> 0 <= sc_h s -> 0 <= sc_off s -> y < sc_off s ->
  exists c', write e c (clear s fill) line (Some (x, y)) tb force = (clear s fill, c', Ok 0).
Proof. exact clear_swallows. Qed.
Print Assumptions C60_swallowed.
Theorem C60_after_scroll : exists s, sc_cells s = sc_cells s32 /\
  (exists s1 c1 n, write e0 [] s32 [sp_ "a" None None] (Some (0, 2)) BLACK false = (s1, c1, Ok n) /\ s = clear s1 (lit " ")) /\
  snd (write e0 [] s [sp_ "a" None None] (Some (0, 0)) BLACK false) = Ok 0.
Proof.
  eexists (clear (fst (fst (write e0 [] s32 [sp_ "a" None None] (Some (0, 2)) BLACK false))) (lit " ")).
  split; [reflexivity|]. split; [|vm_compute; reflexivity].
  destruct (write e0 [] s32 [sp_ "a" None None] (Some (0, 2)) BLACK false) as [[s1 c1] r] eqn:E.
  assert (R : r = Ok 1) by (apply (f_equal snd) in E; vm_compute in E; symmetry; exact E).
  rewrite R. exists s1, c1, 1. split; reflexivity.
Qed.
Print Assumptions C60_after_scroll.
Example C60_ex : cache_ok e0 [] /\ sc_off s32 = 0 /\ fine_span bold_a /\ opaque_span bold_a /\ fine BLACK /\ ~ In NL (s_text bold_a) /\
  let s := fst (fst (write e0 [] s32 [bold_a] (Some (0, 2)) BLACK false)) in 0 <= sc_h s /\ 0 < sc_off s.
Proof.
  assert (D : drawable bold_a) by draw_tac.
  split; [constructor|]. split; [reflexivity|]. split; [now apply drawable_fine|]. split; [now apply drawable_opaque|].
  split; [apply fine_solid; lia|]. split; [cbn; intuition discriminate|]. vm_compute. split; [discriminate|reflexivity].
Qed.
