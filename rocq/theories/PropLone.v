(** C119: Spans written by themselves, [write(span)] instead of [write([span])] (screen.py, span.py). *)
From Coq Require Import ZArith List Bool String Lia.
From Verif Require Import PyBase F64 SpaceModel ColorModel ColorSpec AnsiRe SpanModel Vt SpanSpec ScreenModel ScreenSpec DrawSpec TileSpec
  PenSpec ScrollProofs LoneSpec LoneProofs LoneProofs2 PropScreen PropDraw.
Import ListNotations.
Open Scope string_scope.
Open Scope list_scope.
Open Scope Z_scope.

(** ** C119 *)
(** Any Spans written by themselves, with any attributes, reset or not; any clears and draws; then a draw: every
    cell shows its character with exactly the attributes and colors of its Span. *)
Theorem C119_drawing : forall e sh w h cursor fill origin m acts, shades e sh -> is_ctl fill = false ->
  at_rest m -> fits w h origin m -> Forall (lone_ok w h) acts -> Forall no_redraw acts ->
  let '(_, _, m') := fold_left (perform_event e origin) (map by_itself (acts ++ [LDraw])) (new_screen w h cursor [fill], [], m) in
  let p := fold_left (paint_act sh w h) (map in_list acts) (blank fill) in
  (forall q, on_screen w h q -> seen origin m' q = (fst (p q), snd (p q), [])) /\
  (forall X Y, ~ on_screen w h (X - fst origin + 1, Y - snd origin + 1) -> e_grid m' X Y = e_grid m X Y) /\ at_rest m'.
Proof. exact lone_drawing. Qed.
Print Assumptions C119_drawing.
(** The same with full redraws among them and one at the end: every cell shows its character with exactly its
    Span's attributes and no colors, and no attribute leaks into other cells or stays on. *)
Theorem C119_redraw : forall e sh w h cursor fill origin m acts, shades e sh -> is_ctl fill = false ->
  at_rest m -> fits w h origin m -> Forall (lone_ok w h) acts ->
  let '(_, _, m') := fold_left (perform_event e origin) (map by_itself (acts ++ [LRedraw])) (new_screen w h cursor [fill], [], m) in
  let p := fold_left (paint_act sh w h) (map in_list acts) (blank fill) in
  (forall q, on_screen w h q -> seen origin m' q = (fst (p q), uncolored (snd (p q)), [])) /\
  (forall X Y, ~ on_screen w h (X - fst origin + 1, Y - snd origin + 1) -> e_grid m' X Y = e_grid m X Y) /\ at_rest m'.
Proof. exact lone_redraw. Qed.
Print Assumptions C119_redraw.
(** Full redraws anywhere, a draw at the end: a cell may at most lack its colors *)
Theorem C119_mixed : forall e sh w h cursor fill origin m acts, shades e sh -> is_ctl fill = false ->
  at_rest m -> fits w h origin m -> Forall (lone_ok w h) acts ->
  let '(_, _, m') := fold_left (perform_event e origin) (map by_itself (acts ++ [LDraw])) (new_screen w h cursor [fill], [], m) in
  let p := fold_left (paint_act sh w h) (map in_list acts) (blank fill) in
  (forall q, on_screen w h q -> seen origin m' q = (fst (p q), snd (p q), []) \/ seen origin m' q = (fst (p q), uncolored (snd (p q)), [])) /\ at_rest m'.
Proof. exact lone_any. Qed.
Print Assumptions C119_mixed.
(** A screen that has scrolled by [sc_off s] rows: each character of the Span is written that many rows above the
    one before it.  The cache of the characters is as any writes leave it (extra line feeds after the last ones). *)
Theorem C119_climbs : forall e c s sp x y tb force, tainted e c -> 0 <= sc_off s -> ~ In NL (s_text sp) ->
  0 <= x -> x + zlen (s_text sp) <= sc_w s -> y - sc_off s < sc_h s ->
  write_bulk e c s [((x, y), span_iter sp)] tb force =
  let '(s', c', r) := write_bulk e c (with_off 0 s) (climbing (sc_off s) x y (span_iter sp)) tb force in (with_off (sc_off s) s', c', r).
Proof. exact climbs. Qed.
Print Assumptions C119_climbs.
(** Below the last row of a screen that has not scrolled, only the last character is written, where the text
    starts. *)
Theorem C119_below : forall e c s sp pre z x y tb force, tainted e c -> shaped s -> opaque_span sp -> fine_span sp ->
  sc_off s = 0 -> s_text sp = pre ++ [z] -> ~ In NL (s_text sp) -> 0 <= x < sc_w s -> 0 < sc_h s <= y ->
  exists s' c', write_bulk e c s [((x, y), span_iter sp)] tb force = (s', c', Ok 1) /\
    scrolled e (mkSpan [z] (s_fg sp) (s_bg sp) (s_link sp) (s_flags sp) true) x y s s' /\ tainted e c'.
Proof. exact below. Qed.
Print Assumptions C119_below.
(** Two characters written by themselves from the last cell on: the whole screen scrolls up by a row, though the
    position is on the screen. *)
Theorem C119_last_cell : forall e c s sp a b tb force, tainted e c -> shaped s -> opaque_span sp ->
  sc_off s = 0 -> s_text sp = [a; b] -> a <> NL -> b <> NL -> 2 <= sc_w s -> 0 < sc_h s ->
  let alone z := mkSpan [z] (s_fg sp) (s_bg sp) (s_link sp) (s_flags sp) true in
  exists s' c' ca cb, write_bulk e c s [((sc_w s - 1, sc_h s - 1), span_iter sp)] tb force = (s', c', Ok 2) /\
    get_characters e (alone a) true true = [ca] /\ get_characters e (alone b) true true = [cb] /\
    sc_off s' = 1 /\ shaped s' /\
    (forall q, on_screen (sc_w s) (sc_h s - 1) q -> cell_at s' q = cell_at s (fst q, snd q + 1)) /\
    cell_at s' (sc_w s - 1, sc_h s - 1) = Some (plain_cell (ca, sp)) /\ cell_at s' (0, sc_h s - 1) = Some (plain_cell (cb, sp)) /\
    (forall X, 0 < X < sc_w s - 1 -> cell_at s' (X, sc_h s - 1) = Some ([], None, None)).
Proof. exact last_cell. Qed.
Print Assumptions C119_last_cell.

(** bold, not reset: by itself both letters are bold; in a list the last one is not *)
Definition bold_ab : span := mkSpan (lit "ab") (Some red_) None [] (set_flag FBold true no_flags) false.
Definition lone_acts := [LWrite (0, 0) (sp_ "xy" None None) BLACK false; LRedraw; LWrite (1, 0) bold_ab BLACK false].
Lemma lone_acts_ok : Forall (lone_ok 3 2) lone_acts /\ Forall (lone_ok 3 2) [LWrite (1, 0) bold_ab BLACK false].
Proof.
  assert (B : lone_ok 3 2 (LWrite (1, 0) bold_ab BLACK false)).
  { split; [reflexivity|]. split; [|split; [apply fine_solid; lia|intros; cbn; lia]].
    split; [repeat constructor|]. split; intros c H; cbn in H; [injection H as <-; split; [apply value_rgb; lia|reflexivity]|discriminate H]. }
  split; [|constructor; [exact B|constructor]]. constructor; [|constructor; [exact Logic.I|constructor; [exact B|constructor]]].
  split; [reflexivity|]. split; [|split; [apply fine_solid; lia|intros; cbn; lia]].
  split; [repeat constructor|]. split; intros c H; cbn in H; discriminate H.
Qed.
Definition boldness (m : emu) (q : pos) : Z * bool := let '(c, r, _) := seen (2, 2) m q in (c, r_bold r).
Example C119_ex : Forall (lone_ok 3 2) [LWrite (1, 0) bold_ab BLACK false] /\ Forall no_redraw [LWrite (1, 0) bold_ab BLACK false] /\
  let shown events := let '(_, _, m) := fold_left (perform_event e0 (2, 2)) events (new_screen 3 2 (0, 0) (lit " "), [], term) in map (boldness m) [(0, 0); (1, 0); (2, 0)] in
  shown (map by_itself [LWrite (1, 0) bold_ab BLACK false; LDraw]) = [(32, false); (97, true); (98, true)] /\
  shown [EAct (AWrite [((1, 0), [bold_ab])] BLACK false); EAct ADraw] = [(32, false); (97, true); (98, false)].
Proof. split; [apply lone_acts_ok|]. split; [repeat constructor|]. split; vm_compute; reflexivity. Qed.
Example C119_redraw_ex : Forall (lone_ok 3 2) lone_acts /\
  let shown events := let '(_, _, m) := fold_left (perform_event e0 (2, 2)) events (new_screen 3 2 (0, 0) (lit " "), [], term) in
    (map (boldness m) [(0, 0); (1, 0); (2, 0); (0, 1)], r_bold (e_rend m)) in
  shown (map by_itself (lone_acts ++ [LRedraw])) = ([(120, false); (97, true); (98, true); (32, false)], false).
Proof. split; [apply lone_acts_ok|]. vm_compute. reflexivity. Qed.
(** "abc" on a screen that has scrolled by a row: a on the last row, b above it, c nowhere *)
Definition letters (s : screen) : list (list str) := map (map (fun c => fst (fst c))) (sc_cells s).
Definition scrolled_screen := fst (fst (write_bulk e0 [] s32 [((0, 2), [sp_ "x" None None])] BLACK false)).
Example C119_climbs_ex : sc_off scrolled_screen = 1 /\
  letters scrolled_screen = [[lit " "; lit " "; lit " "]; [lit "x"; []; []]] /\
  letters (fst (fst (write_bulk e0 [] scrolled_screen [((0, 2), span_iter (sp_ "abc" None None))] BLACK false))) = [[lit " "; lit "b"; lit " "]; [lit "a"; []; []]] /\
  letters (fst (fst (write_bulk e0 [] scrolled_screen [((0, 2), [sp_ "abc" None None])] BLACK false))) = [[lit " "; lit " "; lit " "]; [lit "a"; lit "b"; lit "c"]].
Proof. repeat split; vm_compute; reflexivity. Qed.
Example C119_below_ex : letters (fst (fst (write_bulk e0 [] s32 [((0, 2), span_iter (sp_ "abc" None None))] BLACK false))) = [[lit " "; lit " "; lit " "]; [lit "c"; []; []]] /\
  letters (fst (fst (write_bulk e0 [] s32 [((0, 2), [sp_ "abc" None None])] BLACK false))) = [[lit " "; lit " "; lit " "]; [lit "a"; lit "b"; lit "c"]].
Proof. split; vm_compute; reflexivity. Qed.
Example C119_last_cell_ex : letters (fst (fst (write_bulk e0 [] s32 [((2, 1), span_iter (sp_ "ab" None None))] BLACK false))) = [[lit " "; lit " "; lit " "]; [lit "b"; []; lit "a"]] /\
  letters (fst (fst (write_bulk e0 [] s32 [((2, 1), [sp_ "ab" None None])] BLACK false))) = [[lit " "; lit " "; lit " "]; [lit " "; lit " "; lit "a"]].
Proof. split; vm_compute; reflexivity. Qed.
Example C119_ex_hyps : tainted e0 [] /\ shaped s32 /\ sc_off s32 = 0 /\ opaque_span (sp_ "ab" None None) /\ fine_span (sp_ "abc" None None).
Proof. split; [constructor|]. split; [apply abc_ok|]. split; [reflexivity|]. split; [split; intros c H; discriminate H|]. intros c [H|H]; discriminate H. Qed.
