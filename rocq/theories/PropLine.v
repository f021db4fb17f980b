(** C120: line breaks in written text (screen.py, span.py). *)
From Coq Require Import ZArith List Bool String Lia.
From Verif Require Import PyBase F64 SpaceModel ColorModel ColorSpec AnsiRe SpanModel Vt SpanSpec ScreenModel ScreenSpec ScreenProofs DrawSpec
  LineSpec LineProofs LineProofs2 PropScreen PropDraw.
Import ListNotations.
Open Scope string_scope.
Open Scope list_scope.
Open Scope Z_scope.

(** ** C120 *)
(** Spans without attributes, whatever text they have and wherever they start: the screen is the one that writing
    each line by itself leaves, each below the end of the line before it, until one starts below the screen. *)
Theorem C120_lines : forall e c c2 s data tb force, cache_ok e c -> cache_ok e c2 -> sc_off s = 0 -> Forall (text_entry (sc_h s)) data ->
  let '(s1, c1', r1) := write_bulk e c s data tb force in
  let '(s2, c2', r2) := write_bulk e c2 s (flat_map (entry_stairs (sc_w s) (sc_h s)) data) tb force in
  s1 = s2 /\ r1 = r2 /\ cache_ok e c1' /\ cache_ok e c2' /\ sc_off s1 = 0 /\ sc_w s1 = sc_w s /\ sc_h s1 = sc_h s.
Proof. exact lines_write. Qed.
Print Assumptions C120_lines.
(** Two lines: the second one starts as far to the right as the first one ended. *)
Theorem C120_two_lines : forall e c s sp a b x y tb force, cache_ok e c -> sc_off s = 0 -> no_attribute sp -> s_text sp = a ++ NL :: b ->
  ~ In NL a -> ~ In NL b -> 0 <= x -> x + zlen a < sc_w s -> 0 <= y -> y + 1 < sc_h s ->
  let '(s1, _, r1) := write_bulk e c s [((x, y), [sp])] tb force in
  let '(s2, _, r2) := write_bulk e c s [((x, y), [with_text a sp]); ((x + zlen a, y + 1), [with_text b sp])] tb force in s1 = s2 /\ r1 = r2.
Proof. exact two_lines. Qed.
Print Assumptions C120_two_lines.
(** Any histories of such writes, clears and draws show the picture of the lines written one by one. *)
Theorem C120_shown : forall e sh w h cursor fill origin m acts, shades e sh -> is_ctl fill = false ->
  at_rest m -> fits w h origin m -> Forall (text_act_ok w h) acts ->
  let '(s, _, m') := fold_left (perform e origin) (acts ++ [ADraw]) (new_screen w h cursor [fill], [], m) in
  let p := fold_left (paint_act sh w h) (map (text_act w h) acts) (blank fill) in
  (forall q, on_screen w h q -> seen origin m' q = (fst (p q), snd (p q), [])) /\
  (forall X Y, ~ on_screen w h (X - fst origin + 1, Y - snd origin + 1) -> e_grid m' X Y = e_grid m X Y) /\
  at_rest m' /\ sc_buf s = [].
Proof. exact lines_shown. Qed.
Print Assumptions C120_shown.
(** With an attribute the line break takes a cell without a character, the second line follows in the same row of
    the screen; but the terminal shows it on the next row, from the left edge of the terminal on, wherever the
    screen is, and nothing where the screen has it. *)
Theorem C120_misplaced : forall e sh c s sp u v x y tb force origin m, shades e sh -> cache_ok e c -> shaped s -> sc_off s = 0 -> sc_buf s = [] ->
  at_rest m -> fits (sc_w s) (sc_h s) origin m ->
  s_text sp = u ++ NL :: v -> printable u -> printable v -> v <> [] -> s_reset sp = true -> (exists k, get_flag k (s_flags sp) = true) -> text_colors sp ->
  0 <= x -> x + zlen (s_text sp) <= sc_w s -> 0 <= y < sc_h s -> y + snd origin < e_h m ->
  (forall X, 0 <= X < sc_w s -> exists t b, cell_at s (X, y) = Some (t, None, b)) ->
  let '(s', _, m') := fold_left (perform e origin) [AWrite [((x, y), [sp])] tb force; ADraw] (s, c, m) in
  let look c := (c, snd (painted sh (c, sp)), []) in
  (forall k g, nth_error u k = Some g -> seen origin m' (x + Z.of_nat k, y) = look g) /\
  (forall k g, nth_error v k = Some g -> e_grid m' (Z.of_nat k) (y + snd origin) = look g) /\
  (forall X Y, ~ (Y = y + snd origin - 1 /\ x + fst origin - 1 <= X < x + fst origin - 1 + zlen u) -> ~ (Y = y + snd origin /\ 0 <= X < zlen v) ->
     e_grid m' X Y = e_grid m X Y) /\
  (forall k g, nth_error v k = Some g -> exists r, (r = [] \/ r = RESET) /\
     cell_at s' (x + zlen u + 1 + Z.of_nat k, y) = Some (plain_cell (span_colorless sp ++ g :: r, sp))) /\
  cell_at s' (x + zlen u, y) = Some (plain_cell (span_colorless sp, sp)) /\ at_rest m'.
Proof. exact misplaced. Qed.
Print Assumptions C120_misplaced.

(** * Examples *)
Definition lines_ab : span := mkSpan [97; 98; 10; 99] None None [] no_flags true.
Definition bold_lines : span := mkSpan [97; 10; 98] None None [] (set_flag FBold true no_flags) true.
Definition glyphs_of (s : screen) : list (list str) := map (map (fun c => fst (fst c))) (sc_cells s).
Example C120_lines_ex : text_entry 2 ((0, 0), [lines_ab]) /\ sc_off s32 = 0 /\ cache_ok e0 [] /\
  flat_map (entry_stairs 3 2) [((0, 0), [lines_ab])] = [((0, 0), [with_text [97; 98] lines_ab]); ((2, 1), [with_text [99] lines_ab])] /\
  glyphs_of (fst (fst (write_bulk e0 [] s32 [((0, 0), [lines_ab])] BLACK false))) = [[[97]; [98]; [32]]; [[32]; [32]; [99]]].
Proof.
  split; [exists lines_ab; split; [reflexivity|]; split; [intros []; reflexivity|reflexivity]|]. split; [reflexivity|]. split; [constructor|].
  split; vm_compute; reflexivity.
Qed.
(** the second line does not start below the first one *)
Theorem C120_column_refuted : exists e c s sp a b x y tb, cache_ok e c /\ sc_off s = 0 /\ no_attribute sp /\ s_text sp = a ++ NL :: b /\
  x + zlen a < sc_w s /\ y + 1 < sc_h s /\ 0 <= x /\ 0 <= y /\
  cell_at (fst (fst (write_bulk e c s [((x, y), [sp])] tb false))) (x, y + 1) <>
  cell_at (fst (fst (write_bulk e c s [((x, y), [with_text a sp]); ((x, y + 1), [with_text b sp])] tb false))) (x, y + 1).
Proof.
  exists e0, [], s32, lines_ab, [97; 98], [99], 0, 0, BLACK. split; [constructor|]. split; [reflexivity|]. split; [intros []; reflexivity|].
  repeat (split; [reflexivity || (cbn; lia)|]). intro E. apply (f_equal (option_map (fun c => fst (fst c)))) in E. vm_compute in E. discriminate E.
Qed.
Print Assumptions C120_column_refuted.
Definition line_acts := [AWrite [((0, 0), [lines_ab])] BLACK false].
Example C120_shown_ex : Forall (text_act_ok 3 2) line_acts /\
  let '(_, _, m) := fold_left (perform e0 (2, 2)) (line_acts ++ [ADraw]) (new_screen 3 2 (0, 0) (lit " "), [], term) in
  map (fun q => fst (fst (seen (2, 2) m q))) [(0, 0); (1, 0); (2, 0); (0, 1); (1, 1); (2, 1)] = [97; 98; 32; 32; 32; 99].
Proof.
  split; [|vm_compute; reflexivity]. constructor; [|constructor]. split; [constructor; [|constructor]; apply C120_lines_ex|].
  split; [apply fine_solid; lia|]. constructor; [|constructor]. constructor; [|constructor]. split; [|split; discriminate].
  repeat (constructor; [first [left; reflexivity|right; reflexivity]|]). constructor.
Qed.
(** the screen at (2, 2): b is on the screen at (2, 0), on the terminal left of the screen *)
Definition fresh : screen := snd (render s32 (2, 2) false).
Example C120_misplaced_ex : shaped fresh /\ sc_off fresh = 0 /\ sc_buf fresh = [] /\ (exists k, get_flag k (s_flags bold_lines) = true) /\
  0 + snd (2, 2) < e_h term /\ (forall X, 0 <= X < sc_w fresh -> exists t b, cell_at fresh (X, 0) = Some (t, None, b)) /\
  let '(s, _, m) := fold_left (perform e0 (2, 2)) [AWrite [((0, 0), [bold_lines])] BLACK false; ADraw] (fresh, [], term) in
  map (map strip_ansi) (glyphs_of s) = [[[97]; []; [98]]; [[32]; [32]; [32]]] /\
  map (fun q => fst (fst (seen (2, 2) m q))) [(0, 0); (1, 0); (2, 0); (-1, 1); (0, 1)] =
  [97; fst (fst (seen (2, 2) term (1, 0))); fst (fst (seen (2, 2) term (2, 0))); 98; fst (fst (seen (2, 2) term (0, 1)))].
Proof.
  split; [destruct abc_ok as [_ [A _]]; exact A|]. split; [reflexivity|]. split; [reflexivity|]. split; [exists FBold; reflexivity|]. split; [vm_compute; reflexivity|].
  split; [|vm_compute; split; reflexivity]. change (sc_w fresh) with 3. intros X HX. assert (X = 0 \/ X = 1 \/ X = 2) as [-> |[-> | ->]] by lia; eexists; eexists; vm_compute; reflexivity.
Qed.
