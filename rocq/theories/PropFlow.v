(** C125: several Spans with line breaks in one write (screen.py:193-244).  Proofs in FlowProofs.v. *)
From Coq Require Import ZArith Reals List Bool String Lia.
From Verif Require Import PyBase F64 SpaceModel ColorModel ColorSpec AnsiRe SpanModel Vt SpanSpec ScreenModel ScreenSpec ScreenProofs DrawSpec DrawProofs DrawProofs2 LineSpec LineProofs FlowSpec FlowProofs.
Import ListNotations.
Open Scope string_scope.
Open Scope list_scope.
Open Scope Z_scope.

(** C125: Spans without attributes, whatever their texts: each one goes on where the one before it ended, line by line, as if every line were written by
    itself, as long as all but the last one end on the screen. *)
Theorem C125_flow : forall e c c2 s data tb force, cache_ok e c -> cache_ok e c2 -> sc_off s = 0 -> Forall (flow_entry (sc_w s) (sc_h s)) data ->
  let '(s1, c1', r1) := write_bulk e c s data tb force in
  let '(s2, c2', r2) := write_bulk e c2 s (flat_map (entry_flow (sc_w s) (sc_h s)) data) tb force in
  s1 = s2 /\ r1 = r2 /\ cache_ok e c1' /\ cache_ok e c2' /\ sc_off s1 = 0 /\ sc_w s1 = sc_w s /\ sc_h s1 = sc_h s.
Proof. exact flow_write. Qed.
Print Assumptions C125_flow.

(** C125: any history of such writes, clears and draws shows the picture of these lines. *)
Theorem C125_shown : forall e sh w h cursor fill origin m acts, shades e sh -> is_ctl fill = false ->
  at_rest m -> fits w h origin m -> Forall (flow_act_ok w h) acts ->
  let '(s, _, m') := fold_left (perform e origin) (acts ++ [ADraw]) (new_screen w h cursor [fill], [], m) in
  let p := fold_left (paint_act sh w h) (map (flow_act w h) acts) (blank fill) in
  (forall q, on_screen w h q -> seen origin m' q = (fst (p q), snd (p q), [])) /\
  (forall X Y, ~ on_screen w h (X - fst origin + 1, Y - snd origin + 1) -> e_grid m' X Y = e_grid m X Y) /\
  at_rest m' /\ sc_buf s = [].
Proof. exact flow_shown. Qed.
Print Assumptions C125_shown.

(** C125: after a Span that is cut off at the end of the screen nothing else of the same write is shown, whatever it is. *)
Theorem C125_cut : forall e c s p a rest tb force, cache_ok e c -> sc_off s = 0 -> no_attribute a -> ~ In NL (s_text a) ->
  inside_screen (sc_w s) (sc_h s) p = true -> sc_w s * sc_h s < reach (sc_w s) p a ->
  let '(s1, _, r1) := write_bulk e c s [(p, a :: rest)] tb force in
  let '(s2, _, r2) := write_bulk e c s [(p, [a])] tb force in s1 = s2 /\ r1 = r2.
Proof. exact cut_off. Qed.
Print Assumptions C125_cut.

(** C125: false when a Span ends in the last cell exactly: the next one scrolls the screen, for all later writes too, and if it is empty the write raises
    IndexError. *)
Theorem C125_full_refuted : forall e c s p a b tb force, cache_ok e c -> sc_off s = 0 -> shaped s -> no_attribute a -> ~ In NL (s_text a) -> s_text a <> [] ->
  inside_screen (sc_w s) (sc_h s) p = true -> sc_w s * sc_h s = reach (sc_w s) p a ->
  let '(s1, _, r1) := write_bulk e c s [(p, [a; b])] tb force in sc_off s1 = 1 /\ (s_text b = [] -> r1 = Err IndexError).
Proof. exact scrolled_away. Qed.
Print Assumptions C125_full_refuted.

(** * Examples *)
Definition e_flow : env := {| env_cs := TRUE_COLOR; env_pow := fun x _ => x |}.
Definition red_span (t : str) : span := mkSpan t (Some (mkColor (255, 0, 0) false fone TRUE_COLOR None)) None [] no_flags true.
Definition shown_glyphs (s : screen) : list (list str) := map (map (fun c => fst (fst c))) (sc_cells s).
Definition s43 : screen := new_screen 4 3 (0, 0) (lit " ").
(** "ab\nc" and "de" from (1, 0) on: ab in the first row, c below the end of it, de after c and on the next row *)
Example C125_ex_flow : let data := [((1, 0), [plain_span [97; 98; 10; 99]; red_span [100; 101]])] in
  Forall (flow_entry 4 3) data /\
  map (fun entry => (fst entry, map s_text (snd entry))) (flat_map (entry_flow 4 3) data) = [((1, 0), [[97; 98]]); ((3, 1), [[99]]); ((0, 2), [[100; 101]])] /\
  shown_glyphs (fst (fst (write_bulk e_flow [] s43 data BLACK false))) =
    [[[32]; [97]; [98]; [32]]; [[32]; [32]; [32]; [99]]; [[100]; [101]; [32]; [32]]].
Proof.
  split; [constructor; [|constructor]|split; [vm_compute; reflexivity|vm_compute; reflexivity]].
  split; [intros []; reflexivity|]. split; [reflexivity|]. split; [reflexivity|]. split; [intros []; reflexivity|reflexivity].
Qed.
Example C125_ex_cut : inside_screen 4 3 (0, 2) = true /\ reach 4 (0, 2) (plain_span (lit "abcde")) = 13 /\ sc_w s43 * sc_h s43 = 12 /\
  shown_glyphs (fst (fst (write_bulk e_flow [] s43 [((0, 2), [plain_span (lit "abcde"); red_span (lit "x")])] BLACK false))) =
    [[[32]; [32]; [32]; [32]]; [[32]; [32]; [32]; [32]]; [[97]; [98]; [99]; [100]]].
Proof. split; [reflexivity|]. split; [reflexivity|]. split; [reflexivity|]. vm_compute. reflexivity. Qed.
(** the x is over the a *)
Example C125_ex_full : shaped s43 /\ inside_screen 4 3 (0, 2) = true /\ reach 4 (0, 2) (plain_span (lit "abcd")) = sc_w s43 * sc_h s43 /\
  shown_glyphs (fst (fst (write_bulk e_flow [] s43 [((0, 2), [plain_span (lit "abcd"); red_span (lit "x")])] BLACK false))) =
    [[[32]; [32]; [32]; [32]]; [[32]; [32]; [32]; [32]]; [[120]; [98]; [99]; [100]]].
Proof. split; [split; [reflexivity|repeat constructor]|]. split; [reflexivity|]. split; [reflexivity|]. vm_compute. reflexivity. Qed.
