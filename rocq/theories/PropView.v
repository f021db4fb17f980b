(** C24 and C122: what Span.group keeps of a row, and what an SVG export shows (span.py:300-416,
    screen.py:350-420, terminal.py:420-472). *)
From Coq Require Import ZArith Reals List Bool String Lia.
From Verif Require Import PyBase PyLemmas F64 SpaceModel ColorModel ColorSpec AnsiRe SpanModel Vt SpanSpec SpanProofs2 ScreenModel ScreenSpec
  GreySpec SvgSpec SvgDocSpec SvgGeoSpec SvgTextModel SvgTextSpec DrawSpec GroupSpec GroupProofs2 ViewSpec ViewProofs2 ViewProofs3 ViewProofs4 ViewProofs5 PropScreen PropDraw.
From Verif Require TransSpec PropTrans.
Import ListNotations.
Open Scope string_scope.
Open Scope list_scope.
Open Scope Z_scope.

(** ** C24 *)
(** Grouping any row of cells yields maximal runs whose characters, attributes and colors are those
    of the row [kept_row row_start]: all of the row but the mark "opaque" and the colors of some
    cells. *)
Theorem C24_exact : forall e scells row, Forall2 stored scells row -> Forall (scell_fine e) scells -> scells <> [] ->
  exists gs, group e row = Ok gs /\ gs <> [] /\ Forall good_group gs /\ maximal gs /\
    Forall2 carries (flat_map letters gs) (kept_row row_start scells).
Proof. exact group_kept. Qed.
Print Assumptions C24_exact.
(** Nothing but the mark is lost exactly when no colored cell after an uncolored run repeats the first cell of
    the run apart from its color. *)
Theorem C24_lossless : forall e scells row, Forall2 stored scells row -> Forall (scell_fine e) scells -> scells <> [] ->
  ((exists gs, group e row = Ok gs /\ Forall2 carries (flat_map letters gs) (map unmark scells)) <-> faithful scells).
Proof. exact lossless_iff. Qed.
Print Assumptions C24_lossless.
Definition gap_cells (c : Z) : list scell :=
  [(98, no_flags, Some red_, None, true); (32, no_flags, None, None, true); (c, no_flags, None, Some on_blue, true)].
Definition lead_cells : list scell := [(32, no_flags, None, None, true); (32, no_flags, None, Some on_blue, true)].
Lemma gap_hyps : forall c, c <> 27 -> Forall (scell_fine e0) (gap_cells c) /\
  Forall2 stored (gap_cells c) [(lit "b", Some red_, None); (lit " ", None, None); ([c], None, Some on_blue)].
Proof.
  intros c Hc.
  assert (RF : regular e0 (Some red_)) by (apply (layer_regular e0 false); [intro N; discriminate N|intros k H; injection H as <-; split; [apply value_rgb; lia|reflexivity]]).
  assert (RB : regular e0 (Some on_blue)) by (apply (layer_regular e0 true); [intro N; discriminate N|intros k H; injection H as <-; split; [apply value_rgb; lia|reflexivity]]).
  assert (RN : regular e0 None) by (intros k H; discriminate).
  split; [repeat constructor; assumption || discriminate|].
  repeat (constructor; [split; [reflexivity|]; split; [reflexivity|]; left; split; [intros []; reflexivity|reflexivity]|]). constructor.
Qed.
(** the row with another character keeps its colors, the one with a second space does not, and a
    row that starts with spaces does; so does a second space that is marked opaque, but for the mark *)
Definition marked_cells : list scell :=
  [(98, no_flags, Some red_, None, true); (32, no_flags, None, None, true); (32, set_flag FOpaque true no_flags, None, Some on_blue, true)].
Example C24_exact_ex : kept_row row_start (gap_cells 99) = gap_cells 99 /\ kept_row row_start lead_cells = lead_cells /\
  kept_row row_start (gap_cells 32) = [(98, no_flags, Some red_, None, true); (32, no_flags, None, None, true); (32, no_flags, None, None, true)] /\
  faithful (gap_cells 99) /\ faithful lead_cells /\ ~ faithful (gap_cells 32) /\
  faithful marked_cells /\ map unmark marked_cells = gap_cells 32.
Proof.
  split; [reflexivity|]. split; [reflexivity|]. split; [reflexivity|].
  split; [apply kept_iff; reflexivity|]. split; [apply kept_iff; reflexivity|].
  split; [intro F; apply kept_iff in F; discriminate F|]. split; [apply kept_iff; reflexivity|reflexivity].
Qed.

(** ** C122 *)
(** After any history of writes, clears and draws, in every color space, the export succeeds and
    its pieces extend over every position of the screen; each piece there has the character, and is
    bold, dim, italic or underlined, as what was last written there. *)
Theorem C122_text : forall e w h cursor fill origin m acts, (env_cs e = NO_COLOR -> pow_accurate (env_pow e)) -> 0 < w ->
  is_ctl fill = false -> Forall (act_ok w h) acts ->
  let k := fold_left (perform e origin) acts (new_screen w h cursor [fill], [], m) in
  let p := fold_left (paint_act as_asked w h) acts (blank fill) in
  exists l, export_svg e (fst (fst k)) = Ok l /\ pictured spelled w h l p.
Proof. exact view_spelled. Qed.
Print Assumptions C122_text.
(** And if no gap between colored texts is followed by something colored that repeats the gap's
    character, the text and the background of each piece are in the colors asked for. *)
Theorem C122_colors : forall e w h cursor fill origin m acts, (env_cs e = NO_COLOR -> pow_accurate (env_pow e)) -> 0 < w ->
  is_ctl fill = false -> Forall (act_ok w h) acts ->
  let k := fold_left (perform e origin) acts (new_screen w h cursor [fill], [], m) in
  let p := fold_left (paint_act as_asked w h) acts (blank fill) in
  gaps_end w h p -> exists l, export_svg e (fst (fst k)) = Ok l /\
  forall nums dfg dbg, pictured (fun piece _ v => inked nums dfg dbg piece v) w h l p.
Proof. exact view_inked. Qed.
Print Assumptions C122_colors.
(** Those pieces are the ones of the document: the text of the export is that of an XML tree with a
    rectangle and a text for each of them, placed at its cells. *)
Theorem C122_document : forall e w h cursor fill origin m acts, (env_cs e = NO_COLOR -> pow_accurate (env_pow e)) -> 0 < w ->
  is_ctl fill = false -> Forall (act_ok w h) acts ->
  let k := fold_left (perform e origin) acts (new_screen w h cursor [fill], [], m) in
  let p := fold_left (paint_act as_asked w h) acts (blank fill) in
  forall fs dfg dbg, font fs -> w <= 8192 -> 0 <= h <= 8192 -> color_ok dfg -> color_ok dbg -> in_xml w h p ->
  exists l doc wt ht nl, export_svg e (fst (fst k)) = Ok l /\ export_text e (fst (fst k)) w h fs dfg dbg = Ok doc /\
    document (terminal_frame (dec fs) wt ht dbg l (numbered_nodes dfg dbg (combine l nl))) doc /\ Forall2 (placed fs) l nl.
Proof. exact view_document. Qed.
Print Assumptions C122_document.
(** On a terminal that shows true colors, the export shows what the terminal shows. *)
Theorem C122_terminal : forall e w h cursor fill origin m acts, env_cs e = TRUE_COLOR -> 0 < w -> is_ctl fill = false ->
  at_rest m -> DrawSpec.fits w h origin m -> Forall (act_ok w h) acts ->
  let '(s, _, m') := fold_left (perform e origin) (acts ++ [ADraw]) (new_screen w h cursor [fill], [], m) in
  let shown q := fst (seen origin m' q) in
  exists l, export_svg e s = Ok l /\ pictured spelled w h l shown /\
    (gaps_end w h shown -> forall nums dfg dbg, pictured (fun p _ v => inked nums dfg dbg p v) w h l shown).
Proof. exact view_terminal. Qed.
Print Assumptions C122_terminal.
(** The same holds when the writes put translucent content over other content: the export shows a
    picture of the history, with the colors of each cell blended as C93 says. *)
Theorem C122_films : forall e w h cursor fill origin m acts, (env_cs e = NO_COLOR -> pow_accurate (env_pow e)) -> 0 < w ->
  is_ctl fill = false -> Forall (TransSpec.tact_ok w h) acts ->
  let k := fold_left (perform e origin) acts (new_screen w h cursor [fill], [], m) in
  exists p l, TransSpec.tpainted as_asked w h (blank fill) acts p /\ export_svg e (fst (fst k)) = Ok l /\ pictured spelled w h l p /\
    (gaps_end w h p -> forall nums dfg dbg, pictured (fun piece _ v => inked nums dfg dbg piece v) w h l p) /\
    (forall fs dfg dbg, font fs -> w <= 8192 -> 0 <= h <= 8192 -> color_ok dfg -> color_ok dbg -> in_xml w h p ->
      exists doc wt ht nl, export_text e (fst (fst k)) w h fs dfg dbg = Ok doc /\
        document (terminal_frame (dec fs) wt ht dbg l (numbered_nodes dfg dbg (combine l nl))) doc /\ Forall2 (placed fs) l nl).
Proof. exact view_films. Qed.
Print Assumptions C122_films.
Theorem C122_films_terminal : forall e w h cursor fill origin m acts, env_cs e = TRUE_COLOR -> 0 < w -> is_ctl fill = false ->
  at_rest m -> DrawSpec.fits w h origin m -> Forall (TransSpec.tact_ok w h) acts ->
  let '(s, _, m') := fold_left (perform e origin) (acts ++ [ADraw]) (new_screen w h cursor [fill], [], m) in
  let shown q := fst (seen origin m' q) in
  exists l, export_svg e s = Ok l /\ pictured spelled w h l shown /\
    (gaps_end w h shown -> forall nums dfg dbg, pictured (fun p _ v => inked nums dfg dbg p v) w h l shown).
Proof. exact view_films_terminal. Qed.
Print Assumptions C122_films_terminal.
(** a layer of glass over "bc", and a translucent "z" on nothing *)
Definition glazed : list act := [AWrite PropTrans.glass PropTrans.on_black false].
Example C122_films_ex : Forall (TransSpec.tact_ok 3 2) glazed /\
  forall nums, match export_svg e0 (fst (fst (fold_left (perform e0 (1, 1)) glazed (new_screen 3 2 (0, 0) [32], [], emu0 3 2)))) with
  | Ok l => map (fun p => (p_column p, p_row p, s_text (p_span p), ink nums WHITE BLACK p, paper nums WHITE BLACK p)) l =
      [(0, 0, lit "a", Some (lit "#FF0000"), Some (lit "#0000FF")); (1, 0, lit "b", Some (lit "#FF9999"), Some (lit "#9999FF"));
       (2, 0, lit "x", Some (lit "#FFFFFF"), Some (lit "#9999FF")); (0, 1, lit "z", Some (lit "#FFFFFF"), Some (lit "#009900"));
       (1, 1, lit "  ", Some (lit "#FFFFFF"), Some (lit "#000000"))]
  | Err _ => False
  end.
Proof. split; [apply Forall_cons; [apply PropTrans.glass_ok|apply Forall_nil]|]. intro nums. vm_compute. reflexivity. Qed.
(** What the condition on gaps excludes does lose its color: a blue cell of the terminal is in the
    default background in the export. *)
Definition gap_history (t : string) := [AWrite [((0, 0), [sp_ "b" (Some red_) None]); ((2, 0), [sp_ t None (Some on_blue)])] BLACK false].
Theorem C122_gap_refuted : exists acts, Forall (act_ok 3 2) acts /\
  let '(s, _, m') := fold_left (perform e0 (1, 1)) (acts ++ [ADraw]) (new_screen 3 2 (0, 0) [32], [], emu0 3 2) in
  r_bg (snd (fst (seen (1, 1) m' (2, 0)))) = ERgb 0 0 255 /\
  forall nums, match export_svg e0 s with
  | Ok l => forall p, In p l -> extends p (2, 0) -> paper nums WHITE BLACK p = Some (lit "#000000")
  | Err _ => False
  end.
Proof.
  exists (gap_history " "). split.
  { apply Forall_cons; [|apply Forall_nil]. split; [|split; [apply fine_solid; lia|all_data draw_tac]].
    do 2 (apply Forall_cons; [split; [reflexivity|]; split; [repeat (apply Forall_cons; [cbn; intuition discriminate|]); apply Forall_nil|exact I]|]). apply Forall_nil. }
  destruct (fold_left (perform e0 (1, 1)) (gap_history " " ++ [ADraw]) (new_screen 3 2 (0, 0) [32], [], emu0 3 2)) as [[s c] m'] eqn:E.
  assert (Es : s = fst (fst (fold_left (perform e0 (1, 1)) (gap_history " " ++ [ADraw]) (new_screen 3 2 (0, 0) [32], [], emu0 3 2)))) by now rewrite E.
  assert (Em : m' = snd (fold_left (perform e0 (1, 1)) (gap_history " " ++ [ADraw]) (new_screen 3 2 (0, 0) [32], [], emu0 3 2))) by now rewrite E.
  clear E. split; [rewrite Em; vm_compute; reflexivity|]. intro nums.
  assert (X : match export_svg e0 s with
    | Ok l => map (fun p => (p_column p, p_row p, paper nums WHITE BLACK p)) l
    | Err _ => [] end = [(0, 0, Some (lit "#000000")); (1, 0, Some (lit "#000000")); (0, 1, Some (lit "#000000"))]).
  { rewrite Es. vm_compute. reflexivity. }
  destruct (export_svg e0 s) as [l|]; [|discriminate X]. intros p Hp _.
  apply (in_map (fun p => (p_column p, p_row p, paper nums WHITE BLACK p))) in Hp. rewrite X in Hp.
  destruct Hp as [Hp|[Hp|[Hp|[]]]]; apply (f_equal snd) in Hp; symmetry; exact Hp.
Qed.
Print Assumptions C122_gap_refuted.
(** Blinking, concealed and struck text look in an export like text without these attributes. *)
Theorem C122_unexpressed : forall nums dfg dbg x y i s k v, In k [FBlink; FFastBlink; FConceal; FStrike] ->
  piece_css (as_flag k s v) = piece_css s /\
  piece_nodes (fun _ => nums) dfg dbg (x, y, i, as_flag k s v) = piece_nodes (fun _ => nums) dfg dbg (x, y, i, s).
Proof. exact unexpressed. Qed.
Print Assumptions C122_unexpressed.
(** After a write that scrolled the screen, and left a cell before or two cells after it in its row,
    the screen cannot be exported at all; after any other such write it can, if it could before. *)
Theorem C122_scrolled_refuted : forall e c s sp x y tb force, (env_cs e = NO_COLOR -> pow_accurate (env_pow e)) ->
  cache_ok e c -> shaped s -> drawable sp ->
  ~ In NL (s_text sp) -> s_text sp <> [] -> 0 <= x -> x + zlen (s_text sp) <= sc_w s -> 0 < sc_h s -> sc_h s + sc_off s <= y ->
  exists s' c' n, write_bulk e c s [((x, y), [sp])] tb force = (s', c', Ok n) /\
    (0 < x \/ x + zlen (s_text sp) + 1 < sc_w s -> forall l, export_svg e s' <> Ok l) /\
    (x = 0 -> sc_w s <= zlen (s_text sp) + 1 -> (exists l, export_svg e s = Ok l) -> exists l, export_svg e s' = Ok l).
Proof. exact export_after_scroll. Qed.
Print Assumptions C122_scrolled_refuted.
Example C122_scrolled_ex : cache_ok e0 [] /\ shaped s32 /\ drawable bold_a /\ 1 + zlen (s_text bold_a) <= sc_w s32 /\ sc_h s32 + sc_off s32 <= 2 /\
  match export_svg e0 (fst (fst (write_bulk e0 [] s32 [((1, 2), [bold_a])] BLACK false))) with Err IndexError => True | _ => False end.
Proof.
  split; [constructor|]. split; [apply abc_ok|]. split; [draw_tac|]. split; [vm_compute; discriminate|]. split; [vm_compute; discriminate|]. vm_compute. exact I.
Qed.
(** A history with a gap that the theorems cover: the space between "b" and "c" *)
Lemma gap_ok : Forall (act_ok 3 2) (gap_history "c").
Proof.
  apply Forall_cons; [|apply Forall_nil]. split; [|split; [apply fine_solid; lia|all_data draw_tac]].
  do 2 (apply Forall_cons; [split; [reflexivity|]; split; [repeat (apply Forall_cons; [cbn; intuition discriminate|]); apply Forall_nil|exact I]|]). apply Forall_nil.
Qed.
Example C122_ex : env_cs e0 = TRUE_COLOR /\ Forall (act_ok 3 2) (gap_history "c") /\
  at_rest (emu0 3 2) /\ DrawSpec.fits 3 2 (1, 1) (emu0 3 2) /\
  let p := fold_left (paint_act as_asked 3 2) (gap_history "c") (blank 32) in
  gaps_end 3 2 p /\ in_xml 3 2 p /\ r_bg (snd (p (2, 0))) = ERgb 0 0 255 /\ snd (p (1, 0)) = rend0.
Proof.
  split; [reflexivity|]. split; [exact gap_ok|].
  split; [repeat split|]. split; [unfold DrawSpec.fits; cbn; lia|]. cbv zeta. split.
  { intros y x1 x2 Hy Hx Hx2 H1 H2 H3 _. assert (x1 = 1) by lia. assert (x2 = 2) by lia. subst x1 x2.
    assert (Y : y = 0 \/ y = 1) by lia. destruct Y as [-> | ->]; vm_compute in H3; [discriminate H3|]. vm_compute. reflexivity. }
  split; [|split; vm_compute; reflexivity].
  intros [x y] [Hx Hy]. cbn [fst snd] in Hx, Hy. assert (X : x = 0 \/ x = 1 \/ x = 2) by lia. assert (Y : y = 0 \/ y = 1) by lia.
  destruct X as [-> | [-> | ->]], Y as [-> | ->]; vm_compute; reflexivity.
Qed.
