(** C118: exactly what a terminal shows when the window or the screen gets another size, and programs that repaint
    then (screen.py, terminal.py, experiments/resize.py). *)
From Coq Require Import ZArith List Bool String Lia.
From Verif Require Import PyBase F64 SpaceModel ColorModel ColorSpec AnsiRe SpanModel Vt SpanSpec ScreenModel ScreenSpec DrawSpec RedrawSpec TileSpec
  PenSpec PenProofs3 CoreModel TermModel TermSpec SessionSpec ReshapeSpec ReshapeModel ReshapeProofs ReshapeProofs2
  PainterSpec PainterProofs PainterProofs2 UvProofs PropScreen PropDraw PropSession PropTile.
Import ListNotations.
Open Scope string_scope.
Open Scope list_scope.
Open Scope Z_scope.

(** ** C118 *)
(** Any sequence of writes (any attributes, reset or not), clears, draws, full redraws, resizes of the screen to any
    size, and changes of the terminal by others: the terminal shows exactly the view these describe, everywhere, and
    has exactly its pen; the cells waiting for a draw are exactly the ones due.  Needed: the screen is within the
    terminal whenever it is drawn, and a draw has nothing due outside the screen. *)
Theorem C118_shown : forall e sh w h cursor fill origin m l, shades e sh -> is_ctl fill = false -> listening m ->
  happenings_ok sh origin (first_view w h fill origin m) l ->
  let '(s, _, m') := fold_left (happen e origin) l (new_screen w h cursor [fill], [], m) in
  let V := shows sh origin (first_view w h fill origin m) l in
  (forall q, seen origin m' q = v_seen V q) /\ e_rend m' = v_pen V /\ listening m' /\
  sc_w s = v_w V /\ sc_h s = v_h V /\ (forall q, pending s q <> None <-> v_due V q <> None).
Proof. exact reshaped_exactly. Qed.
Print Assumptions C118_shown.

(** Repainting: whatever happened before, the window becomes the terminal [m] and the screen is resized to [w] by
    [h].  A clear, any writes, clears and draws, and a draw then show the picture they describe, exactly; the
    terminal outside the screen stays as the window left it. *)
Theorem C118_repaint : forall e sh w0 h0 cursor fill0 origin m0 l m w h fill keep, shades e sh -> is_ctl fill0 = false -> listening m0 ->
  happenings_ok sh origin (first_view w0 h0 fill0 origin m0) l ->
  (forall q, v_due (shows sh origin (first_view w0 h0 fill0 origin m0) l) q <> None -> on_screen w h q) ->
  at_rest m -> fits w h origin m -> is_ctl fill = false ->
  forall fill' acts, is_ctl fill' = false -> Forall (act_ok w h) acts ->
  let '(_, _, m') := fold_left (happen e origin) (l ++ window m w h fill keep ++ do_acts (AClear fill' :: acts ++ [ADraw]))
    (new_screen w0 h0 cursor [fill0], [], m0) in
  let p := fold_left (paint_act sh w h) acts (blank fill') in
  (forall q, on_screen w h q -> seen origin m' q = (fst (p q), snd (p q), [])) /\
  (forall q, ~ on_screen w h q -> seen origin m' q = seen origin m q) /\ at_rest m'.
Proof. exact repainted. Qed.
Print Assumptions C118_repaint.
(** Without the clear: the cells whose contents never became different since the resize show the fill character,
    not what they hold; the other cells show what they hold. *)
Theorem C118_kept : forall e sh w0 h0 cursor fill0 origin m0 l m w h fill keep, shades e sh -> is_ctl fill0 = false -> listening m0 ->
  happenings_ok sh origin (first_view w0 h0 fill0 origin m0) l ->
  (forall q, v_due (shows sh origin (first_view w0 h0 fill0 origin m0) l) q <> None -> on_screen w h q) ->
  at_rest m -> fits w h origin m -> is_ctl fill = false ->
  forall acts, Forall no_clear acts -> Forall (fun a => event_ok w h (EAct a)) acts ->
  let '(_, _, m') := fold_left (happen e origin) (l ++ window m w h fill keep ++ do_acts (acts ++ [ADraw])) (new_screen w0 h0 cursor [fill0], [], m0) in
  let V1 := shows sh origin (shows sh origin (first_view w0 h0 fill0 origin m0) l) (window m w h fill keep) in
  let V2 := shows sh origin V1 (do_acts acts) in
  forall q, on_screen w h q ->
    (untouched sh origin V1 acts q -> seen origin m' q = (fill, rend0, [])) /\
    (~ untouched sh origin V1 acts q -> seen origin m' q = inked sh (v_ink V2 q) rend0).
Proof. exact kept_cells. Qed.
Print Assumptions C118_kept.
(** A full redraw of text without attributes: every cell shows its character, and none its colors *)
Theorem C118_redraw : forall e sh w0 h0 cursor fill0 origin m0 l, shades e sh -> is_ctl fill0 = false -> listening m0 ->
  happenings_ok sh origin (first_view w0 h0 fill0 origin m0) l ->
  let V := shows sh origin (first_view w0 h0 fill0 origin m0) l in
  v_pen V = rend0 -> no_attributes V -> roomy origin V ->
  let '(_, _, m') := fold_left (happen e origin) (l ++ [HDo ERedraw]) (new_screen w0 h0 cursor [fill0], [], m0) in
  (forall q, on_screen (v_w V) (v_h V) q -> seen origin m' q = (tile_char (ink_tile (v_ink V q)), rend0, [])) /\ at_rest m'.
Proof. exact redrawn_plain. Qed.
Print Assumptions C118_redraw.

(** A program with a new Terminal and any listeners that make requests: turns of a main loop in each of which the
    window may have changed, the size is read, and requests are made.  No call fails; the terminal shows exactly the
    view described by: the listeners' requests come right after the resize of the screen, if and only if the size
    that is read is not the screen's. *)
Theorem C118_terminal : forall v0 bg e tb sh paints paint m ts, shades e sh -> as_background bg true None = Ok tb ->
  (forall sz, Forall2 (stands_for tb) (flat_map (fun p => p sz) paints) (paint sz)) ->
  listening m -> Forall (turn_fair v0 bg e tb) ts ->
  let V0 := first_view (fst (te_size v0)) (snd (te_size v0)) 32 (1, 1) m in
  turns_ok sh paint V0 ts ->
  exists s m', take_turns (asking paints) (map fst ts) (new_terminal v0 bg, m) = Ok (s, m') /\
    let V := turns_view sh paint V0 ts in
    (forall x y, e_grid m' x y = v_seen V (x, y)) /\ e_rend m' = v_pen V /\ listening m' /\
    t_prev s = Some (v_w V, v_h V) /\ (sc_w (t_screen s), sc_h (t_screen s)) = (v_w V, v_h V).
Proof. exact turns_exactly. Qed.
Print Assumptions C118_terminal.
(** A listener that clears, paints for the size it is told, and draws; and a loop that reads the size and draws.
    Whatever the window does between the turns, to any size and with anything in it, every cell shows the picture
    for the last size. *)
Theorem C118_painter : forall v0 bg e tb sh fill acts reqs m l, shades e sh -> as_background bg true None = Ok tb -> is_ctl fill = false ->
  (forall sz, Forall2 (stands_for tb) (reqs sz) (map SAct (AClear fill :: acts sz ++ [ADraw]))) ->
  (forall w h, 0 <= w -> 0 <= h -> Forall (act_ok w h) (acts (w, h))) ->
  window_of v0 m -> polls (te_size v0) l ->
  Forall (fun v => peaceful v /\ color_env v (new_terminal v0 bg) = Ok e) (v0 :: map fst l) ->
  exists s m', take_turns (asking [reqs]) (looping reqs v0 l) (new_terminal v0 bg, m) = Ok (s, m') /\
    let '(w, h) := last_size (te_size v0) l in
    let p := fold_left (paint_act sh w h) (acts (w, h)) (blank fill) in
    (forall x y, 0 <= x < w -> 0 <= y < h -> e_grid m' x y = (fst (p (x, y)), snd (p (x, y)), [])) /\
    (sc_w (t_screen s), sc_h (t_screen s)) = (w, h) /\ at_rest m'.
Proof. exact clearing_loop. Qed.
Print Assumptions C118_painter.
(** The same with a listener that paints every cell, without attributes, and calls draw(redraw=True): every cell
    shows its character in the terminal's default colors, whatever colors it was painted in. *)
Theorem C118_redraw_painter : forall v0 bg e tb sh acts chars reqs m l, shades e sh -> as_background bg true None = Ok tb ->
  (forall sz, Forall2 (stands_for tb) (reqs sz) (map SAct (acts sz) ++ [SRedraw])) ->
  (forall w h, 0 <= w -> 0 <= h -> Forall (act_ok w h) (acts (w, h)) /\ covers sh w h (acts (w, h)) (chars (w, h))) ->
  window_of v0 m -> polls (te_size v0) l ->
  Forall (fun v => peaceful v /\ color_env v (new_terminal v0 bg) = Ok e) (v0 :: map fst l) ->
  exists s m', take_turns (asking [reqs]) (looping reqs v0 l) (new_terminal v0 bg, m) = Ok (s, m') /\
    let '(w, h) := last_size (te_size v0) l in
    (forall x y, 0 <= x < w -> 0 <= y < h -> e_grid m' x y = (chars (w, h) (x, y), rend0, [])) /\
    (sc_w (t_screen s), sc_h (t_screen s)) = (w, h) /\ at_rest m'.
Proof. exact redrawing_loop. Qed.
Print Assumptions C118_redraw_painter.
(** experiments/resize.py, which does that to show all colors of a plane: on every window up to 65535 by 65535 and
    after any changes of its size no call fails, but every cell shows U+2584 in the default colors. *)
Theorem C118_uv : forall v0 bg e tb sh m l, shades e sh -> as_background bg true None = Ok tb -> fine tb ->
  window_of v0 m -> polls (te_size v0) l ->
  Forall (fun v => peaceful v /\ color_env v (new_terminal v0 bg) = Ok e /\ fst (te_size v) <= 65535 /\ snd (te_size v) <= 65535) (v0 :: map fst l) ->
  exists s1 s m',
    print_uv (te_size v0) v0 (new_terminal v0 bg) = (s1, Ok tt) /\
    take_turns [print_uv] (map (fun t => mkTurn (fst t) (snd t) [RDraw]) l) (s1, vt (t_out s1) m) = Ok (s, m') /\
    let '(w, h) := last_size (te_size v0) l in
    (forall x y, 0 <= x < w -> 0 <= y < h -> e_grid m' x y = (9604, rend0, [])) /\ at_rest m'.
Proof. exact uv_shown. Qed.
Print Assumptions C118_uv.

(** a red "ab" drawn on 3 by 2; the window becomes 4 by 3 and shows x's; the screen follows *)
Definition red_ab : act := AWrite [((0, 0), [sp_ "ab" (Some red_) None])] BLACK false.
Lemma red_ab_ok : forall w h, 0 <= w -> 1 <= h -> act_ok w h red_ab.
Proof.
  intros w h Hw Hh. split; [|split; [apply fine_solid; lia|all_data draw_tac]].
  apply Forall_cons; [|apply Forall_nil]. split; [lia|]. split; [|exact I].
  repeat (apply Forall_cons; [cbn; intuition discriminate|]). apply Forall_nil.
Qed.
Definition other : emu := set_grid (fun _ _ => (120, rend0, [])) (emu0 6 5).
Definition before : list happening := do_acts [red_ab; ADraw].
Definition redr : rend := styled no_flags (Some (ERgb 255 0 0)) None rend0.
Example C118_ex :
  happenings_ok exact_shade (2, 2) (first_view 3 2 32 (2, 2) term) before /\
  (forall q, v_due (shows exact_shade (2, 2) (first_view 3 2 32 (2, 2) term) before) q = None) /\
  at_rest other /\ fits 4 3 (2, 2) other /\ act_ok 4 3 red_ab /\
  (let '(_, _, m') := fold_left (happen e0 (2, 2)) (before ++ window other 4 3 32 true ++ do_acts [AClear 46; red_ab; ADraw]) (new_screen 3 2 (0, 0) [32], [], term) in
   map (seen (2, 2) m') [(0, 0); (1, 0); (2, 0); (4, 0)] = [(97, redr, []); (98, redr, []); (46, rend0, []); (120, rend0, [])]).
Proof.
  split; [|split; [|split; [|split; [|split; [|vm_compute; reflexivity]]]]].
  - apply acts_happen; [unfold roomy; cbn; lia| |].
    + intros q. cbn [first_view v_due v_w v_h]. destruct (inside 3 2 q) eqn:E; [intros _; now apply inside_iff|congruence].
    + apply Forall_cons; [apply act_event_ok, red_ab_ok; cbn; lia|]. apply Forall_cons; [exact I|apply Forall_nil].
  - intro q. reflexivity.
  - repeat split.
  - unfold fits. cbn. lia.
  - apply red_ab_ok; lia.
Qed.
(** The same text written again without a clear is not shown, though every cell holds it *)
Theorem C118_same_text_refuted : exists e sh, shades e sh /\
  let '(s, _, m') := fold_left (happen e (2, 2)) (before ++ window other 4 3 32 true ++ do_acts [red_ab; ADraw]) (new_screen 3 2 (0, 0) [32], [], term) in
  map (seen (2, 2) m') [(0, 0); (1, 0)] = [(32, rend0, []); (32, rend0, [])] /\
  map (fun q => option_map (fun c => fst (fst c)) (cell_at s q)) [(0, 0); (1, 0)] = [Some (lit "a"); Some (lit "b")].
Proof. exists e0, exact_shade. split; [exact e0_shades|]. vm_compute. split; reflexivity. Qed.
Print Assumptions C118_same_text_refuted.
(** a full redraw shows "ab" without its red *)
Example C118_redraw_ex : let V := shows exact_shade (2, 2) (first_view 3 2 32 (2, 2) term) before in
  v_pen V = rend0 /\ no_attributes V /\ roomy (2, 2) V /\ v_seen V (0, 0) = (97, redr, []) /\
  let '(_, _, m') := fold_left (happen e0 (2, 2)) (before ++ [HDo ERedraw]) (new_screen 3 2 (0, 0) [32], [], term) in
  seen (2, 2) m' (0, 0) = (97, rend0, []).
Proof.
  cbv zeta. split; [vm_compute; reflexivity|]. split; [|split; [unfold roomy; cbn; lia|split; vm_compute; reflexivity]].
  intros [x y] H. assert (C : on_screen 3 2 (x, y)) by exact H. destruct C as [C1 C2]. cbn [fst snd] in *.
  assert (X : x = 0 \/ x = 1 \/ x = 2) by lia. assert (Y : y = 0 \/ y = 1) by lia.
  destruct X as [->|[->| ->]]; destruct Y as [->| ->]; vm_compute; repeat constructor.
Qed.
(** a listener that writes a red "ab" at the bottom left; the window grows from 3 by 2 to 6 by 5 *)
Definition bottom (sz : Z * Z) : list act := [AWrite [((0, snd sz - 1), [sp_ "ab" (Some red_) None])] BLACK_BG false].
Definition bottom_reqs (sz : Z * Z) : list request :=
  [RClear 46; RWrite (PSpans [sp_ "ab" (Some red_) None]) (0, snd sz - 1) false; RDraw].
Example C118_painter_ex :
  (forall sz, Forall2 (stands_for BLACK_BG) (bottom_reqs sz) (map SAct (AClear 46 :: bottom sz ++ [ADraw]))) /\
  (forall w h, 0 <= w -> 0 <= h -> Forall (act_ok w h) (bottom (w, h))) /\
  window_of (rich 3 2) (emu0 3 2) /\ polls (3, 2) [(rich 3 2, None); (rich 6 5, Some other); (rich 6 5, None)] /\
  last_size (3, 2) [(rich 3 2, None); (rich 6 5, Some other); (rich 6 5, None)] = (6, 5) /\
  as_background BLACK true None = Ok BLACK_BG /\
  (exists e, shades e exact_shade /\ Forall (fun v => peaceful v /\ color_env v (new_terminal (rich 3 2) BLACK) = Ok e) [rich 3 2; rich 3 2; rich 6 5; rich 6 5]) /\
  match take_turns (asking [bottom_reqs]) (looping bottom_reqs (rich 3 2) [(rich 3 2, None); (rich 6 5, Some other); (rich 6 5, None)])
    (new_terminal (rich 3 2) BLACK, emu0 3 2) with
  | Ok (_, m') => map (fun q => e_grid m' (fst q) (snd q)) [(0, 1); (0, 4); (1, 4); (5, 4)] = [(46, rend0, []); (97, redr, []); (98, redr, []); (46, rend0, [])]
  | Err _ => False
  end.
Proof.
  split; [intro sz; repeat (constructor; [reflexivity|]); constructor|]. split.
  { intros w h Hw Hh. apply Forall_cons; [|apply Forall_nil]. split; [|split; [apply fine_solid; lia|all_data draw_tac]].
    apply Forall_cons; [|apply Forall_nil]. split; [cbn; lia|]. split; [|exact I].
    repeat (apply Forall_cons; [cbn; intuition discriminate|]). apply Forall_nil. }
  split; [split; [repeat split|split; [reflexivity|cbn; lia]]|].
  split. { split; [reflexivity|]. split; [split; [repeat split|split; [reflexivity|cbn; lia]]|]. split; [discriminate|]. split; [reflexivity|exact I]. }
  split; [reflexivity|]. split; [reflexivity|]. split; [|vm_compute; reflexivity].
  eexists. split; [|repeat (apply Forall_cons; [split; [split; [intro n; reflexivity|reflexivity]|reflexivity]|]); apply Forall_nil].
  apply C35_true_color. reflexivity.
Qed.
(** experiments/resize.py on 3 by 2: the last cell holds its colors and does not show them *)
Example C118_uv_ex : let '(s, r) := print_uv (3, 2) (rich 3 2) (new_terminal (rich 3 2) BLACK) in
  match cell_at (t_screen s) (2, 1) with Some (_, Some f, Some b) => (c_rgb f, c_rgb b) = ((170, 192, 0), (170, 128, 0)) | _ => False end /\
  e_grid (vt (t_out s) (emu0 3 2)) 2 1 = (9604, rend0, []).
Proof. vm_compute. split; reflexivity. Qed.
