(** C123: Terminal.export_svg and the size of the window (terminal.py:141-164, 420-472). *)
From Coq Require Import ZArith Reals List Bool String Lia Lra.
From Verif Require Import PyBase F64 SpaceModel ColorModel ColorSpec AnsiRe SpanModel Vt SpanSpec ScreenModel ScreenSpec GreySpec
  SvgSpec SvgDocSpec SvgGeoSpec SvgTextSpec DrawSpec RedrawSpec CoreModel TermModel TermSpec SessionSpec SessionProofs ViewSpec ExportModel ExportSpec ExportProofs PropScreen PropDraw.
From Verif Require PropSession PropTerm PlayProofs.
Import ListNotations.
Open Scope list_scope.
Open Scope Z_scope.

(** ** C123 *)
(** A program that writes, clears and draws, and then exports while the window still has the size it had at the
    start: the terminal is left as it was, and every piece of the document is inside its picture (font sizes up to
    94, C81). *)
Theorem C123_snapshot : forall v e bg tb ids reqs acts fuel fs dfg dbg own v1 v2, peaceful v -> (env_cs e = NO_COLOR -> pow_accurate (env_pow e)) ->
  color_env v (new_terminal v bg) = Ok e -> color_env v1 (new_terminal v bg) = Ok e -> as_background bg true None = Ok tb ->
  let w := fst (te_size v) in let h := snd (te_size v) in
  0 < w <= 8192 -> 0 <= h <= 8192 -> te_size v1 = te_size v -> te_size v2 = te_size v -> font fs ->
  color_ok (used dfg own) -> color_ok (used dbg bg) ->
  Forall2 (stands_for tb) reqs (map SAct acts) -> Forall (act_ok w h) acts ->
  let p := fold_left (paint_act as_asked w h) acts (blank 32) in in_xml w h p ->
  exists s l doc wt ht nl, ask_all reqs v (heard_by ids (new_terminal v bg)) = (s, Ok tt) /\
    texport fuel fs dfg dbg own v2 v1 s = (s, Ok doc) /\
    pictured spelled w h l p /\
    document (terminal_frame (dec fs) wt ht (used dbg bg) l (numbered_nodes (used dfg own) (used dbg bg) (combine l nl))) doc /\
    Forall2 (placed fs) l nl /\ (fs <= 94 -> Forall (inside wt ht) nl).
Proof. exact snapshot. Qed.
Print Assumptions C123_snapshot.
(** If the window has changed, before or between the two readings of its size: the pieces are those of the screen as
    it was, the picture is as wide as the window at the first reading and as high as at the second.  The export
    notifies the listeners and resizes the screen; an export after that changes nothing more. *)
Theorem C123_window_partial : forall v e bg tb ids reqs acts fuel fs dfg dbg own v1 v2, peaceful v -> (env_cs e = NO_COLOR -> pow_accurate (env_pow e)) ->
  color_env v (new_terminal v bg) = Ok e -> color_env v1 (new_terminal v bg) = Ok e -> as_background bg true None = Ok tb ->
  let w := fst (te_size v) in let h := snd (te_size v) in
  0 < w <= 8192 -> 0 <= h <= 8192 -> extent (fst (te_size v1)) -> extent (snd (te_size v2)) -> font fs ->
  color_ok (used dfg own) -> color_ok (used dbg bg) ->
  Forall2 (stands_for tb) reqs (map SAct acts) -> Forall (act_ok w h) acts ->
  let p := fold_left (paint_act as_asked w h) acts (blank 32) in in_xml w h p ->
  exists s s' l doc wt ht nl, ask_all reqs v (heard_by ids (new_terminal v bg)) = (s, Ok tt) /\
    texport fuel fs dfg dbg own v2 v1 s = (s', Ok doc) /\
    pictured spelled w h l p /\
    document (terminal_frame (dec fs) wt ht (used dbg bg) l (numbered_nodes (used dfg own) (used dbg bg) (combine l nl))) doc /\
    Forall2 (placed fs) l nl /\
    about wt (IZR (fst (te_size v1)) * (IZR fs * em_width) + 32) (/ 1000) /\
    about ht (IZR (snd (te_size v2)) * (IZR fs * em_height) + 32) (/ 1000) /\
    Forall2 (fun p n => fs <= 94 -> ends_at p <= fst (te_size v1) -> p_row p < snd (te_size v2) -> inside wt ht n) l nl /\
    (sc_w (t_screen s'), sc_h (t_screen s')) = te_size v2 /\ t_out s' = t_out s /\
    t_log s' = notices ids (differing (te_size v) [te_size v1; te_size v2]) /\
    (forall v3 v4 f d1 d2 o, te_size v3 = te_size v2 -> te_size v4 = te_size v2 -> fst (texport fuel f d1 d2 o v4 v3 s') = s').
Proof. exact other_window. Qed.
Print Assumptions C123_window_partial.
(** Whatever the program wrote: if the window has become narrower by 17 pixels, the end of every row is outside the
    picture, and if it has become lower, every column of the last row. *)
Theorem C123_cut_refuted : forall v e bg tb ids reqs acts fuel fs dfg dbg own v1 v2, peaceful v -> (env_cs e = NO_COLOR -> pow_accurate (env_pow e)) ->
  color_env v (new_terminal v bg) = Ok e -> color_env v1 (new_terminal v bg) = Ok e -> as_background bg true None = Ok tb ->
  let w := fst (te_size v) in let h := snd (te_size v) in
  0 < w <= 8192 -> 0 <= h <= 8192 -> extent (fst (te_size v1)) -> extent (snd (te_size v2)) -> font fs ->
  color_ok (used dfg own) -> color_ok (used dbg bg) ->
  Forall2 (stands_for tb) reqs (map SAct acts) -> Forall (act_ok w h) acts ->
  let p := fold_left (paint_act as_asked w h) acts (blank 32) in in_xml w h p ->
  exists s s' l doc wt ht nl, ask_all reqs v (heard_by ids (new_terminal v bg)) = (s, Ok tt) /\
    texport fuel fs dfg dbg own v2 v1 s = (s', Ok doc) /\
    document (terminal_frame (dec fs) wt ht (used dbg bg) l (numbered_nodes (used dfg own) (used dbg bg) (combine l nl))) doc /\
    ((17 <= IZR (w - fst (te_size v1)) * (IZR fs * em_width))%R -> forall y, 0 <= y < h ->
       exists q n, In (q, n) (combine l nl) /\ p_row q = y /\ ends_at q = w /\ past_right wt n) /\
    ((17 + IZR fs / 10 <= IZR (h - snd (te_size v2)) * (IZR fs * em_height))%R -> forall x, 0 <= x < w ->
       exists q n, In (q, n) (combine l nl) /\ extends q (x, h - 1) /\ past_bottom ht n).
Proof. exact narrower. Qed.
Print Assumptions C123_cut_refuted.
(** With a listener that raises, a changed window has no export. *)
Theorem C123_raising_refuted : forall fuel fs dfg dbg own v1 v2 s ids n rest p, t_listeners s = map LNote ids ++ LRaise n :: rest -> t_prev s = Some p ->
  te_size v1 <> p -> forall s' doc, texport fuel fs dfg dbg own v2 v1 s <> (s', Ok doc).
Proof. exact never_exported. Qed.
Print Assumptions C123_raising_refuted.

(** * Examples *)
Definition greeting := [RClear 46; RWrite (PStr (lit "hi")) (1, 0) false].
Definition greeting_acts := [AClear 46; AWrite [((1, 0), [PlayProofs.said (lit "hi")])] PropSession.BLACK_BG false].
Definition hear := heard_by [7] (new_terminal (PropSession.rich 3 2) BLACK).
Example C123_ex_program : Forall2 (stands_for PropSession.BLACK_BG) greeting (map SAct greeting_acts) /\ Forall (act_ok 3 2) greeting_acts /\
  in_xml 3 2 (fold_left (paint_act as_asked 3 2) greeting_acts (blank 32)) /\ color_ok (used None WHITE) /\ color_ok (used None BLACK) /\
  (exists e, color_env (PropSession.rich 3 2) (new_terminal (PropSession.rich 3 2) BLACK) = Ok e /\ env_cs e = TRUE_COLOR).
Proof.
  split; [apply PropSession.C88_ex|]. split.
  { apply Forall_cons; [reflexivity|]. apply Forall_cons; [|apply Forall_nil]. split; [|split; [apply fine_solid; lia|all_data draw_tac]].
    apply Forall_cons; [|apply Forall_nil]. split; [reflexivity|]. split; [repeat (apply Forall_cons; [cbn; intuition discriminate|]); apply Forall_nil|exact I]. }
  split. { intros [x y] [Hx Hy]. cbn [fst snd] in Hx, Hy. assert (x = 0 \/ x = 1 \/ x = 2) as [-> |[-> | ->]] by lia; assert (y = 0 \/ y = 1) as [-> | ->] by lia; vm_compute; reflexivity. }
  split; [unfold color_ok, channel_ok; cbn; lia|]. split; [unfold color_ok, channel_ok; cbn; lia|]. eexists. split; reflexivity.
Qed.
(** three columns of font size 15 in the picture of a window of one column, the screen of one column afterwards *)
Example C123_ex_cut : (17 <= IZR (3 - 1) * (IZR 15 * em_width))%R /\
  let s := fst (ask_all greeting (PropSession.rich 3 2) hear) in
  let '(s', r) := texport 5 15 None None WHITE (PropSession.rich 1 2) (PropSession.rich 1 2) s in
  (sc_w (t_screen s), sc_w (t_screen s'), t_log s') = (3, 1, [(7, (1, 2))]) /\
  match r with Ok doc => firstn 21 doc = 10 :: lit "<svg width=""41.02505" | Err _ => False end.
Proof. split; [change (3 - 1) with 2; unfold em_width; lra|]. vm_compute. split; reflexivity. Qed.
Example C123_ex_same : let s := fst (ask_all greeting (PropSession.rich 3 2) hear) in
  let '(s', r) := texport 5 15 None None WHITE (PropSession.rich 3 2) (PropSession.rich 3 2) s in
  (sc_w (t_screen s'), t_log s') = (3, []) /\
  match r with Ok doc => firstn 20 doc = 10 :: lit "<svg width=""59.0751" | Err _ => False end.
Proof. vm_compute. split; reflexivity. Qed.
Example C123_ex_raising : t_listeners (PropTerm.listening [LNote 7; LRaise 1]) = map LNote [7] ++ LRaise 1 :: [] /\
  t_prev (PropTerm.listening [LNote 7; LRaise 1]) = Some (3, 2) /\ te_size (PropSession.rich 4 2) <> (3, 2).
Proof. split; [reflexivity|]. split; [reflexivity|discriminate]. Qed.
