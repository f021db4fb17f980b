(** C88-C90: programs that use a Terminal. *)
From Coq Require Import ZArith List Bool String Lia.
From Verif Require Import PyBase F64 SpaceModel ColorModel ColorSpec AnsiRe SpanModel Vt SpanSpec ScreenModel ScreenSpec DrawSpec RedrawSpec DrawProofs2 CoreModel KeyTab KeySpec KeyProofs
  TermModel TermSpec KeyUseModel KeyUseSpec SessionSpec SessionProofs PlayModel PlaySpec PlayProofs PropScreen PropDraw.
Import ListNotations.
Open Scope Z_scope.
Open Scope list_scope.

(** Surroundings of the examples: a terminal showing every color *)
Definition rich (w h : Z) : tenv := mkTenv (w, h)
  {| SLATE_COLORSYS := None; NO_COLOR_VAR := None; TERM := None; COLORTERM := Some (lit "truecolor") |} (fun x _ => x) (fun _ => false) true true.
Definition BLACK_BG : color := match as_background BLACK true None with Ok c => c | Err _ => BLACK end.

(** ** C88 *)
(** A new terminal, any list of writes (strings or spans), clears and draws, and a draw at the end:
    no call fails, every cell shows what was last written there, nothing else changes. *)
Theorem C88_session : forall v e bg tb sh m reqs acts, peaceful v -> color_env v (new_terminal v bg) = Ok e ->
  as_background bg true None = Ok tb -> shades e sh -> at_rest m -> fits (fst (te_size v)) (snd (te_size v)) (1, 1) m ->
  Forall2 (stands_for tb) reqs (map SAct acts) -> Forall (act_ok (fst (te_size v)) (snd (te_size v))) acts ->
  exists s, ask_all (reqs ++ [RDraw]) v (new_terminal v bg) = (s, Ok tt) /\
    let m' := vt (t_out s) m in
    let p := fold_left (paint_act sh (fst (te_size v)) (snd (te_size v))) acts (blank 32) in
    (forall x y, 0 <= x < fst (te_size v) -> 0 <= y < snd (te_size v) -> e_grid m' x y = (fst (p (x, y)), snd (p (x, y)), [])) /\
    (forall x y, ~ (0 <= x < fst (te_size v) /\ 0 <= y < snd (te_size v)) -> e_grid m' x y = e_grid m x y) /\ at_rest m'.
Proof. exact session. Qed.
Print Assumptions C88_session.
(** A string without escape sequences stands for itself, unstyled *)
Theorem C88_text : forall t, ~ In ESC t -> t <> [] -> parse_line t = Ok [mkSpan t None None [] no_flags true].
Proof. exact plain_string. Qed.
Print Assumptions C88_text.
Example C88_ex : peaceful (rich 3 2) /\ (exists e, color_env (rich 3 2) (new_terminal (rich 3 2) BLACK) = Ok e /\ shades e exact_shade) /\
  as_background BLACK true None = Ok BLACK_BG /\ at_rest term /\ fits 3 2 (1, 1) term /\
  Forall2 (stands_for BLACK_BG) [RClear 46; RWrite (PStr (lit "hi")) (1, 0) false] (map SAct [AClear 46; AWrite [((1, 0), [said (lit "hi")])] BLACK_BG false]).
Proof.
  split; [split; [intro n; reflexivity|reflexivity]|]. split; [eexists; split; [reflexivity|apply C35_true_color; reflexivity]|].
  split; [reflexivity|]. split; [apply term_ok|]. split; [unfold fits; cbn; lia|].
  constructor; [reflexivity|]. constructor; [|constructor]. eexists. split; [|reflexivity]. apply plain_string; [cbn; intuition discriminate|discriminate].
Qed.

(** ** C89 *)
(** examples/mouse_playground.py: after any typing ("c" included, which clears the
    screen) and mouse actions, the last mouse action has an X
    under the mouse; the last text typed is shown from the top left corner, as a literal of it. *)
Theorem C89_playground : forall pr v e bg tb sh m before i, (forall x, 128 <= x <= 159 -> pr x = false) ->
  peaceful v -> color_env v (new_terminal v bg) = Ok e -> as_background bg true None = Ok tb -> fine tb -> shades e sh -> at_rest m ->
  fits (fst (te_size v)) (snd (te_size v)) (1, 1) m -> 2 <= snd (te_size v) ->
  Forall (sensible (fst (te_size v)) (snd (te_size v))) before -> sensible (fst (te_size v)) (snd (te_size v)) i ->
  exists s, play pr (map received (before ++ [i])) v (new_terminal v bg) = (s, Ok tt) /\
    match i with
    | Mouse _ _ x y => e_grid (vt (t_out s) m) (x - 1) (y - 1) = (88, white_text sh, [])
    | Typed t => exists l, literal l = Some t /\ forall k c, nth_error (lit " Keyboard: " ++ l ++ lit " ") k = Some c ->
        Z.of_nat k < fst (te_size v) * snd (te_size v) ->
        e_grid (vt (t_out s) m) (Z.of_nat k mod fst (te_size v)) (Z.of_nat k / fst (te_size v)) = (c, white_text sh, [])
    end.
Proof. exact playing_literal. Qed.
Print Assumptions C89_playground.
Example C89_ex : sensible 3 2 (Typed (lit "q")) /\ sensible 3 2 (Typed (lit "c")) /\ sensible 3 2 (Mouse 0 true 3 2) /\ fine BLACK_BG /\
  received (Mouse 0 true 3 2) = [27] ++ lit "[<0;3;2M".
Proof.
  split; [|split; [|split; [|split; [|reflexivity]]]].
  - split; [apply keyboard_few; reflexivity|]. split; [reflexivity|]. split; [discriminate|]. split; [repeat constructor; unfold character; lia|].
    split; [discriminate|reflexivity].
  - split; [apply keyboard_few; reflexivity|]. split; [reflexivity|]. split; [discriminate|]. split; [repeat constructor; unfold character; lia|].
    split; [discriminate|reflexivity].
  - cbn [sensible]. split; [lia|]. split; [vm_compute; discriminate|lia].
  - apply fine_solid; lia.
Qed.

(** ** C90 *)
(** A printed span can be written as a string: full statement: writing [str(s)] is writing a span that
    looks like [s].  It holds if nothing is reset at the end; otherwise the text of the reset sequence
    is written too. *)
Theorem C90_written : forall v e tb s fg bg p f st, color_env v st = Ok e -> as_background (t_bgcol st) true None = Ok tb ->
  layer_text e false (s_fg s) fg -> layer_text e true (s_bg s) bg ->
  fl_opaque (s_flags s) = false -> s_link s = [] -> text_ok (s_text s) ->
  exists s', s_text s' = s_text s /\ looks_like s' (styled (s_flags s) fg bg rend0) /\
    twrite (PStr (span_str e s)) (Some p) f v st =
    twrite (PSpans (s' :: if s_reset s && has_style s then [plain_span RESET] else [])) (Some p) f v st.
Proof. exact printed_written. Qed.
Print Assumptions C90_written.
Definition bold_ab : span := mkSpan (lit "ab") None None [] (set_flag FBold true no_flags) true.
Definition after_ab : tstate * res unit :=
  ask_all [RWrite (PStr (span_str e0 bold_ab)) (0, 0) false; RDraw] (rich 8 1) (new_terminal (rich 8 1) BLACK).
(** so bold "ab" appears as "ab[0m" *)
Theorem C90_garbage_refuted : snd after_ab = Ok tt /\
  map (fun x => fst (fst (e_grid (vt (t_out (fst after_ab)) (emu0 9 2)) x 0))) [0; 1; 2; 3; 4; 5] = lit "ab[0m ".
Proof. vm_compute. split; reflexivity. Qed.
Print Assumptions C90_garbage_refuted.
