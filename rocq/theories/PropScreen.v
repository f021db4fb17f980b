(** C26-C34, C37, C39, C41, C42: the screen (screen.py). *)
From Coq Require Import ZArith Reals List Bool String Lia Lra Permutation Sorting.Sorted.
From Flocq Require Import IEEE754.BinarySingleNaN.
From Verif Require Import PyBase PyLemmas F64 FloatLemmas SpaceModel ColorModel ColorSpec ColorProofs BlendProofs HueProofs AnsiRe SpanModel SpanSpec
  ScreenModel ScreenSpec ScreenProofs3 ScreenProofs4 ScreenProofs5 ScreenProofs6 ScreenProofs7 ScreenProofs8.
Import ListNotations.
Open Scope string_scope.
Open Scope list_scope.
Open Scope Z_scope.

(** * Objects of the examples *)
Definition e0 : env := {| env_cs := TRUE_COLOR; env_pow := fun x _ => x |}.
Definition red_ := mkColor (255, 0, 0) false fone TRUE_COLOR None.
Definition on_blue := mkColor (0, 0, 255) true fone TRUE_COLOR None.
Definition on_white := mkColor (255, 255, 255) true fone TRUE_COLOR None.
Definition on_mist := mkColor (255, 255, 255) true (flit 1 2) TRUE_COLOR None.
Definition on_fog := mkColor (0, 255, 0) true (flit 1 4) TRUE_COLOR None.
Definition faint := mkColor (255, 0, 0) false (flit 1 2) TRUE_COLOR None.
Definition sp_ (t : string) (fg bg : option color) : span := mkSpan (lit t) fg bg [] no_flags true.
Definition s32 := new_screen 3 2 (0, 0) (lit " ").
Definition abc := [((1, 0), [sp_ "ab" (Some red_) (Some on_blue); sp_ "cd" None None])].

Lemma ok_rgb : forall r g b l a, 0 <= r < 256 -> 0 <= g < 256 -> 0 <= b < 256 -> color_ok (mkColor (r, g, b) l a TRUE_COLOR None).
Proof. intros. unfold color_ok, channel_ok. cbn. lia. Qed.
Lemma fine_solid : forall r g b l, 0 <= r < 256 -> 0 <= g < 256 -> 0 <= b < 256 -> fine (mkColor (r, g, b) l fone TRUE_COLOR None).
Proof. intros. apply fine_fone; [now apply ok_rgb|reflexivity]. Qed.
Lemma fine_mist : fine on_mist.
Proof.
  split; [now apply ok_rgb|]. destruct half_exact as [H1 H2]. split; [exact H1|]. change (c_alpha on_mist) with (flit 1 2). rewrite H2. lra.
Qed.

Ltac all_data tac := repeat (apply Forall_cons; [cbn [snd]; repeat (apply Forall_cons; [tac|]); try apply Forall_nil|]); try apply Forall_nil.
Ltac fine_tac := let c := fresh in let H := fresh in intros c H; cbn in H; destruct H as [H|H]; first [discriminate H|injection H as <-; first [apply fine_solid; lia|apply fine_mist]].
Lemma abc_ok : cache_ok e0 [] /\ shaped s32 /\ calm_write s32 abc /\ fine BLACK /\ fine_data abc /\ opaque_data abc.
Proof.
  split; [constructor|]. split; [apply new_screen_shape|]. split; [|split; [apply fine_solid; lia|split]].
  - split; [reflexivity|]. apply Forall_cons; [|apply Forall_nil]. split; [reflexivity|]. split; [|intros _ _; vm_compute; reflexivity].
    repeat (apply Forall_cons; [cbn; intuition discriminate|]). apply Forall_nil.
  - unfold fine_data, abc. all_data fine_tac.
  - unfold opaque_data, abc. all_data ltac:(split; intros c H; cbn in H; first [discriminate H|injection H as <-; reflexivity]).
Qed.

(** ** C26 *)
(** In a history of calls, clears, resizes, draws and writes that do not scroll, the cached
    method returns what the uncached one computes.  [calm_write] gives the meaning of "does not
    scroll".  Scrolling writes break it: C26_scrolling. *)
Theorem C26_pure : forall e ops s sp x a, shaped s -> sc_off s = 0 -> calm_run e (s, []) ops ->
  fst (cached_characters e (snd (run e (s, []) ops)) sp x a) = get_characters e sp x a.
Proof. exact calm_characters. Qed.
Print Assumptions C26_pure.
(** One write below the screen: from then on get_characters returns an extra newline, for every
    equal span *)
Theorem C26_scrolling : exists ops sp,
  fst (cached_characters e0 (snd (run e0 (new_screen 1 1 (0, 0) (lit " "), []) ops)) sp true true)
  <> get_characters e0 sp true true.
Proof. exists [OWrite [sp_ "a" None None] (Some (0, 1)) BLACK false], (sp_ "a" None None). vm_compute. discriminate. Qed.
Print Assumptions C26_scrolling.
Example C26_ex : calm_run e0 (s32, []) [OBulk abc BLACK false; OClear (lit " "); OChars (sp_ "x" None None) true true].
Proof. split; [apply abc_ok|]. split; [exact I|]. split; exact I. Qed.

(** ** C27 *)
(** Whatever is done to a screen, raising writes included, it has exactly [sc_h] rows of [sc_w]
    cells, and its size is the one of the last resize. *)
Theorem C27_shape : forall e w h cursor fill ops,
  let s := fst (run e (new_screen w h cursor fill, []) ops) in
  shaped s /\ (sc_w s, sc_h s) = fold_left size_after ops (w, h).
Proof.
  exact (fun e w h cursor fill ops =>
    let '(conj H1 (conj _ (conj _ H2))) := run_shape e ops (new_screen w h cursor fill) []
      (proj1 (new_screen_shape w h cursor fill)) (Forall_nil _) (proj2 (new_screen_shape w h cursor fill)) in conj H1 H2).
Qed.
Print Assumptions C27_shape.
(** On a screen at least one row high, after any history, a write of non-empty spans with usable
    colors succeeds at every cursor.  Both conditions are needed. *)
Theorem C27_writes_succeed : forall e w h cursor fill ops data tb force,
  let '(s, c) := run e (new_screen w h cursor fill, []) ops in
  0 < sc_h s -> fine tb -> fine_data data -> Forall (fun entry => Forall (fun sp => s_text sp <> []) (snd entry)) data ->
  exists n, snd (write_bulk e c s data tb force) = Ok n.
Proof. exact history_writes_succeed. Qed.
Print Assumptions C27_writes_succeed.
Theorem C27_no_rows : exists s sp, shaped s /\ s_text sp <> [] /\
  snd (write e0 [] s [sp] (Some (0, 0)) BLACK false) = Err IndexError.
Proof.
  exists (new_screen 3 0 (0, 0) (lit " ")), (sp_ "a" None None). split; [apply new_screen_shape|]. split; [discriminate|].
  vm_compute. reflexivity.
Qed.
Print Assumptions C27_no_rows.
Theorem C27_empty_text : exists s sp, shaped s /\ 0 < sc_h s /\
  snd (write e0 [] s [sp] (Some (0, sc_h s)) BLACK false) = Err IndexError.
Proof.
  exists s32, (sp_ "" None None). split; [apply new_screen_shape|]. split; [reflexivity|]. vm_compute. reflexivity.
Qed.
Print Assumptions C27_empty_text.
Example C27_ex : fold_left size_after [OClear (lit "."); OResize (4, 1) (lit " ") true; OBulk abc BLACK false] (3, 2) = (4, 1) /\
  fine_data abc /\ Forall (fun entry => Forall (fun sp => s_text sp <> []) (snd entry)) abc.
Proof. split; [reflexivity|]. split; [apply abc_ok|]. repeat constructor; discriminate. Qed.

(** ** C28 *)
(** The k-th character of an opaque write at (x, y) is in cell number y * width + x + k, counted
    row by row, with the colors of its span (white if unset); the other cells are as before. *)
Theorem C28_layout : forall e c s x y line tb force, cache_ok e c -> shaped s -> calm_write s [((x, y), line)] ->
  fine tb -> Forall fine_span line -> Forall opaque_span line -> 0 <= x < sc_w s -> 0 <= y < sc_h s ->
  exists s' c' n, write e c s line (Some (x, y)) tb force = (s', c', Ok n) /\
    let w := sc_w s in let p := y * w + x in
    (forall k ch sp, 0 <= k -> p + k < w * sc_h s -> nth_error (pieces e line) (Z.to_nat k) = Some (ch, sp) ->
       exists new, cell_at s' ((p + k) mod w, (p + k) / w) = Some new /\ same_cell new (plain_cell (ch, sp))) /\
    (forall q, (forall k, 0 <= k < zlen (pieces e line) -> q <> ((p + k) mod w, (p + k) / w)) -> cell_at s' q = cell_at s q).
Proof. exact layout. Qed.
Print Assumptions C28_layout.
(** The characters are those of the texts *)
Theorem C28_characters : forall e line, Forall (fun s => no_esc (s_text s)) line ->
  map (fun i => (strip_ansi (fst i), snd i)) (pieces e line) = flat_map (fun s => map (fun c => ([c], s)) (s_text s)) line.
Proof. exact pieces_characters. Qed.
Print Assumptions C28_characters.
(** Left of, right of or above the screen nothing happens *)
Theorem C28_outside : forall e c s x y line tb force, cache_ok e c -> shaped s -> calm_write s [((x, y), line)] ->
  fine tb -> Forall fine_span line -> (x < 0 \/ sc_w s <= x \/ y < 0) ->
  exists c', write e c s line (Some (x, y)) tb force = (s, c', Ok 0).
Proof. exact layout_outside. Qed.
Print Assumptions C28_outside.
Example C28_ex : let '(s', _, r) := write_bulk e0 [] s32 abc BLACK false in
  map (map (fun c => fst (fst c))) (sc_cells s') = [[lit " "; lit "a"; lit "b"]; [lit "c"; lit "d"; lit " "]] /\ r = Ok 4.
Proof. vm_compute. split; reflexivity. Qed.
Example C28_ex_hyps : calm_write s32 abc /\ fine_data abc /\ opaque_data abc. Proof. repeat split; apply abc_ok. Qed.

(** ** C29 *)
(** The number returned counts the cells whose content differs, exactly those get a new pending
    entry, and it is the output of the new content. *)
Theorem C29_counts : forall e c s data tb force, cache_ok e c -> shaped s -> calm_write s data -> fine tb -> fine_data data ->
  exists s' c' n, write_bulk e c s data tb force = (s', c', Ok n) /\
    counts (fun q => cell_at s' q <> cell_at s q) n /\
    (forall q, cell_at s' q = cell_at s q -> pending s' q = pending s q) /\
    (forall q, cell_at s' q <> cell_at s q ->
       exists old new, cell_at s q = Some old /\ cell_at s' q = Some new /\ ~ same_cell new old /\
         pending s' q = Some (drawn e new)).
Proof. exact write_counts. Qed.
Print Assumptions C29_counts.
Example C29_ex : drawn e0 (lit "a", Some red_, Some on_blue) = [27] ++ lit "[38;2;255;0;0;48;2;0;0;255ma" ++ [27] ++ lit "[0m".
Proof. vm_compute. reflexivity. Qed.

(** ** C30 *)
Theorem C30_twice : forall e c s data tb force, cache_ok e c -> shaped s -> calm_write s data -> fine tb -> fine_data data ->
  exists s' c' n c'', write_bulk e c s data tb force = (s', c', Ok n) /\
    forall force', write_bulk e c' s' data tb force' = (s', c'', Ok 0).
Proof. exact write_twice. Qed.
Print Assumptions C30_twice.
Example C30_ex : cache_ok e0 [] /\ shaped s32 /\ calm_write s32 abc /\ fine BLACK /\ fine_data abc.
Proof. repeat match goal with |- _ /\ _ => split end; apply abc_ok. Qed.

(** ** C31 *)
(** Each cell holds the last item covering it, as if the items were written one by one. *)
Theorem C31_last_writer : forall e c s data tb force, cache_ok e c -> shaped s -> calm_write s data -> fine tb -> fine_data data ->
  opaque_data data ->
  exists s' c' n, write_bulk e c s data tb force = (s', c', Ok n) /\
    (forall q, on_screen (sc_w s) (sc_h s) q ->
       (forall i, topmost q (laid_all e (sc_w s) (sc_h s) data) i -> exists new, cell_at s' q = Some new /\ same_cell new (plain_cell i)) /\
       ((forall i, ~ In (q, i) (laid_all e (sc_w s) (sc_h s) data)) -> cell_at s' q = cell_at s q) /\
       exists a b, cell_at s' q = Some a /\ cell_at (fst (each e c s data tb)) q = Some b /\ (a = b \/ same_cell a b)).
Proof. exact last_writer. Qed.
Print Assumptions C31_last_writer.
Example C31_ex : let data := [((0, 0), [sp_ "xyz" None None]); ((1, 0), [sp_ "ab" (Some red_) (Some on_blue)])] in
  topmost (1, 0) (laid_all e0 3 2 data) (lit "a", sp_ "ab" (Some red_) (Some on_blue)).
Proof.
  exists [((0, 0), (lit "x", sp_ "xyz" None None)); ((1, 0), (lit "y", sp_ "xyz" None None)); ((2, 0), (lit "z", sp_ "xyz" None None))],
    [((2, 0), (lit "b", sp_ "ab" (Some red_) (Some on_blue)))].
  split; [reflexivity|]. cbn. intuition discriminate.
Qed.

(** ** C32 *)
(** Translucent layers over an item with an opaque background: the backgrounds are blended on one
    after the other; blank layers not marked opaque let the character below show, and if the top
    one does, the layers are blended on the foreground as well.  [alternating]: a layer is not
    preceded by one of the same color, which is otherwise applied once
    (C32_repeated). *)
Theorem C32_layers : forall e c s data tb force q base layers b bgs, cache_ok e c -> shaped s -> calm_write s data ->
  fine tb -> fine_data data -> on_screen (sc_w s) (sc_h s) q ->
  covering q (laid_all e (sc_w s) (sc_h s) data) = base :: layers ->
  s_bg (snd base) = Some b -> c_alpha b = fone -> Forall2 translucent layers bgs -> alternating bgs ->
  solid (s_fg (snd (showing base layers))) ->
  exists s' c' n new bg fg, write_bulk e c s data tb force = (s', c', Ok n) /\ cell_at s' q = Some new /\
    same_cell new (fst (showing base layers), Some fg, Some bg) /\ tinted b bgs bg /\
    (bleeds base layers -> tinted (foreground (showing base layers)) bgs fg) /\
    (~ bleeds base layers -> fg = foreground (showing base layers)).
Proof. exact layers_spec. Qed.
Print Assumptions C32_layers.
(** An opaque item does not hide translucent items written before it in the same bulk: their
    color is blended over it. *)
Definition bg_of (r : screen * ccache * res Z) : option triple :=
  match cell_at (fst (fst r)) (0, 0) with Some (_, _, Some b) => Some (c_rgb b) | _ => None end.
Definition at0 (bgs : list color) : list (pos * list span) := map (fun b => ((0, 0), [sp_ "a" None (Some b)])) bgs.
Theorem C32_opaque_on_top : exists bgs top, c_alpha top = fone /\ fine_data (at0 (bgs ++ [top])) /\
  bg_of (write_bulk e0 [] s32 (at0 (bgs ++ [top])) BLACK false) <> Some (c_rgb top).
Proof.
  exists [on_white; on_mist], on_blue. split; [reflexivity|]. split; [|vm_compute; discriminate].
  unfold fine_data, at0. cbn [app map]. all_data fine_tac.
Qed.
Print Assumptions C32_opaque_on_top.
(** Two equal layers give the same as one *)
Theorem C32_repeated : exists base l, c_alpha base = fone /\ c_alpha l <> fone /\
  bg_of (write_bulk e0 [] s32 (at0 [base; l; l]) BLACK false) = bg_of (write_bulk e0 [] s32 (at0 [base; l]) BLACK false) /\
  bg_of (write_bulk e0 [] s32 (at0 [base; l]) BLACK false) <> Some (c_rgb l) /\
  bg_of (write_bulk e0 [] s32 (at0 [base; l]) BLACK false) <> Some (c_rgb base).
Proof.
  exists on_blue, on_mist. split; [reflexivity|].
  split; [intro H; apply (f_equal B2SF) in H; vm_compute in H; discriminate|].
  split; [vm_compute; reflexivity|]. split; vm_compute; discriminate.
Qed.
Print Assumptions C32_repeated.
Example C32_ex : bg_of (write_bulk e0 [] s32 (at0 [on_blue; on_mist; on_fog]) BLACK false) = Some (99, 188, 165) /\
  alternating [on_mist; on_fog] /\ covering (0, 0) (laid_all e0 3 2 (at0 [on_blue; on_mist])) =
    [(lit "a", sp_ "a" None (Some on_blue)); (lit "a", sp_ "a" None (Some on_mist))].
Proof. split; [vm_compute; reflexivity|]. split; [|reflexivity]. split; [|exact I]. intro H. vm_compute in H. intuition discriminate. Qed.

(** ** C33 *)
(** False in every case: over a background, text with a translucent foreground is drawn in the color
    of that background itself. *)
Theorem C33_invisible : forall e c s data tb force q ch sp f b, cache_ok e c -> shaped s -> calm_write s data ->
  fine tb -> fine_data data -> on_screen (sc_w s) (sc_h s) q ->
  covering q (laid_all e (sc_w s) (sc_h s) data) = [(ch, sp)] ->
  s_fg sp = Some f -> s_bg sp = Some b -> c_alpha f <> fone ->
  exists s' c' n new k, write_bulk e c s data tb force = (s', c', Ok n) /\ cell_at s' q = Some new /\
    same_cell new (ch, Some k, Some k) /\
    (c_alpha b = fone -> k = b) /\ (c_alpha b <> fone -> blend tb b (strength b) None = Ok k).
Proof. exact invisible. Qed.
Print Assumptions C33_invisible.
Theorem C33_blended_refuted : exists f b, c_rgb f = (255, 0, 0) /\ c_alpha f = flit 1 2 /\ c_rgb b = (0, 0, 255) /\ c_alpha b = fone /\
  match cell_at (fst (fst (write e0 [] s32 [sp_ "a" (Some f) (Some b)] (Some (0, 0)) BLACK false))) (0, 0) with
  | Some (_, Some fg, _) => c_rgb fg = (0, 0, 255)
  | _ => False
  end.
Proof. exists faint, on_blue. repeat match goal with |- _ /\ _ => split end; try reflexivity. Qed.
Print Assumptions C33_blended_refuted.
Example C33_ex : covering (0, 0) (laid_all e0 3 2 [((0, 0), [sp_ "a" (Some faint) (Some on_blue)])]) = [(lit "a", sp_ "a" (Some faint) (Some on_blue))]
  /\ c_alpha faint <> fone.
Proof. split; [reflexivity|]. intro H. apply (f_equal (@B2SF _ _)) in H. vm_compute in H. discriminate. Qed.

(** ** C34 *)
(** The pending cells, each once, from top to bottom and left to right, then a reset; nothing is pending
    afterwards. *)
Theorem C34_render : forall s origin, keyed s ->
  exists items, Permutation items (sc_buf s) /\ StronglySorted (fun a b => above (fst a) (fst b)) items /\
    let '(out, s') := render s origin false in
    (exists body, out = body ++ [27; 91; 48; 109]) /\
    (out = emitted origin items \/ out = emitted origin items ++ [27; 91; 48; 109]) /\
    s' = mkScreen (sc_w s) (sc_h s) (sc_cells s) [] (sc_cursor s) (sc_off s) /\
    forall origin', fst (render s' origin' false) = [27; 91; 48; 109].
Proof. exact render_spec. Qed.
Print Assumptions C34_render.
Theorem C34_keyed : forall e w h cursor fill ops, keyed (fst (run e (new_screen w h cursor fill, []) ops)).
Proof.
  exact (fun e w h cursor fill ops => proj1 (proj2 (proj2 (run_shape e ops (new_screen w h cursor fill) []
      (proj1 (new_screen_shape w h cursor fill)) (Forall_nil _) (proj2 (new_screen_shape w h cursor fill)))))).
Qed.
Print Assumptions C34_keyed.
Example C34_ex : emitted (1, 1) [((1, 0), lit "a"); ((2, 0), lit "b"); ((0, 1), lit "c")] =
  [27] ++ lit "[1;2Hab" ++ [27] ++ lit "[2;1Hc".
Proof. reflexivity. Qed.

(** ** C37 *)
Theorem C37_resize : forall s w h fill, let s' := resize s (w, h) fill true in
  sc_w s' = w /\ sc_h s' = h /\ shaped s' /\
  (forall q, on_screen w h q -> on_screen (sc_w s) (sc_h s) q -> shaped s -> exists c, cell_at s q = Some c /\ cell_at s' q = Some c) /\
  (forall q, on_screen w h q -> cell_at s q = None -> cell_at s' q = Some (fill, None, None)) /\
  (forall q, ~ on_screen w h q -> cell_at s' q = None).
Proof. exact resize_keeps. Qed.
Print Assumptions C37_resize.
Example C37_ex : sc_cells (resize (fst (fst (write e0 [] s32 [sp_ "abcdef" None None] (Some (0, 0)) BLACK false))) (2, 3) (lit ".") true)
  = map (map (fun c => match c with 46 => (lit ".", None, None) | _ => ([c], Some WHITE, None) end)) [[97; 98]; [100; 101]; [46; 46]].
Proof. reflexivity. Qed.

(** ** C39 *)
Theorem C39_clear : forall s fill, let s' := clear s fill in
  sc_w s' = sc_w s /\ sc_h s' = sc_h s /\ shaped s' /\ sc_cursor s' = (0, 0) /\
  (forall q, on_screen (sc_w s) (sc_h s) q -> cell_at s' q = Some (fill, None, None) /\ pending s' q = Some fill) /\
  (forall q, ~ on_screen (sc_w s) (sc_h s) q -> pending s' q = pending s q).
Proof. exact clear_all. Qed.
Print Assumptions C39_clear.
Example C39_ex : let s := clear (fst (fst (write_bulk e0 [] s32 abc BLACK false))) (lit ".") in
  sc_cells s = [[(lit ".", None, None); (lit ".", None, None); (lit ".", None, None)]; [(lit ".", None, None); (lit ".", None, None); (lit ".", None, None)]] /\
  map snd (sc_buf s) = [lit "."; lit "."; lit "."; lit "."; lit "."; lit "."].
Proof. split; reflexivity. Qed.

(** ** C41 *)
(** False for every screen and text: without a cursor write raises TypeError. *)
Theorem C41_cursor_refuted : forall e c s spans tb force, write e c s spans None tb force = (s, c, Err TypeError).
Proof. reflexivity. Qed.
Print Assumptions C41_cursor_refuted.
(** and no write moves the screen's cursor *)
Theorem C41_cursor_stays : forall e w h cursor fill ops data tb force,
  let '(s, c) := run e (new_screen w h cursor fill, []) ops in
  sc_cursor (fst (fst (write_bulk e c s data tb force))) = sc_cursor s.
Proof. exact history_cursor_stays. Qed.
Print Assumptions C41_cursor_stays.
Example C41_ex : snd (write e0 [] s32 [sp_ "a" None None] None BLACK false) = Err TypeError /\
  snd (write e0 [] s32 [sp_ "a" None None] (Some (sc_cursor s32)) BLACK false) = Ok 1.
Proof. split; [reflexivity|vm_compute; reflexivity]. Qed.

(** ** C42 *)
(** False for every write: the flag makes no difference, and an unchanged cell is not counted. *)
Theorem C42_force_refuted : forall e c s data tb, write_bulk e c s data tb true = write_bulk e c s data tb false.
Proof. reflexivity. Qed.
Print Assumptions C42_force_refuted.
Theorem C42_repeat_refuted : forall e c s data tb, cache_ok e c -> shaped s -> calm_write s data -> fine tb -> fine_data data ->
  exists s' c' n c'', write_bulk e c s data tb true = (s', c', Ok n) /\ write_bulk e c' s' data tb true = (s', c'', Ok 0).
Proof.
  exact (fun e c s data tb H1 H2 H3 H4 H5 =>
    let '(ex_intro _ s' (ex_intro _ c' (ex_intro _ n (ex_intro _ c'' (conj A B))))) := write_twice e c s data tb true H1 H2 H3 H4 H5 in
    ex_intro _ s' (ex_intro _ c' (ex_intro _ n (ex_intro _ c'' (conj A (B true)))))).
Qed.
Print Assumptions C42_repeat_refuted.
Example C42_ex : snd (write_bulk e0 [] s32 abc BLACK true) = Ok 4 /\ cache_ok e0 [] /\ calm_write s32 abc.
Proof. split; [vm_compute; reflexivity|]. split; apply abc_ok. Qed.
