(** C114: what a draw costs (README.md:29, README.md:80; screen.py:136-348). *)
From Coq Require Import ZArith List Bool String Lia.
From Verif Require Import PyBase F64 SpaceModel ColorModel AnsiRe SpanModel ScreenModel ScreenSpec ScreenProofs2 ScreenProofs6 TermModel EconSpec EconProofs PropScreen PropTerm.
Import ListNotations.
Open Scope string_scope.
Open Scope list_scope.
Open Scope Z_scope.

(** ** C114 *)
(** Whatever is written, scrolling or not: a series of writes that succeed returns at most one change for each
    character given, and leaves at most one more cell waiting for each change returned. *)
Theorem C114_returned : forall e ops s c s' c' n, cache_len c -> returned e (s, c) ops = Some (s', c', n) ->
  0 <= n <= total (map given ops) /\ zlen (sc_buf s') <= zlen (sc_buf s) + n.
Proof. exact returned_cost. Qed.
Print Assumptions C114_returned.
Example C114_returned_ex : cache_len [] /\
  match returned e0 (s32, []) [OBulk abc BLACK false; OWrite [sp_ "ab" (Some red_) (Some on_blue)] (Some (1, 0)) BLACK false;
                               OWrite [sp_ "x" None None] (Some (1, 0)) BLACK false] with
  | Some (_, _, n) => n = 5 | None => False end /\
  total (map given [OBulk abc BLACK false; OWrite [sp_ "ab" (Some red_) (Some on_blue)] (Some (1, 0)) BLACK false;
                    OWrite [sp_ "x" None None] (Some (1, 0)) BLACK false]) = 7.
Proof. split; [constructor|]. vm_compute. auto. Qed.

(** README.md:80 on the terminal's own write, strings included: as many changes at most as there are characters in
    the argument. *)
Theorem C114_terminal : forall data cursor force v s s' n, cache_len (t_cache s) -> twrite data cursor force v s = (s', Ok n) ->
  0 <= n <= size_of data.
Proof. exact terminal_cost. Qed.
Print Assumptions C114_terminal.
Example C114_terminal_ex : size_of (PStr (lit "0")) = 1 /\ cache_len (t_cache term0) /\
  snd (twrite (PStr (lit "0")) (Some (2, 1)) false (world 3 2) term0) = Ok 1.
Proof. split; [reflexivity|]. split; [constructor|]. vm_compute. reflexivity. Qed.

(** A cell no write of the series changes keeps what was waiting for it: if nothing was, nothing is sent for it. *)
Theorem C114_untouched : forall e ops s c, cache_ok e c -> shaped s -> plain_run e (s, c) ops ->
  exists s' c' n, returned e (s, c) ops = Some (s', c', n) /\
    forall q, untouched e (s, c) ops q -> pending s' q = pending s q /\ cell_at s' q = cell_at s q.
Proof. exact only_changed. Qed.
Print Assumptions C114_untouched.
Example C114_untouched_ex : plain_run e0 (s32, []) [OBulk abc BLACK false] /\ untouched e0 (s32, []) [OBulk abc BLACK false] (0, 0).
Proof.
  pose proof abc_ok as [H1 [H2 [H3 [H4 [H5 H6]]]]]. split; [exact (conj (conj H3 (conj H4 H5)) I)|]. split; [|exact I]. vm_compute. reflexivity.
Qed.

(** The length of the text a draw sends: the texts waiting, plus a cursor movement for each run of neighbouring
    cells, of six characters to four plus two per digit of the coordinates, plus at most a final reset. *)
Theorem C114_sent : forall s ox oy d, keyed s -> 1 <= d ->
  (forall q t, pending s q = Some t -> 0 <= fst q + ox < 10 ^ d /\ 0 <= snd q + oy < 10 ^ d) ->
  let n := zlen (fst (render s (ox, oy) false)) in
  texts s + 6 * runs s <= n <= texts s + (4 + 2 * d) * runs s + 4.
Proof. exact render_size. Qed.
Print Assumptions C114_sent.
Definition row_ : screen := mkScreen 5 1 [[(lit "a", None, None); (lit "b", None, None); (lit "c", None, None); (lit "d", None, None); (lit "e", None, None)]]
  [((4, 0), lit "e"); ((1, 0), lit "b"); ((0, 0), lit "a")] (0, 0) 0.
Example C114_sent_ex : keyed row_ /\ (forall q t, pending row_ q = Some t -> 0 <= fst q + 8 < 10 ^ 2 /\ 0 <= snd q + 1 < 10 ^ 2) /\
  texts row_ = 3 /\ runs row_ = 2 /\ zlen (fst (render row_ (8, 1) false)) = 3 + 6 + 7 + 4.
Proof.
  split. { repeat constructor; cbn; intuition discriminate. }
  split. { intros q t H. apply ScreenProofs2.buf_get_in in H; [|repeat constructor; cbn; intuition discriminate]. cbn in H. change (10 ^ 2) with 100.
    destruct H as [H|[H|[H|[]]]]; injection H as <- <-; cbn; lia. }
  vm_compute. auto.
Qed.

(** From a screen whose changes were all drawn, on a terminal of at most d digits in either dimension, a draw after
    some writes sends in proportion to the changes they returned, whatever the size of the screen. *)
Theorem C114_frame : forall e ops s c s' c' n d L, shaped s -> cache_len c -> sc_buf s = [] -> returned e (s, c) ops = Some (s', c', n) ->
  1 <= d -> sc_w s < 10 ^ d -> sc_h s < 10 ^ d -> 0 <= L -> (forall q t, pending s' q = Some t -> zlen t <= L) ->
  zlen (fst (render s' (1, 1) false)) <= n * (L + 4 + 2 * d) + 4.
Proof. exact frame_size. Qed.
Print Assumptions C114_frame.
Definition idle_ : screen := snd (render s32 (1, 1) false).
Example C114_frame_ex : shaped idle_ /\ sc_buf idle_ = [] /\ sc_w idle_ < 10 ^ 1 /\ sc_h idle_ < 10 ^ 1 /\
  match returned e0 (idle_, []) [OBulk abc BLACK false] with
  | Some (s', _, n) => n = 4 /\ map (fun i => zlen (snd i)) (sc_buf s') = [33; 33; 24; 24] /\ zlen (fst (render s' (1, 1) false)) = 126
  | None => False
  end.
Proof.
  split. { unfold idle_. pose proof (new_screen_shape 3 2 (0, 0) (lit " ")) as [H _]. exact H. }
  split; [reflexivity|]. split; [reflexivity|]. split; [reflexivity|]. vm_compute. auto.
Qed.

(** Not only what differs from what the terminal shows: a cell changed and changed back counts twice and is sent
    again, although the last draw left the terminal showing it. *)
Definition shown_ : screen := snd (render (fst (step e0 (new_screen 1 1 (0, 0) (lit " "), []) (OWrite [sp_ "a" None None] (Some (0, 0)) BLACK false))) (1, 1) false).
Theorem C114_back_refuted : exists ops, match returned e0 (shown_, []) ops with
  | Some (s', _, n) => n = 2 /\ sc_buf shown_ = [] /\
      match cell_at s' (0, 0), cell_at shown_ (0, 0) with
      | Some (t, f, b), Some (t', f', b') => t = t' /\ option_map c_rgb f = option_map c_rgb f' /\ option_map c_rgb b = option_map c_rgb b'
      | _, _ => False
      end /\
      fst (render s' (1, 1) false) = [27] ++ lit "[1;1H" ++ [27] ++ lit "[38;2;255;255;255ma" ++ [27] ++ lit "[0m"
  | None => False
  end.
Proof.
  exists [OWrite [sp_ "b" None None] (Some (0, 0)) BLACK false; OWrite [sp_ "a" None None] (Some (0, 0)) BLACK false].
  vm_compute. auto 10.
Qed.
Print Assumptions C114_back_refuted.
