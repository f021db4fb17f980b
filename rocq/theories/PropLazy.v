(** C106: writing from generators (screen.py, terminal.py). *)
From Coq Require Import ZArith List Bool String Lia.
From Verif Require Import PyBase F64 SpaceModel ColorModel ColorSpec AnsiRe SpanModel SpanSpec ScreenModel ScreenSpec LazyModel LazySpec LazyProofs PropScreen PropDraw.
Import ListNotations.
Open Scope Z_scope.
Open Scope list_scope.

(** ** C106 *)
(** Generators that only give spans write what the lists of those spans write. *)
Theorem C106_eager : forall e c s data tb force, write_lazy e c s (plain data) tb = write_bulk e c s data tb force.
Proof. exact eager. Qed.
Print Assumptions C106_eager.

(** A generator that raises stops the write: the exception is passed on and the screen, with its
    pending changes, is as it was, whatever the entries before gave, as long as none of them scrolled ... *)
Theorem C106_raises_partial : forall e c s before x y g ex rest tb, cache_ok e c -> calm_write s before ->
  g_run g = (fun k => k) -> g_out g = Err ex ->
  exists c', write_lazy e c s (plain before ++ ((x, y), g) :: rest) tb = (s, c', Err ex) /\ cache_ok e c'.
Proof. exact stopped. Qed.
Print Assumptions C106_raises_partial.

(** A generator that finds a smaller window: the write is the write to the resized screen ... *)
Theorem C106_shrinks_partial : forall e c s w h x y line rest tb force, 0 <= w <= sc_w s -> 0 <= h <= sc_h s ->
  write_lazy e c s (((x, y), gives_resized (w, h) line) :: plain rest) tb =
  write_bulk e c (resize s (w, h) [32] true) (((x, y), line) :: rest) tb force.
Proof. exact shrunk. Qed.
Print Assumptions C106_shrinks_partial.

(** ... but a generator that finds a larger window, and whose text reaches a cell the window did not have
    before, makes the write fail, and nothing of the text is written. *)
Theorem C106_grows_refuted : forall e c s size x y sp tb q a, cache_ok e c -> sc_off s = 0 -> ~ In NL (s_text sp) ->
  In (q, a) (laid e (fst size) (snd size) ((x, y), [sp])) -> ~ on_screen (sc_w s) (sc_h s) q ->
  exists c', write_lazy e c s [((x, y), gives_resized size [sp])] tb = (resize s size [32] true, c', Err IndexError) /\ cache_ok e c'.
Proof. exact grown. Qed.
Print Assumptions C106_grows_refuted.

(** the texts of the cells of the screen after a write, and its outcome *)
Definition after_write (k : screen * ccache * res Z) : list (list str) * res Z :=
  (map (map (fun c => fst (fst c))) (sc_cells (fst (fst k))), snd k).

(** ... when an entry before scrolled, its line is gone from the screen and the one that was to be
    written is not there *)
Theorem C106_scrolled_refuted : exists e c s before x y ex tb, cache_ok e c /\ shaped s /\
  after_write (write_lazy e c s (plain before ++ [((x, y), raises ex)]) tb) = ([[[98]]; [[]]], Err ex) /\
  map (map (fun c => fst (fst c))) (sc_cells s) = [[[97]]; [[98]]].
Proof.
  exists e0, [], (mkScreen 1 2 [[([97], None, None)]; [([98], None, None)]] [] (0, 0) 0),
    [((0, 2), [sp_ "c" None None])], 0, 0, ValueError, BLACK.
  split; [constructor|]. split; [split; [reflexivity|repeat constructor]|]. split; vm_compute; reflexivity.
Qed.
Print Assumptions C106_scrolled_refuted.

(** ... and when an entry before wrote beyond the smaller window, the write fails half-way: cells before
    that one have been changed *)
Theorem C106_shrinks_late_refuted : exists e c s before x y line size tb, cache_ok e c /\ shaped s /\
  fst size <= sc_w s /\ snd size = sc_h s /\
  after_write (write_lazy e c s (plain before ++ [((x, y), gives_resized size line)]) tb) = ([[[97]; [98]]; [[32]; [32]]], Err IndexError) /\
  after_write (write_bulk e c (resize s size [32] true) (before ++ [((x, y), line)]) tb false) = ([[[97]; [98]]; [[99]; [100]]], Ok 4).
Proof.
  exists e0, [], (new_screen 3 2 (0, 0) [32]), [((0, 0), [sp_ "abc" None None])], 1, 1, [sp_ "d" None None], (2, 2), BLACK.
  split; [constructor|]. split; [vm_compute; split; [reflexivity|repeat constructor]|].
  split; [vm_compute; discriminate|]. split; [reflexivity|]. split; vm_compute; reflexivity.
Qed.
Print Assumptions C106_shrinks_late_refuted.

Example C106_ex :
  (* a generator that raises after an entry that wrote *)
  after_write (write_lazy e0 [] (new_screen 2 1 (0, 0) [32]) (plain [((0, 0), [sp_ "ab" None None])] ++ [((0, 0), raises TypeError)]) BLACK)
    = ([[[32]; [32]]], Err TypeError) /\
  calm_write (new_screen 2 1 (0, 0) [32]) [((0, 0), [sp_ "ab" None None])] /\
  (* the window became narrower *)
  after_write (write_lazy e0 [] (new_screen 3 2 (0, 0) [32]) [((1, 0), gives_resized (2, 2) [sp_ "ab" None None])] BLACK)
    = ([[[32]; [97]]; [[98]; [32]]], Ok 2) /\
  (* the window became wider *)
  In ((2, 0), ([98], sp_ "ab" None None)) (laid e0 3 1 ((1, 0), [sp_ "ab" None None])) /\
  after_write (write_lazy e0 [] (new_screen 2 1 (0, 0) [32]) [((1, 0), gives_resized (3, 1) [sp_ "ab" None None])] BLACK)
    = ([[[32]; [32]; [32]]], Err IndexError).
Proof.
  split; [vm_compute; reflexivity|]. split; [split; [reflexivity|]; constructor; [|constructor]; split; [vm_compute; reflexivity|split; [|exact I]];
    constructor; [|constructor]; cbn; intros [H|[H|[]]]; discriminate|].
  split; [vm_compute; reflexivity|]. split; [vm_compute; auto|]. vm_compute; reflexivity.
Qed.
