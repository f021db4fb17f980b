(** C111: writing while another thread resizes or clears the screen (screen.py). *)
From Coq Require Import ZArith List Bool String Lia.
From Verif Require Import PyBase F64 SpaceModel ColorModel ColorSpec AnsiRe SpanModel SpanSpec ScreenModel ScreenSpec RaceModel RaceSpec
  ResizeRaceModel ResizeRaceSpec ResizeRaceProofs ResizeRaceProofs2 PropScreen.
Import ListNotations.
Open Scope string_scope.
Open Scope list_scope.
Open Scope Z_scope.

(** ** C111 *)
(** The steps, one thread at a time, are a resize ... *)
Theorem C111_resize : forall e s w h fill keep sent, exists tr, Forall by_resizer tr /\
  scene_run e tr (quiet s sent) = Some (quiet (resize s (w, h) fill keep) sent).
Proof. exact resize_alone. Qed.
Print Assumptions C111_resize.
(** ... and a write. *)
Theorem C111_write : forall e c s x y sp tb force sent, cache_ok e c -> shaped s -> sc_off s = 0 -> y < sc_h s ->
  match write_bulk e c s [((x, y), [sp])] tb force with
  | (s', _, Ok _) => exists tr, Forall by_writer tr /\ scene_run e tr (quiet s sent) = Some (quiet s' sent)
  | _ => True
  end.
Proof. exact write_alone2. Qed.
Print Assumptions C111_write.

(** However the steps follow each other: a write never fails with IndexError because of a clear, or of any resize
    that keeps the size, and the matrix keeps its shape. *)
Theorem C111_same_size : forall e s sent tr k, shaped s -> Forall (same_size (sc_w s) (sc_h s)) tr -> scene_run e tr (quiet s sent) = Some k ->
  z_writer k <> Failed /\ (z_resizer k = Still -> shaped (z_screen k)).
Proof. exact never_fails. Qed.
Print Assumptions C111_same_size.
(** But a write of a cell the new size does not have fails if the resize comes after the layout, for any sizes ... *)
Theorem C111_shrink_refuted : forall e s q sp tb ch w h fill keep sent, shaped s -> sc_off s = 0 -> on_screen (sc_w s) (sc_h s) q -> ~ on_screen w h q ->
  get_characters e sp true true = [ch] -> ch <> [NL] -> fine tb -> fine_span sp ->
  exists a b k, Forall by_writer a /\ Forall by_resizer b /\ scene_run e b (quiet s sent) = Some (quiet (resize s (w, h) fill keep) sent) /\
  scene_run e (a ++ b ++ [Save q]) (quiet s sent) = Some k /\ z_writer k = Failed.
Proof. exact shrinking. Qed.
Print Assumptions C111_shrink_refuted.
(** ... and so does a write beside the screen, harmless alone, if the screen is made wider before the layout. *)
Theorem C111_grow_refuted : forall e s q sp tb ch rest w fill keep sent, shaped s -> sc_off s = 0 -> sc_w s <= fst q < w -> 0 <= fst q -> 0 <= snd q < sc_h s ->
  get_characters e sp true true = ch :: rest -> ch <> [NL] ->
  exists b k, Forall by_resizer b /\ scene_run e b (quiet s sent) = Some (quiet (resize s (w, sc_h s) fill keep) sent) /\
  scene_run e ([Call q sp tb] ++ b ++ [Lay]) (quiet s sent) = Some k /\ z_writer k = Failed.
Proof. exact growing_fails. Qed.
Print Assumptions C111_grow_refuted.

(** Clears among writes and draws: where no clear fills a cell while a write is storing it, and no write stores it
    between the moment a clear fills it and the moment the clear ends, what is to be drawn is what the screen
    holds. *)
Theorem C111_synced_partial : forall e s sent tr s' sent' q, shaped s -> Forall (clears (sc_w s) (sc_h s)) tr ->
  scene_run e tr (quiet s sent) = Some (quiet s' sent') -> on_screen (sc_w s) (sc_h s) q -> synced e q s -> untorn q false false tr = true -> synced e q s'.
Proof. exact stays_synced. Qed.
Print Assumptions C111_synced_partial.
(** A cell stored in between: the clear removes it from the screen, but not from the terminal, where it stays, whatever
    is drawn, until that cell is written or the screen is cleared again. *)
Theorem C111_ghost_refuted : forall e s tr k tb q t todo c a b k', shaped s -> keyed s -> Forall (clears (sc_w s) (sc_h s)) tr ->
  scene_run e tr (quiet s []) = Some k -> on_screen (sc_w s) (sc_h s) q ->
  filled_with q (z_resizer k) c -> z_writer k = Noting tb q t todo ->
  Forall (not_at q) (a ++ b) -> ~ In Swap a -> scene_run e (Enter q :: a ++ Swap :: b) k = Some k' ->
  cell_at (z_screen k') q = Some c /\ newest_for q k' = Some t.
Proof. exact ghost_stays. Qed.
Print Assumptions C111_ghost_refuted.

(** * Examples *)
Definition small : screen := snd (render (new_screen 2 1 (0, 0) [32]) (1, 1) false).
Definition dot : span := sp_ "o" None None.
Lemma small_ok : shaped small /\ keyed small /\ sc_off small = 0 /\ synced e0 (0, 0) small /\ synced e0 (1, 0) small.
Proof.
  assert (X : forall q, synced e0 q small) by (intros q c t _ H; discriminate H).
  split; [|split; [|split; [reflexivity|split; apply X]]]; repeat split; try (cbn; lia); repeat constructor.
Qed.
(** the clear ends after the write of the second cell and before that of the first *)
Definition good : list step2 :=
  [Call (0, 0) dot BLACK; Ask 2 1 [46] false; Lay; Lay; Save (0, 0); Enter (0, 0); Fill (0, 0); Return; Fill (1, 0); Filled; Paint; Width; Height; Swap;
   Call (1, 0) dot BLACK; Lay; Lay; Save (1, 0); Enter (1, 0); Return].
Example C111_ex : Forall (clears 2 1) good /\ untorn (0, 0) false false good = true /\ untorn (1, 0) false false good = true /\
  match scene_run e0 good (quiet small []) with
  | Some k => z_writer k = Idle /\ z_resizer k = Still /\ map (map (fun c => fst (fst c))) (sc_cells (z_screen k)) = [[[46]; [111]]] /\
      map (map fst) (z_sent k) = [[(0, 0); (1, 0)]] /\ map fst (sc_buf (z_screen k)) = [(1, 0)]
  | None => False
  end.
Proof.
  split. { unfold good. repeat (apply Forall_cons; [cbn; auto|]). apply Forall_nil. }
  split; [reflexivity|]. split; [reflexivity|]. vm_compute. repeat split.
Qed.
(** the write stores the cell while it is filled: the "o" is drawn though the screen was cleared *)
Definition torn_start : list step2 := [Call (0, 0) dot BLACK; Lay; Lay; Ask 2 1 [46] false; Fill (0, 0); Save (0, 0)].
Definition torn_end : list step2 := [Enter (0, 0); Fill (1, 0); Filled; Width; Height; Return] ++ Swap :: [Paint; Paint].
Definition noting_text (wr : writer) : str := match wr with Noting _ _ t _ => t | _ => [] end.
Example C111_ghost_ex : Forall (clears 2 1) torn_start /\ untorn (0, 0) false false torn_start = false /\
  Forall (not_at (0, 0)) ([Fill (1, 0); Filled; Width; Height; Return] ++ [Paint; Paint]) /\
  match scene_run e0 torn_start (quiet small []) with
  | Some k => filled_with (0, 0) (z_resizer k) ([46], None, None) /\ noting_text (z_writer k) = csi_m (lit "38;2;255;255;255") ++ lit "o" ++ RESET /\
      match scene_run e0 torn_end k with
      | Some k' => map (map (fun c => fst (fst c))) (sc_cells (z_screen k')) = [[[46]; [46]]] /\ newest_for (0, 0) k' = Some (noting_text (z_writer k))
      | None => False
      end
  | None => False
  end.
Proof.
  split. { unfold torn_start. repeat (apply Forall_cons; [cbn; auto|]). apply Forall_nil. }
  split; [reflexivity|].
  split. { repeat (apply Forall_cons; [cbn; try discriminate; auto|]). apply Forall_nil. }
  vm_compute. repeat split; try (intros H; discriminate H). intros [H|[]]. discriminate H.
Qed.
Example C111_fail_ex : on_screen 2 1 (1, 0) /\ ~ on_screen 1 1 (1, 0) /\ get_characters e0 dot true true = [lit "o"] /\
  (exists new nl, finish_cell BLACK (lit "o", s_fg dot, s_bg dot, false) [] = Ok (new, nl)) /\ sc_w small <= fst (2, 0) < 3.
Proof.
  split; [unfold on_screen; cbn; lia|]. split; [unfold on_screen; cbn; lia|]. split; [reflexivity|]. split; [|cbn; lia].
  eexists _, _. reflexivity.
Qed.
