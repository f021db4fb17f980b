(** C101-C103: input that arrives at any time (core.py, terminal.py). *)
From Coq Require Import ZArith List Bool String Lia.
From Verif Require Import PyBase F64 ColorModel CoreModel KeySpec TermModel TimeoutModel TimeoutSpec TtyModel TtySpec TtyProofs StartProofs QueryProofs.
Import ListNotations.
Open Scope Z_scope.
Open Scope list_scope.

(** ** C101 *)
(** Whenever bytes arrive, and however the calls of getch run: each call that returns gives what
    getch makes of exactly the bytes that arrived during it. *)
Theorem C101_exact : forall tr s, tty_run tr quiet_tty = Some s ->
  Forall2 (fun w t => forall M (cb : M -> M) mode raw,
             getch cb mode true raw None sio_empty false w = (sio_empty, mode, Returned (decode_key raw t)))
    (during None tr) (y_keys s).
Proof. exact tty_getch. Qed.
Print Assumptions C101_exact.

(** What is typed while the program is doing something else never has any effect. *)
Theorem C101_busy_refuted : forall tr s, tty_run tr quiet_tty = Some s ->
  exists s', tty_run (without_idle_typing false tr) quiet_tty = Some s' /\ y_keys s' = y_keys s.
Proof. exact idle_typing. Qed.
Print Assumptions C101_busy_refuted.

(** If all typing happens during calls, everything typed is returned, in order. *)
Theorem C101_none_lost_partial : forall tr s cs, tty_run tr quiet_tty = Some s -> y_place s = Outside ->
  without_idle_typing false tr = tr -> Forall scalar cs -> typed_bytes tr = flat_map utf8 cs ->
  List.concat (y_keys s) = cs.
Proof. exact none_lost. Qed.
Print Assumptions C101_none_lost_partial.

(** "a" is read; "b" is typed before the next call, "c" during it: "b" is gone. *)
Definition three_keys (between : list event) : list event :=
  [Does Enter; Arrive (lit "a"); Does Take; Does Finish] ++ between ++ [Does Enter; Arrive (lit "c"); Does Take; Does Finish].
Theorem C101_lost_refuted : exists tr s, tty_run tr quiet_tty = Some s /\ y_place s = Outside /\
  typed_bytes tr = lit "abc" /\ y_keys s = [lit "a"; lit "c"].
Proof. exists (three_keys [Arrive (lit "b")]). eexists. repeat split. Qed.
Print Assumptions C101_lost_refuted.
Example C101_ex : exists s, tty_run (three_keys []) quiet_tty = Some s /\ y_place s = Outside /\
  without_idle_typing false (three_keys []) = three_keys [] /\ typed_bytes (three_keys []) = flat_map utf8 (lit "ac") /\
  Forall scalar (lit "ac") /\ during None (three_keys []) = [lit "a"; lit "c"].
Proof. eexists. split; [reflexivity|]. repeat split. repeat constructor; unfold scalar; cbn; lia. Qed.

(** ** C102 *)
(** Whatever the order of events, if nobody types and answers come as a whole: when Terminal() has
    its colors, they are those of the terminal, and no input is left over. *)
Theorem C102_colors_partial : forall br bg bb fr fg fb tr s, channel16 br -> channel16 bg -> channel16 bb ->
  channel16 fr -> channel16 fg -> channel16 fb -> calm tr ->
  start_run (answers (br, bg, bb) (fr, fg, fb)) tr starting = Some s -> su_todo s = [] ->
  su_queue s = [] /\ su_wire s = [] /\
  exists cb cf, start_colors (su_heard s) = Some (Ok cb, Ok cf) /\
    c_rgb cb = (high_byte br, high_byte bg, high_byte bb) /\ c_rgb cf = (high_byte fr, high_byte fg, high_byte fb).
Proof. exact calm_colors. Qed.
Print Assumptions C102_colors_partial.

(** If moreover each thread is reading before its query is written, it always gets there, within 110
    steps. *)
Theorem C102_ends_partial : forall br bg bb fr fg fb tr s, channel16 br -> channel16 bg -> channel16 bb ->
  channel16 fr -> channel16 fg -> channel16 fb -> calm tr -> in_order false tr ->
  start_run (answers (br, bg, bb) (fr, fg, fb)) tr starting = Some s ->
  (List.length tr <= 110)%nat /\
  exists tr' s', calm tr' /\ in_order false (tr ++ tr') /\
    start_run (answers (br, bg, bb) (fr, fg, fb)) tr' s = Some s' /\ su_todo s' = [].
Proof. exact calm_ends. Qed.
Print Assumptions C102_ends_partial.

(** Whatever happens, also if keys are pressed: Terminal() asks both questions, each after starting a
    thread and before waiting for it, the background first; and the answers that are on their way are
    those to the questions asked, in that order. *)
Theorem C102_asks : forall rep tr s, start_run rep tr starting = Some s -> su_todo s = [] ->
  filter by_main tr = [StartThread; Ask; Join; StartThread; Ask; Join].
Proof. exact asks_both. Qed.
Print Assumptions C102_asks.
Theorem C102_in_order : forall rep tr s, whole_answers tr -> start_run rep tr starting = Some s ->
  su_wire s = skipn (answered_in tr) (flat_map (fun fg => match rep fg with Some t => [t] | None => [] end) (firstn (asked_in tr) [false; true])).
Proof. exact answers_in_order. Qed.
Print Assumptions C102_in_order.

(** The order is not guaranteed: an answer that comes before the thread is reading is discarded, and
    without a key press Terminal() never returns, whatever the terminal answers. *)
Theorem C102_race_refuted : forall rep t, rep false = Some t ->
  exists tr s, calm tr /\ start_run rep tr starting = Some s /\
    forall tr' s', untyped tr' -> start_run rep tr' s = Some s' -> su_todo s' <> [].
Proof. exact race. Qed.
Print Assumptions C102_race_refuted.

(** With a terminal that does not answer (or does not get the question: standard output redirected),
    Terminal() never returns without a key press. *)
Theorem C102_silent_refuted : forall rep tr s, rep false = None -> untyped tr ->
  start_run rep tr starting = Some s -> su_todo s <> [].
Proof. exact silent_waits. Qed.
Print Assumptions C102_silent_refuted.

(** A key pressed meanwhile: the background is a default, and what the terminal said of its
    background is taken for the foreground. *)
Definition key_pressed : list move :=
  [StartThread; Reader Enter; Type_ (lit "x"); Reader Take; Reader Finish; Ask; Join; StartThread; Reader Enter; Answer] ++
  List.concat (repeat [Reader Take; Reader More] 24) ++ [Reader Take; Reader Finish; Ask; Join].
Theorem C102_key_refuted : exists s, start_run (answers (lit "1111", lit "2222", lit "3333") (lit "dddd", lit "eeee", lit "ffff")) key_pressed starting = Some s /\
  su_todo s = [] /\
  (match start_colors (su_heard s) with Some (Ok b, Ok f) => Some (c_rgb b, c_rgb f) | _ => None end) =
    Some ((20, 20, 20), (17, 34, 51)).
Proof. eexists. split; [vm_compute; reflexivity|]. split; [reflexivity|]. vm_compute. reflexivity. Qed.
Print Assumptions C102_key_refuted.

(** An answer that comes in two pieces is not understood. *)
Definition two_pieces : list move :=
  [StartThread; Reader Enter; Ask; Piece 1; Reader Take; Reader Finish; Join; Answer; StartThread; Reader Enter; Ask; Answer] ++
  List.concat (repeat [Reader Take; Reader More] 24) ++ [Reader Take; Reader Finish; Join].
Theorem C102_pieces_refuted : exists s, start_run (answers (lit "1111", lit "2222", lit "3333") (lit "dddd", lit "eeee", lit "ffff")) two_pieces starting = Some s /\
  su_todo s = [] /\
  (match start_colors (su_heard s) with Some (Ok b, Ok f) => Some (c_rgb b, c_rgb f) | _ => None end) =
    Some ((20, 20, 20), (221, 238, 255)).
Proof. eexists. split; [vm_compute; reflexivity|]. split; [reflexivity|]. vm_compute. reflexivity. Qed.
Print Assumptions C102_pieces_refuted.

Definition good_start : list move :=
  let read := List.concat (repeat [Reader Take; Reader More] 24) ++ [Reader Take; Reader Finish; Join] in
  [StartThread; Reader Enter; Ask; Answer] ++ read ++ [StartThread; Reader Enter; Ask; Answer] ++ read.
Example C102_ex : channel16 (lit "1111") /\ calm good_start /\ in_order false good_start /\
  exists s, start_run (answers (lit "1111", lit "2222", lit "3333") (lit "dddd", lit "eeee", lit "ffff")) good_start starting = Some s /\
  su_todo s = [] /\ List.length good_start = 110%nat.
Proof.
  split; [exists 49, 49, 49, 49; split; [reflexivity|]; unfold lower_hex; lia|].
  split; [repeat constructor|]. split; [vm_compute; tauto|]. eexists. split; [vm_compute; reflexivity|]. split; reflexivity.
Qed.

(** ** C103 *)
(** Questions asked with getch_timeout: an answer that has arrived when the reading begins is
    discarded, and the question counts as unanswered. *)
Theorem C103_early_refuted : forall M (cb : M -> M) d (w : world M), positive d -> w_feeder w = sio_empty ->
  getch_timeout cb true false d (Some (Reading 0)) false [] w =
    (mkWorld sio_empty (w_mode w) [] RaiseTimeout None, Returned (Ok Default)) /\
  supports_synchronized_update true None = Ok false /\ forall fb, resolution true true fb None = Ok fb.
Proof. exact early_answer. Qed.
Print Assumptions C103_early_refuted.

(** One that arrives later is heard. *)
Theorem C103_late_partial : forall M (cb : M -> M) d (w : world M) n, positive d -> w_feeder w = sio_empty -> (n = 49 \/ n = 50) ->
  let answer := [27; 91] ++ lit "?2026;" ++ [n] ++ lit "$y" in
  snd (getch_timeout cb true false d None false answer w) = Returned (Ok (Typed [answer])) /\
  supports_synchronized_update true (Some answer) = Ok true.
Proof. exact late_answer. Qed.
Print Assumptions C103_late_partial.
Example C103_ex : positive (flit 1 20) /\ w_feeder (mkWorld sio_empty true ([27; 91] ++ lit "?2026;1$y") (OtherHandler 1) None) = sio_empty.
Proof. split; [split; reflexivity|reflexivity]. Qed.
