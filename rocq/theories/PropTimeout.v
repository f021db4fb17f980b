(** C73-C77: getch_timeout and getch on Windows (core.py). *)
From Coq Require Import ZArith List Bool String Lia.
From Flocq Require Import IEEE754.BinarySingleNaN.
From Verif Require Import PyBase F64 KeyTab CoreModel TimeoutModel TimeoutSpec TimeoutProofs.
Import ListNotations.
Open Scope Z_scope.
Open Scope list_scope.

(** ** C73 *)
(** As long as the alarm does not go off, the call is a call of getch. *)
Theorem C73_in_time : forall M (cb : M -> M) tty raw d eof inp w, positive d ->
  getch_timeout cb tty raw d None eof inp w =
    (let '(s, mode, o) := getch cb (w_mode w) tty raw None (w_feeder w) eof inp in
     (after w s mode (if tty then match sio_text (w_feeder w) with [] => [] | _ => w_input w end else w_input w), typed o)).
Proof. exact timeout_in_time. Qed.
Print Assumptions C73_in_time.

(** No input in time: the default is returned, and nothing is changed, except that input from before
    the call is gone. *)
Theorem C73_silent : forall M (cb : M -> M) raw d eof w, positive d -> w_feeder w = sio_empty ->
  getch_timeout cb true raw d (Some (Reading 0)) eof [] w =
    (mkWorld (w_feeder w) (w_mode w) [] RaiseTimeout None, Returned (Ok Default)).
Proof. exact timeout_silent. Qed.
Print Assumptions C73_silent.

(** Whenever the alarm goes off, the result is that of getch or the default, except that an alarm
    before the body gives RuntimeError and one after it escapes as TimeoutException. *)
Theorem C73_results : forall M (cb : M -> M) tty raw d a eof inp w w' r, positive d ->
  getch_timeout cb tty raw d a eof inp w = (w', Returned r) ->
  r = Ok Default \/ (r = Err RuntimeError /\ a = Some Entering) \/ (r = Err TimeoutException /\ a = Some Leaving) \/
  Returned r = typed (snd (getch cb (w_mode w) tty raw None (w_feeder w) eof inp)).
Proof. exact timeout_results. Qed.
Print Assumptions C73_results.

Theorem C73_escapes : forall M (cb : M -> M) tty raw d eof inp w r, positive d ->
  snd (getch cb (w_mode w) tty raw None (w_feeder w) eof inp) = Returned r ->
  snd (getch_timeout cb tty raw d (Some Leaving) eof inp w) = Returned (Err TimeoutException).
Proof. exact timeout_escapes. Qed.
Print Assumptions C73_escapes.

(** [t] was typed before the call *)
Definition idle (t : str) : world bool := mkWorld sio_empty false t (OtherHandler 1) (Some 60).
Example C73_ex : positive (flit 1 10) /\
  snd (getch_timeout (fun _ => true) true false (flit 1 10) None false (lit "a") (idle (lit "b"))) = Returned (Ok (Typed [lit "a"])).
Proof. split; [split; reflexivity|]. vm_compute. reflexivity. Qed.

(** ** C74 *)
(** The terminal is back in its mode whenever the call returns, unless the alarm went off between
    setcbreak and the try, or inside the finally. *)
Theorem C74_mode : forall M (cb : M -> M) tty raw d a eof inp w w' r,
  getch_timeout cb tty raw d a eof inp w = (w', Returned r) -> a <> Some Unprotected -> a <> Some Restoring ->
  w_mode w' = w_mode w.
Proof. exact timeout_mode. Qed.
Print Assumptions C74_mode.

Theorem C74_mode_lost : forall M (cb : M -> M) raw d eof inp w, positive d -> w_feeder w = sio_empty ->
  exists w', getch_timeout cb true raw d (Some Unprotected) eof inp w = (w', Returned (Ok Default)) /\ w_mode w' = cb (w_mode w).
Proof. exact timeout_mode_lost. Qed.
Print Assumptions C74_mode_lost.

(** An alarm while reading loses exactly the bytes read so far; one between taking and returning fed
    text loses that. *)
Theorem C74_bytes_lost : forall M (cb : M -> M) raw d n eof inp w, positive d -> w_feeder w = sio_empty ->
  getch_timeout cb true raw d (Some (Reading n)) eof inp w =
    (mkWorld (w_feeder w) (w_mode w) (skipn n inp) RaiseTimeout None, Returned (Ok Default)).
Proof. exact timeout_loses. Qed.
Print Assumptions C74_bytes_lost.

Theorem C74_feed_lost : forall M (cb : M -> M) raw d t eof inp w, positive d -> t <> [] -> w_feeder w = feed t sio_empty ->
  exists w', getch_timeout cb true raw d (Some FedTaken) eof inp w = (w', Returned (Ok Default)) /\ sio_text (w_feeder w') = [].
Proof. exact timeout_loses_feed. Qed.
Print Assumptions C74_feed_lost.

Example C74_ex : getch_timeout (fun _ => true) true false (flit 1 10) (Some (Reading 1)) false [195; 169] (idle []) =
  (mkWorld sio_empty false [169] RaiseTimeout None, Returned (Ok Default)).
Proof. vm_compute. reflexivity. Qed.

(** ** C75 *)
(** False in every case: a timeout of 0 is no timeout; without input during the call it never returns. *)
Theorem C75_zero_refuted : forall M (cb : M -> M) raw d a w, feqb d fzero = true -> w_feeder w = sio_empty ->
  snd (getch_timeout cb true raw d a false [] w) = Waits.
Proof. exact timeout_zero_waits. Qed.
Print Assumptions C75_zero_refuted.

Theorem C75_zero_partial : forall M (cb : M -> M) tty raw d a eof inp w, feqb d fzero = true ->
  snd (getch_timeout cb tty raw d a eof inp w) = typed (snd (getch cb (w_mode w) tty raw None (w_feeder w) eof inp)).
Proof. exact timeout_zero. Qed.
Print Assumptions C75_zero_partial.

Example C75_ex : feqb fzero fzero = true /\ w_feeder (idle (lit "b")) = sio_empty.
Proof. repeat split. Qed.

(** ** C76 *)
(** False in every case: whatever the program did with SIGALRM is gone. *)
Theorem C76_signals_refuted : forall M (cb : M -> M) tty raw d a eof inp w,
  let w' := fst (getch_timeout cb tty raw d a eof inp w) in w_handler w' = RaiseTimeout /\ w_timer w' = None.
Proof. exact timeout_signals. Qed.
Print Assumptions C76_signals_refuted.

Example C76_ex : w_handler (idle []) <> RaiseTimeout /\ w_timer (idle []) <> None.
Proof. split; discriminate. Qed.

(** ** C77 *)
(** Windows: ASCII bytes, of which only the first may be the prefix 0xE0, are read as text (the
    prefix as ESC) and named by the table; any other byte raises. *)
Theorem C77_reads : forall raw bytes, Forall byte bytes ->
  (forall t, keyed_text bytes = Some t -> getch_windows true raw bytes = Ok (decode_key_nt raw t)) /\
  (keyed_text bytes = None -> getch_windows true raw bytes = Err UnicodeDecodeError).
Proof. exact windows_reads. Qed.
Print Assumptions C77_reads.

Theorem C77_arrows : Forall (fun k => getch_windows true false [224; fst k] = Ok [snd k]) arrow_keys /\
  Forall (fun k => getch_windows true false [0; fst k] = Ok [snd k]) function_keys.
Proof. split; repeat constructor. Qed.
Print Assumptions C77_arrows.

(** F11 and F12 have names in the table that no input has: they raise, as do two arrow keys that
    arrive together. *)
Theorem C77_raises : Forall (fun k => getch_windows true false k = Err UnicodeDecodeError)
    [[224; 133]; [224; 134]; [224; 72; 224; 72]] /\
  forall raw t bytes, Forall byte bytes -> getch_windows true raw bytes = Ok [t] ->
    In t [[224; 133]; [224; 134]] -> False.
Proof. exact windows_f11. Qed.
Print Assumptions C77_raises.

Example C77_ex : keyed_text [224; 72] = Some [27; 72] /\ keyed_text (lit "ab") = Some (lit "ab") /\ keyed_text [195; 169] = None /\
  decode_key_nt false (lit "ab") = [lit "ab"] /\ Forall byte [224; 72].
Proof. repeat split. repeat constructor; unfold byte; cbn; discriminate. Qed.
