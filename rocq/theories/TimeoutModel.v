(** core.py: timeout and getch_timeout (POSIX signals), and the Windows branch of getch.
    Definitions only (no proofs). *)
From Coq Require Import ZArith List Bool String.
From Flocq Require Import IEEE754.BinarySingleNaN.
From Verif Require Import PyBase F64 KeyTab CoreModel.
Import ListNotations.
Open Scope Z_scope.
Open Scope list_scope.

(** Where SIGALRM may interrupt getch_timeout.  Its handler raises TimeoutException
    (core.py:362-363). *)
Inductive alarm :=
| Entering        (* after setitimer, before the body runs: core.py:368-369 *)
| BeforeInput     (* in getch, before the feeder or the terminal is touched *)
| FedTaken        (* the fed text is taken, _getch_posix has not returned: core.py:425-429 *)
| Unprotected     (* after setcbreak, before the try: core.py:433-435 *)
| Reading (n : nat) (* inside the try, n bytes having been read: core.py:437-441 *)
| Restoring       (* everything read, inside the finally, before tcsetattr: core.py:443-445 *)
| Decoding        (* after the read, before getch returns: core.py:447, 521-527 *)
| Leaving.        (* the body is done: in __exit__, or in the finally before alarm(0) *)

(** Who handles SIGALRM *)
Inductive handler := OtherHandler (n : Z) | RaiseTimeout.

(** What getch_timeout can change: the feeder, the terminal mode, the bytes waiting, the handler of
    SIGALRM and the seconds left of an alarm set by someone else. *)
Record world (M : Type) := mkWorld {
  w_feeder : stringio;
  w_mode : M;
  w_input : list Z;
  w_handler : handler;
  w_timer : option Z
}.
Arguments mkWorld {M}.
Arguments w_feeder {M}.
Arguments w_mode {M}.
Arguments w_input {M}.
Arguments w_handler {M}.
Arguments w_timer {M}.

(** what the body of the with statement comes to *)
Inductive body := Value (r : res key) | Alarmed | StillWaiting | Looping.

(** core.py:485-527 getch and 388-447 _getch_posix, interrupted at [a].  A place that is not passed
    interrupts nothing.  [waiting]: the bytes the terminal driver holds when getch is called, which
    tty.setcbreak (core.py:433, TCSAFLUSH) discards; [input]: the bytes that arrive after it. *)
Definition getch_alarmed {M} (cbreak : M -> M) (tty raw : bool) (a : option alarm) (eof : bool)
    (s : stringio) (mode : M) (waiting input : list Z) : stringio * M * list Z * body :=
  match a with
  | Some BeforeInput => (s, mode, waiting, Alarmed)
  | _ =>
      if negb tty then (s, mode, waiting, Value (Ok [[]]))
      else
        match sio_text s with
        | [] =>
            match a with
            | Some Unprotected => (s, cbreak mode, input, Alarmed)
            | Some (Reading n) => (s, mode, skipn n input, Alarmed)      (* finally: tcsetattr *)
            | _ =>
                match read_burst eof input with
                | Returned t =>
                    match a with
                    | Some Restoring => (s, cbreak mode, [], Alarmed)
                    | Some Decoding => (s, mode, [], Alarmed)
                    | _ => (s, mode, [], Value (decode_key raw t))
                    end
                | Waits => (s, cbreak mode, [], StillWaiting)
                | Spins => (s, cbreak mode, [], Looping)
                end
            end
        | t =>
            (sio_seek 0 (sio_truncate 0 s), mode, waiting,
             match a with
             | Some FedTaken => Alarmed
             | Some Decoding => Alarmed
             | _ => Value (decode_key raw t)
             end)
        end
  end.

(** what getch_timeout returns *)
Inductive timed := Typed (k : key) | Default.

(** core.py:350-375 timeout and 530-562 getch_timeout on POSIX.  [setitimer] rejects nan
    (ValueError), infinities (OverflowError) and negative durations (OSError); a duration of 0 turns
    the timer off.  Simplification: huge finite durations are accepted.  An exception inside the
    generator before the yield is swallowed by its except clause if it is the timeout, and
    contextlib then raises RuntimeError (the generator did not yield). *)
Definition getch_timeout {M} (cbreak : M -> M) (tty raw : bool) (duration : f64) (a : option alarm) (eof : bool)
    (arriving : list Z) (w : world M) : world M * outcome (res timed) :=
  let armed timer s mode input := mkWorld s mode input RaiseTimeout timer in
  let same := armed None (w_feeder w) (w_mode w) (w_input w) in
  if is_nan duration then (same, Returned (Err ValueError))
  else if negb (is_finite duration) then (same, Returned (Err OverflowError))
  else if fltb duration fzero then (same, Returned (Err OSError))
  else
    let a := if feqb duration fzero then None else a in
    match a with
    | Some Entering => (same, Returned (Err RuntimeError))
    | _ =>
        let '(s, mode, input, b) := getch_alarmed cbreak tty raw a eof (w_feeder w) (w_mode w) (w_input w) arriving in
        (armed None s mode input,
         match b with
         | Value r =>
             match a with
             | Some Leaving => Returned (Err TimeoutException)
             | _ => Returned (let* k := r in Ok (Typed k))
             end
         | Alarmed => Returned (Ok Default)
         | StillWaiting => Waits
         | Looping => Spins
         end)
    end.

(** core.py:457-463 _ensure_str on one byte: a lone byte above 127 is not UTF-8.  (In Python
    UnicodeDecodeError is a kind of ValueError.) *)
Definition ensure_str (b : Z) : res str := if b <? 128 then Ok [b] else Err UnicodeDecodeError.

(** core.py:478-480: the bytes after the first *)
Fixpoint nt_rest (buff : str) (bytes : list Z) : res str :=
  match bytes with
  | [] => Ok buff
  | b :: rest => let* t := ensure_str b in nt_rest (buff ++ t) rest
  end.

(** core.py:450-482 _getch_nt; [bytes]: what msvcrt.getch gives until kbhit is false *)
Definition getch_nt (bytes : list Z) : res str :=
  match bytes with
  | [] => Ok []
  | b :: rest =>
      let* buff := (if b =? 224 then Ok [ESC] else ensure_str b) in
      nt_rest buff rest
  end.

(** core.py:502-511 getch on Windows *)
Definition getch_windows (tty raw : bool) (bytes : list Z) : res key :=
  if negb tty then Ok [[]]
  else let* k := getch_nt bytes in Ok (decode_key_nt raw k).
