(** screen.py, terminal.py: one thread writes to the screen while another draws it.  Definitions only
    (no proofs).  The steps are those between which the interpreter may change threads and that touch
    what both threads use; operations on a list or a dictionary are not divided. *)
From Coq Require Import ZArith List Bool.
From Verif Require Import PyBase F64 ColorModel AnsiRe SpanModel ScreenModel.
Import ListNotations.
Open Scope Z_scope.

(** Where the drawing thread is: not drawing; with the changes gathered (screen.py:332), not yet
    cleared; with the changes cleared (343), not yet written to the stream (terminal.py:412) *)
Inductive drawer := Resting | Formatting (items : buffer) | Sending (items : buffer).

(** [h_writer]: what the writing thread is about to note (between lines 288 and 300); [h_sent]: the
    changes each draw has written to the stream *)
Record shared := mkShared {
  h_screen : screen; h_writer : option (pos * str); h_drawer : drawer; h_sent : list buffer
}.
Definition alone (s : screen) : shared := mkShared s None Resting [].

Inductive race_event :=
| Store (q : pos) (new : cell) (nl : bool)   (* screen.py:287-298, for a cell that is finished *)
| Note (q : pos) (t : str)                   (* 300 *)
| Gather                                     (* 60, 332 *)
| Wipe                                       (* 48, 343 *)
| Send.                                      (* terminal.py:412 *)

Definition with_cells (s : screen) (cells : list (list cell)) : screen :=
  mkScreen (sc_w s) (sc_h s) cells (sc_buf s) (sc_cursor s) (sc_off s).
Definition with_buf (s : screen) (buf : buffer) : screen :=
  mkScreen (sc_w s) (sc_h s) (sc_cells s) buf (sc_cursor s) (sc_off s).

(** [None]: the step is not the next one of its thread *)
Definition race_step (e : env) (ev : race_event) (k : shared) : option shared :=
  let '(mkShared s wr d sent) := k in
  match ev with
  | Store q new nl =>
      match wr, mget (sc_cells s) (fst q) (snd q) with
      | None, Some old =>
          if cell_eqb new old then Some k
          else Some (mkShared (with_cells s (mset (sc_cells s) (fst q) (snd q) new)) (Some (q, cell_entry e new nl)) d sent)
      | _, _ => None
      end
  | Note q t =>
      match wr with
      | Some (q', t') =>
          if pos_eqb q' q && str_eqb t' t then Some (mkShared (with_buf s (buf_set q t (sc_buf s))) None d sent) else None
      | None => None
      end
  | Gather => match d with Resting => Some (mkShared s wr (Formatting (gather (sc_buf s))) sent) | _ => None end
  | Wipe => match d with Formatting items => Some (mkShared (with_buf s []) wr (Sending items) sent) | _ => None end
  | Send => match d with Sending items => Some (mkShared s wr Resting (sent ++ [items])) | _ => None end
  end.
Fixpoint race_run (e : env) (tr : list race_event) (k : shared) : option shared :=
  match tr with
  | [] => Some k
  | ev :: r => match race_step e ev k with Some k' => race_run e r k' | None => None end
  end.

(** screen.py:327-348: the text of a draw *)
Definition draw_text (origin : pos) (items : buffer) : str :=
  let t := render_items (fst origin) (snd origin) None items in
  if endswith RESET t then t else t ++ RESET.
