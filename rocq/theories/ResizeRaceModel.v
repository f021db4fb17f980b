(** screen.py: one thread writes a span to the screen while another resizes or clears it, and the screen is
    drawn in between.  Definitions only (no proofs).  The steps are those between which the interpreter may
    change threads and that touch what both threads use; operations on a list or a dictionary are not
    divided.  Simplifications: building write_matrix and alpha_matrix (lines 178-191), comparing and storing a cell (287-288) and a draw are one step
    each; the row of the cursor is above the last one, so that nothing scrolls (205). *)
From Coq Require Import ZArith List Bool.
From Verif Require Import PyBase F64 ColorModel AnsiRe SpanModel ScreenModel RaceModel.
Import ListNotations.
Open Scope Z_scope.

(** the order of the loops 101-105 and 248-249 *)
Definition places (w h : Z) : list pos := flat_map (fun y => map (fun x => (x, y)) (range w)) (range h).
(** the order of the loop 111-119 over the old cells *)
Definition kept_places (w h : Z) (cells : list (list cell)) : list pos :=
  flat_map (fun y => map (fun x => (x, y)) (range (Z.min w (zlen (nth (Z.to_nat y) cells []))))) (range (Z.min h (zlen cells))).

(** Where the resizing thread is *)
Inductive resizer :=
| Still
| Filling (w h : Z) (fill : str) (keep : bool) (todo : list pos)       (* 101-108 *)
| Copying (w h : Z) (cells : list (list cell)) (todo : list pos)       (* 110-119 *)
| Resized (w h : Z) (cells : list (list cell))                         (* 121 is next *)
| Widened (h : Z) (cells : list (list cell))                           (* 122 is next *)
| Heightened (cells : list (list cell)).                               (* 124 is next *)

(** Where the writing thread is *)
Definition wjob := (pos * wcell * list color)%type.
Inductive writer :=
| Idle
| Laying (sp : span) (tb : color) (w h : Z) (wm : wmatrix) (am : amatrix) (x y : Z) (chars : list str)   (* 214-244 *)
| Storing (tb : color) (todo : list wjob)                              (* 248-287 *)
| Noting (tb : color) (q : pos) (t : str) (todo : list wjob)           (* 288-300 *)
| Failed                                                               (* IndexError *)
| Broken.                                                              (* another exception, in finishing a cell *)

Record scene := mkScene { z_screen : screen; z_writer : writer; z_resizer : resizer; z_sent : list buffer }.
Definition quiet (s : screen) (sent : list buffer) : scene := mkScene s Idle Still sent.

Inductive step2 :=
| Call (p : pos) (sp : span) (tb : color)      (* write_bulk([(p, [sp])], tb) is called: 177-212 *)
| Lay                                          (* 214-244, one character, or the end of the loop *)
| Save (q : pos)                               (* 250-288: the cell of q is finished, compared and stored *)
| Enter (q : pos)                              (* 300 *)
| Return                                       (* 304 *)
| Ask (w h : Z) (fill : str) (keep : bool)     (* resize is called: 97-100 *)
| Fill (q : pos)                               (* 105-106 *)
| Filled                                       (* 107-110 *)
| Copy (q : pos)                               (* 115-119 *)
| Copied                                       (* the end of the loop *)
| Width                                        (* 121 *)
| Height                                       (* 122 *)
| Swap                                         (* 124 *)
| Paint.                                       (* a draw *)

(** the cells of the write matrix that are not [blank] *)
Definition to_store (w h : Z) (wm : wmatrix) (am : amatrix) : list wjob :=
  flat_map (fun q => match mget wm (fst q) (snd q) with
                     | Some (Some c) => [(q, c, match mget am (fst q) (snd q) with Some l => l | None => [] end)]
                     | _ => []
                     end) (places w h).
Definition with_width (s : screen) (w : Z) : screen := mkScreen w (sc_h s) (sc_cells s) (sc_buf s) (sc_cursor s) (sc_off s).
Definition with_height (s : screen) (h : Z) : screen := mkScreen (sc_w s) h (sc_cells s) (sc_buf s) (sc_cursor s) (sc_off s).

Definition write_step (e : env) (ev : step2) (s : screen) (wr : writer) : option (screen * writer) :=
  match ev, wr with
  | Call p sp tb, Idle =>
      if (snd p <? sc_h s) && (sc_off s =? 0)
      then Some (s, Laying sp tb (sc_w s) (sc_h s) (blank_matrix (sc_w s) (sc_h s) None) (blank_matrix (sc_w s) (sc_h s) [])
                      (fst p) (snd p) (get_characters e sp true true))
      else None
  | Lay, Laying sp tb w h wm am x y chars =>
      match chars with
      | [] => Some (s, Storing tb (to_store w h wm am))
      | char :: rest =>
          if (sc_w s <=? x) || (x <? 0) || (sc_h s <=? y) || (y <? 0) then Some (s, Storing tb (to_store w h wm am))
          else if str_eqb char [NL] then Some (s, Laying sp tb w h wm am x (y + 1) rest)
          else
            let '(nx, ny) := if sc_w s <=? x + 1 then (0, y + 1) else (x + 1, y) in
            match mget wm x y with
            | None => Some (s, Failed)
            | Some old =>
                let '(c, push) := over sp char old in
                Some (s, Laying sp tb w h (mset wm x y (Some c)) (am_push am x y push) nx ny rest)
            end
      end
  | Save q, Storing tb ((q', c, st) :: todo) =>
      if pos_eqb q' q then
        match finish_cell tb c st with
        | Err _ => Some (s, Broken)
        | Ok (new, nl) =>
            match mget (sc_cells s) (fst q) (snd q) with
            | None => Some (s, Failed)
            | Some old =>
                if cell_eqb new old then Some (s, Storing tb todo)
                else Some (with_cells s (mset (sc_cells s) (fst q) (snd q) new), Noting tb q (cell_entry e new nl) todo)
            end
        end
      else None
  | Enter q, Noting tb q' t todo =>
      if pos_eqb q' q then Some (with_buf s (buf_set q t (sc_buf s)), Storing tb todo) else None
  | Return, Storing _ [] => Some (s, Idle)
  | _, _ => None
  end.

Definition resize_step (ev : step2) (s : screen) (rz : resizer) : option (screen * resizer) :=
  match ev, rz with
  | Ask w h fill keep, Still => Some (s, Filling w h fill keep (places w h))
  | Fill q, Filling w h fill keep (q' :: todo) =>
      if pos_eqb q' q then Some (with_buf s (buf_set q fill (sc_buf s)), Filling w h fill keep todo) else None
  | Filled, Filling w h fill keep [] =>
      let cells := map (fun _ => fill_row w fill) (range h) in
      Some (s, if keep then Copying w h cells (kept_places w h (sc_cells s)) else Resized w h cells)
  | Copy q, Copying w h cells (q' :: todo) =>
      if pos_eqb q' q then
        match mget (sc_cells s) (fst q) (snd q) with
        | Some c => Some (s, Copying w h (mset cells (fst q) (snd q) c) todo)
        | None => None
        end
      else None
  | Copied, Copying w h cells [] => Some (s, Resized w h cells)
  | Width, Resized w h cells => Some (with_width s w, Widened h cells)
  | Height, Widened h cells => Some (with_height s h, Heightened cells)
  | Swap, Heightened cells => Some (with_cells s cells, Still)
  | _, _ => None
  end.

(** [None]: the step is not the next one of its thread *)
Definition scene_step (e : env) (ev : step2) (k : scene) : option scene :=
  let '(mkScene s wr rz sent) := k in
  match ev with
  | Paint => Some (mkScene (with_buf s []) wr rz (sent ++ [gather (sc_buf s)]))
  | Call _ _ _ | Lay | Save _ | Enter _ | Return =>
      match write_step e ev s wr with Some (s', wr') => Some (mkScene s' wr' rz sent) | None => None end
  | _ =>
      match resize_step ev s rz with Some (s', rz') => Some (mkScene s' wr rz' sent) | None => None end
  end.
Fixpoint scene_run (e : env) (tr : list step2) (k : scene) : option scene :=
  match tr with
  | [] => Some k
  | ev :: r => match scene_step e ev k with Some k' => scene_run e r k' | None => None end
  end.
