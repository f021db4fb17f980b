(** Specification of a full redraw (Terminal.draw(redraw=True)) of text with attributes: what was written in
    each cell, and the attributes a terminal shows when the cells are typed one after the other, in reading
    order, each with its own attributes, which end where a span ended. *)
From Coq Require Import ZArith List Bool String.
From Verif Require Import PyBase F64 SpaceModel ColorModel AnsiRe SpanModel Vt SpanSpec ScreenModel ScreenSpec DrawSpec.
Import ListNotations.
Open Scope Z_scope.
Open Scope list_scope.

(** * What was written *)
(** a character, its attributes, and whether it was the last one of a span with attributes that ends them *)
Record tile := mkTile { tile_char : Z; tile_flags : flags; tile_ends : bool }.
Fixpoint text_tiles (f : flags) (ends : bool) (t : str) : list tile :=
  match t with
  | [] => []
  | c :: r => mkTile c f (match r with [] => ends | _ => false end) :: text_tiles f ends r
  end.
Definition span_tiles (s : span) : list tile :=
  text_tiles (s_flags s) (s_reset s && existsb (fun k => get_flag k (s_flags s)) all_flags) (s_text s).
(** every position of the screen *)
Definition tiling := pos -> tile.
Definition tile_spots (w h : Z) (entry : pos * list span) : list (pos * tile) :=
  let '((x, y), line) := entry in
  if (0 <=? x) && (x <? w) && (0 <=? y) && (y <? h) then number w h (y * w + x) (flat_map span_tiles line) else [].
Definition bare (c : Z) : tile := mkTile c no_flags false.
Definition tile_act (w h : Z) (T : tiling) (a : act) : tiling :=
  match a with
  | AWrite data _ _ => fun q => match rev (covering q (flat_map (tile_spots w h) data)) with
                                | [] => T q
                                | t :: _ => t
                                end
  | AClear fill => fun _ => bare fill
  | ADraw => T
  end.

(** * Typing the tiles *)
(** the cell with the number [n] in reading order, and the number of a cell *)
Definition nth_pos (w : Z) (n : nat) : pos := (Z.of_nat n mod w, Z.of_nat n / w).
Definition pos_no (w : Z) (q : pos) : nat := Z.to_nat (snd q * w + fst q).
(** the pen after a tile *)
Definition pen_after (t : tile) (pen : rend) : rend := if tile_ends t then rend0 else styled (tile_flags t) None None pen.
(** the pen when [n] tiles have been typed *)
Fixpoint pen_at (w : Z) (T : tiling) (pen : rend) (n : nat) : rend :=
  match n with
  | O => pen
  | S k => pen_after (T (nth_pos w k)) (pen_at w T pen k)
  end.

(** * The attributes *)
(** attributes of a tile, by itself *)
Definition own (t : tile) : rend := styled (tile_flags t) None None rend0.
Definition attribute (i : nat) (r : rend) : bool := nth i (attributes r) false.
