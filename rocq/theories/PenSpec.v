(** Specification of what a terminal shows after any sequence of writes, clears, draws, full redraws, and
    attributes turned on by the program itself: what was written in each cell, which cells wait for a draw, what
    each cell shows, and the pen (the colors and attributes that the terminal gives to the next character). *)
From Coq Require Import ZArith List Bool String.
From Verif Require Import PyBase F64 SpaceModel ColorModel AnsiRe SpanModel Vt SpanSpec ScreenModel ScreenSpec DrawSpec TileSpec RedrawSpec.
Import ListNotations.
Open Scope Z_scope.
Open Scope list_scope.

(** * What was written *)
(** a character with its attributes, and the channels of its colors; what was never written, or cleared, has none *)
Record ink := mkInk { ink_tile : tile; ink_fg : option triple; ink_bg : option triple }.
Definition bare_ink (c : Z) : ink := mkInk (bare c) None None.
(** The last character of a span whose attributes are not reset is written without them *)
Fixpoint worn_tiles (f : flags) (reset : bool) (t : str) : list tile :=
  match t with
  | [] => []
  | [c] => [if reset then mkTile c f (existsb (fun k => get_flag k f) all_flags) else bare c]
  | c :: r => mkTile c f false :: worn_tiles f reset r
  end.
Definition span_inks (s : span) : list ink :=
  map (fun t => mkInk t (Some (match s_fg s with Some c => c_rgb c | None => (255, 255, 255) end)) (option_map c_rgb (s_bg s)))
    (worn_tiles (s_flags s) (s_reset s) (s_text s)).
Definition ink_spots (w h : Z) (entry : pos * list span) : list (pos * ink) :=
  let '((x, y), line) := entry in
  if (0 <=? x) && (x <? w) && (0 <=? y) && (y <? h) then number w h (y * w + x) (flat_map span_inks line) else [].

(** same character, attributes, end and colors *)
Definition same_flags (a b : flags) : bool := forallb (fun k => Bool.eqb (get_flag k a) (get_flag k b)) all_flags.
Definition same_color (a b : option triple) : bool :=
  match a, b with
  | Some x, Some y => triple_eqb x y
  | None, None => true
  | _, _ => false
  end.
Definition same_ink (a b : ink) : bool :=
  (tile_char (ink_tile a) =? tile_char (ink_tile b)) && same_flags (tile_flags (ink_tile a)) (tile_flags (ink_tile b))
  && Bool.eqb (tile_ends (ink_tile a)) (tile_ends (ink_tile b)) && same_color (ink_fg a) (ink_fg b) && same_color (ink_bg a) (ink_bg b).
Definition written (i : ink) : bool := match ink_fg i with Some _ => true | None => false end.

(** * The display *)
Record display := mkDisplay {
  d_ink : pos -> ink;      (* what each cell holds *)
  d_due : pos -> bool;     (* the cells that the next draw draws *)
  d_seen : pos -> ecell;   (* what each cell shows *)
  d_pen : rend
}.
Inductive event :=
| EAct (a : act)
| ERedraw
| EPen (pen : rend).       (* the program changes the pen by itself *)

(** an ink over a pen *)
Definition inked (sh : triple -> ecolor) (i : ink) (pen : rend) : ecell :=
  (tile_char (ink_tile i), styled (tile_flags (ink_tile i)) (option_map sh (ink_fg i)) (option_map sh (ink_bg i)) pen, []).
(** A draw goes over the cells due, in reading order.  What was written is drawn in its colors, and the pen is
    put away after it; a cleared cell is drawn with the pen as it is.  At the end the pen is put away. *)
Fixpoint drawing_pen (w : Z) (D : display) (n : nat) : rend :=
  match n with
  | O => d_pen D
  | S k => if d_due D (nth_pos w k) && written (d_ink D (nth_pos w k)) then rend0 else drawing_pen w D k
  end.
(** A full redraw types every cell, in reading order, without its colors *)
Definition tiles_of (D : display) : tiling := fun q => ink_tile (d_ink D q).
Definition none_due : pos -> bool := fun _ => false.
Definition show_event (sh : triple -> ecolor) (w h : Z) (D : display) (v : event) : display :=
  match v with
  | EAct (AWrite data _ _) =>
      let ink' := fun q => match rev (covering q (flat_map (ink_spots w h) data)) with [] => d_ink D q | i :: _ => i end in
      mkDisplay ink' (fun q => d_due D q || negb (same_ink (ink' q) (d_ink D q))) (d_seen D) (d_pen D)
  | EAct (AClear fill) => mkDisplay (fun _ => bare_ink fill) (fun _ => true) (d_seen D) (d_pen D)
  | EAct ADraw =>
      mkDisplay (d_ink D) none_due
        (fun q => if d_due D q then inked sh (d_ink D q) (drawing_pen w D (pos_no w q)) else d_seen D q) rend0
  | ERedraw =>
      mkDisplay (d_ink D) none_due
        (fun q => (tile_char (tiles_of D q), styled (tile_flags (tiles_of D q)) None None (pen_at w (tiles_of D) (d_pen D) (pos_no w q)), []))
        (pen_at w (tiles_of D) (d_pen D) (Z.to_nat h * Z.to_nat w))
  | EPen pen => mkDisplay (d_ink D) (d_due D) (d_seen D) pen
  end.
(** a new screen at [origin] of a terminal *)
Definition first_display (fill : Z) (origin : pos) (m : emu) : display :=
  mkDisplay (fun _ => bare_ink fill) (fun _ => true) (seen origin m) (e_rend m).

(** * The program *)
Definition perform_event (e : env) (origin : pos) (k : world) (v : event) : world :=
  match v with
  | EAct a => perform e origin k a
  | ERedraw => let '(s, c, m) := k in let '(out, s') := render s origin true in (s', c, vt out m)
  | EPen pen => let '(s, c, m) := k in (s, c, set_rend pen m)
  end.
(** text without control characters, its colors by value and on their layers *)
Definition inkable (s : span) : Prop :=
  printable (s_text s) /\ (forall c, s_fg s = Some c -> by_value c /\ c_bg c = false) /\
  (forall c, s_bg s = Some c -> by_value c /\ c_bg c = true).
Definition event_ok (w h : Z) (v : event) : Prop :=
  match v with
  | EAct (AWrite data tb _) => Forall (calm_entry w h) data /\ fine tb /\ Forall (fun entry => Forall inkable (snd entry)) data
  | EAct (AClear fill) => is_ctl fill = false
  | _ => True
  end.
(** not in the middle of a sequence, no hyperlink *)
Definition listening (m : emu) : Prop := e_parse m = PGround /\ e_link m = [].
(** the events of a history of writes, clears and draws *)
Definition no_pens (v : event) : Prop := match v with EAct _ => True | _ => False end.
(** the next draw shows the cell [q] over the pen as it is: no written cell that is due comes before *)
Definition first_due (w h : Z) (D : display) (q : pos) : Prop :=
  forall p, on_screen w h p -> above p q -> d_due D p = true -> written (d_ink D p) = false.
(** every cell that is not due shows what it holds, in its own colors and attributes *)
Definition true_display (sh : triple -> ecolor) (w h : Z) (D : display) : Prop :=
  d_pen D = rend0 /\ forall q, on_screen w h q -> d_due D q = false -> d_seen D q = inked sh (d_ink D q) rend0.
(** requests *)
Definition event_of (st : step) : event := match st with SAct a => EAct a | SRedraw => ERedraw end.
