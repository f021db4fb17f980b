(** Specification of drawing: the picture a history of writes and clears describes, independent of
    cells, pending sets and escape sequences; and the terminal that received what was drawn. *)
From Coq Require Import ZArith Reals List Bool String.
From Verif Require Import PyBase F64 SpaceModel ColorSpec ColorModel AnsiRe SpanModel Vt SpanSpec ScreenModel ScreenSpec.
Open Scope Z_scope.

(** * Histories *)
Inductive act :=
| AWrite (data : list (pos * list span)) (tb : color) (force : bool)
| AClear (fill : Z)
| ADraw.
(** a screen, the cache, and the terminal *)
Definition world := (screen * ccache * emu)%type.
Definition perform (e : env) (origin : pos) (k : world) (a : act) : world :=
  let '(s, c, m) := k in
  match a with
  | AWrite data tb force => let '(s', c', _) := write_bulk e c s data tb force in (s', c', m)
  | AClear fill => (clear s [fill], c, m)
  | ADraw => let '(out, s') := render s origin false in (s', c, vt out m)
  end.

(** * The picture *)
(** character and rendition of every position *)
Definition picture := pos -> Z * rend.
(** the characters of a line of spans *)
Definition glyphs (line : list span) : list (Z * span) := flat_map (fun s => map (fun c => (c, s)) (s_text s)) line.
(** where the characters of an entry go *)
Definition spots (w h : Z) (entry : pos * list span) : list (pos * (Z * span)) :=
  let '((x, y), line) := entry in
  if (0 <=? x) && (x <? w) && (0 <=? y) && (y <? h) then number w h (y * w + x) (glyphs line) else [].
(** a character of a span, in the colors of the terminal ([sh]); the foreground is white if unset *)
Definition painted (sh : triple -> ecolor) (g : Z * span) : Z * rend :=
  let '(c, s) := g in
  (c, styled (s_flags s)
        (Some (sh (match s_fg s with Some f => c_rgb f | None => (255, 255, 255) end)))
        (match s_bg s with Some b => Some (sh (c_rgb b)) | None => None end) rend0).
Definition paint_act (sh : triple -> ecolor) (w h : Z) (p : picture) (a : act) : picture :=
  match a with
  | AWrite data _ _ => fun q => match rev (covering q (flat_map (spots w h) data)) with
                                | [] => p q
                                | g :: _ => painted sh g
                                end
  | AClear fill => fun _ => (fill, rend0)
  | ADraw => p
  end.
Definition blank (fill : Z) : picture := fun _ => (fill, rend0).

(** * What is drawn *)
(** colors given by channels or hex codes, without alpha *)
Definition by_value (c : color) : Prop :=
  color_ok c /\ c_alpha c = fone /\
  match c_ctor c with None => True | Some k => startswith (lit "#"%string) k = true end.
(** [sh] tells which color of the terminal each of them is displayed in *)
Definition shades (e : env) (sh : triple -> ecolor) : Prop := forall c, by_value c -> emits e c (sh (c_rgb c)).
(** text without control characters whose attributes are reset, its colors on their layers *)
Definition drawable (s : span) : Prop :=
  printable (s_text s) /\ (s_reset s = false -> forall k, get_flag k (s_flags s) = false) /\
  (forall c, s_fg s = Some c -> by_value c /\ c_bg c = false) /\
  (forall c, s_bg s = Some c -> by_value c /\ c_bg c = true).
Definition act_ok (w h : Z) (a : act) : Prop :=
  match a with
  | AWrite data tb _ => Forall (calm_entry w h) data /\ fine tb /\ Forall (fun entry => Forall drawable (snd entry)) data
  | AClear fill => is_ctl fill = false
  | ADraw => True
  end.

(** * The terminal *)
(** nothing half-received, attributes and hyperlinks off *)
Definition at_rest (m : emu) : Prop := e_parse m = PGround /\ e_rend m = rend0 /\ e_link m = [].
(** the area of a [w] by [h] screen at [origin] (from 1) fits *)
Definition fits (w h : Z) (origin : pos) (m : emu) : Prop :=
  1 <= fst origin /\ 1 <= snd origin /\ fst origin - 1 + w <= e_w m /\ snd origin - 1 + h <= e_h m.
(** the cell of the terminal for the position [q] of the screen *)
Definition seen (origin : pos) (m : emu) (q : pos) : ecell := e_grid m (fst q + fst origin - 1) (snd q + snd origin - 1).

(** * Attributes *)
Definition attributes (r : rend) : list bool :=
  [r_bold r; r_dim r; r_italic r; r_underline r; r_blink r; r_rapid r; r_inverse r; r_conceal r; r_strike r]%list.
(** the attributes of [a] are attributes of [b] *)
Definition at_least (a b : rend) : Prop := Forall2 (fun x y => x = true -> y = true) (attributes a) (attributes b).

(** The screen [s'] is [s] scrolled up by one row, with the text of [sp], written at (x, y) below
    the last row, in its last row *)
Record scrolled (e : env) (sp : span) (x y : Z) (s s' : screen) : Prop := {
  sd_size : sc_w s' = sc_w s /\ sc_h s' = sc_h s /\ sc_cursor s' = sc_cursor s;
  sd_off : sc_off s' = y - sc_h s + 1;
  sd_shaped : shaped s';
  sd_keyed : keyed s -> keyed s';
  (* the rows above the last one *)
  sd_rows : forall q, on_screen (sc_w s) (sc_h s - 1) q -> cell_at s' q = cell_at s (fst q, snd q + 1);
  (* the last row: the text, nothing beside it *)
  sd_text : forall k ch, nth_error (get_characters e sp true true) k = Some ch ->
    cell_at s' (x + Z.of_nat k, sc_h s - 1) = Some (plain_cell (ch, sp));
  sd_rest : forall X, 0 <= X < sc_w s -> ~ (x <= X < x + zlen (s_text sp)) -> cell_at s' (X, sc_h s - 1) = Some ([], None, None);
  (* pending: the text *)
  sd_pending : forall k ch, nth_error (get_characters e sp true true) k = Some ch ->
    pending s' (x + Z.of_nat k, sc_h s - 1) = Some (drawn e (plain_cell (ch, sp)) ++ (if Z.of_nat k =? zlen (s_text sp) - 1 then [NL] else []));
  sd_other : forall q, ~ (snd q = sc_h s - 1 /\ x <= fst q < x + zlen (s_text sp)) -> pending s' q = pending s q
}.
