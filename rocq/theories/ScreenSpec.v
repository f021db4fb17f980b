(** Specification of a screen: where text lands, what a cell holds, what is pending.  The
    functions of screen.py under verification are not used here, except the ones that define
    the operations of a history. *)
From Coq Require Import ZArith Reals List Bool String Sorting.Sorted.
From Flocq Require Import IEEE754.BinarySingleNaN.
From Verif Require Import PyBase F64 SpaceModel ColorSpec ColorModel AnsiRe SpanModel SpanSpec ScreenModel.
Open Scope Z_scope.

(** * Cells *)
Definition on_screen (w h : Z) (q : pos) : Prop := 0 <= fst q < w /\ 0 <= snd q < h.
(** the cell in column [fst q] of row [snd q] *)
Definition cell_at (s : screen) (q : pos) : option cell :=
  if (0 <=? fst q) && (0 <=? snd q) then mget (sc_cells s) (fst q) (snd q) else None.
(** exactly [sc_h] rows of [sc_w] cells *)
Definition shaped (s : screen) : Prop :=
  zlen (sc_cells s) = Z.max 0 (sc_h s) /\
  Forall (fun row => zlen row = Z.max 0 (sc_w s)) (sc_cells s).
Definition pending (s : screen) (q : pos) : option str := buf_get q (sc_buf s).
(** each position is pending at most once *)
Definition keyed (s : screen) : Prop := NoDup (map fst (sc_buf s)).

(** Python's == on cells *)
Definition same_cell (a b : cell) : Prop :=
  let '(t, fg, bg) := a in let '(t', fg', bg') := b in
  t = t' /\ eq_color fg fg' /\ eq_color bg bg'.

(** * Histories *)
Inductive op :=
| OWrite (spans : list span) (cursor : option pos) (tb : color) (force : bool)
| OBulk (data : list (pos * list span)) (tb : color) (force : bool)
| OChars (s : span) (exclude always : bool)
| OClear (fill : str)
| OResize (size : Z * Z) (fill : str) (keep : bool)
| ORender (origin : pos) (redraw : bool).
Definition step (e : env) (st : screen * ccache) (o : op) : screen * ccache :=
  let '(s, c) := st in
  match o with
  | OWrite spans cursor tb force => fst (write e c s spans cursor tb force)
  | OBulk data tb force => fst (write_bulk e c s data tb force)
  | OChars sp x a => (s, snd (cached_characters e c sp x a))
  | OClear fill => (clear s fill, c)
  | OResize size fill keep => (resize s size fill keep, c)
  | ORender origin redraw => (snd (render s origin redraw), c)
  end.
Definition run (e : env) (st : screen * ccache) (ops : list op) : screen * ccache :=
  fold_left (step e) ops st.

(** the size a call leaves *)
Definition size_after (size : Z * Z) (o : op) : Z * Z := match o with OResize size' _ _ => size' | _ => size end.

(** * Layout *)
(** the characters of a list of spans, with the span they belong to *)
Definition pieces (e : env) (line : list span) : list (str * span) :=
  flat_map (fun s => map (fun ch => (ch, s)) (get_characters e s true true)) line.
(** cells numbered row by row from [p] on; what falls below the last row is dropped *)
Fixpoint number {A} (w h p : Z) (l : list A) : list (pos * A) :=
  match l with
  | [] => []
  | a :: r => if p <? w * h then ((p mod w, p / w), a) :: number w h (p + 1) r else []
  end.
Definition laid (e : env) (w h : Z) (entry : pos * list span) : list (pos * (str * span)) :=
  let '((x, y), line) := entry in
  if (0 <=? x) && (x <? w) && (0 <=? y) && (y <? h)
  then number w h (y * w + x) (pieces e line) else [].
Definition laid_all (e : env) (w h : Z) (data : list (pos * list span)) : list (pos * (str * span)) :=
  flat_map (laid e w h) data.
(** the items landing on [q], in order *)
Definition covering {A} (q : pos) (items : list (pos * A)) : list A :=
  map snd (filter (fun i => pos_eqb (fst i) q) items).

(** An entry that cannot scroll: its row is above the bottom, its text holds no line breaks,
    and if it has several spans the first one ends before the last cell of the screen *)
Definition calm_entry (w h : Z) (entry : pos * list span) : Prop :=
  let '((x, y), line) := entry in
  y < h /\ Forall (fun s => ~ In NL (s_text s)) line /\
  match line with
  | s :: _ :: _ => 0 <= x < w -> 0 <= y -> y * w + x + zlen (s_text s) < w * h
  | _ => True
  end.
Definition calm_write (s : screen) (data : list (pos * list span)) : Prop :=
  sc_off s = 0 /\ Forall (calm_entry (sc_w s) (sc_h s)) data.

(** * What a cell shows *)
(** Content hiding what is below: every color there is has alpha 1 *)
Definition solid (o : option color) : Prop := forall c, o = Some c -> c_alpha c = fone.
Definition opaque_span (s : span) : Prop := solid (s_fg s) /\ solid (s_bg s).
(** the cell of a character of an opaque span *)
Definition plain_cell (i : str * span) : cell :=
  let '(ch, s) := i in (ch, Some (match s_fg s with Some c => c | None => WHITE end), s_bg s).

(** Usable colors: channels in range, alpha between 0 and 1 *)
Definition fine (c : color) : Prop :=
  color_ok c /\ is_finite (c_alpha c) = true /\ (0 <= B2R (c_alpha c) <= 1)%R.
Definition fine_span (s : span) : Prop := forall c, s_fg s = Some c \/ s_bg s = Some c -> fine c.
Definition fine_data (data : list (pos * list span)) : Prop :=
  Forall (fun entry => Forall fine_span (snd entry)) data.

(** the number of positions satisfying a property *)
Definition counts (P : pos -> Prop) (n : Z) : Prop :=
  exists l, NoDup l /\ (forall q, In q l <-> P q) /\ zlen l = n.

(** * The cache *)
(** every cached result is what get_characters computes *)
Definition cache_ok (e : env) (c : ccache) : Prop :=
  Forall (fun kv => let '((s, x, a), v) := kv in v = get_characters e s x a) c.

(** * The output of a cell: its colors, its text, a reset *)
Definition drawn (e : env) (c : cell) : str :=
  let '(t, fg, bg) := c in
  let colors := match fg, bg with
                | Some f, Some b => color_ansi e f ++ lit ";" ++ color_ansi e b
                | Some f, None => color_ansi e f
                | None, Some b => color_ansi e b
                | None, None => []
                end in
  if str_eqb colors [] then t else [27; 91] ++ colors ++ [109] ++ t ++ [27; 91; 48; 109].

(** * Writing entry by entry *)
Fixpoint each (e : env) (c : ccache) (s : screen) (data : list (pos * list span)) (tb : color) : screen * ccache :=
  match data with
  | [] => (s, c)
  | entry :: rest => let '(s', c', _) := write_bulk e c s [entry] tb false in each e c' s' rest tb
  end.
Definition opaque_data (data : list (pos * list span)) : Prop :=
  Forall (fun entry => Forall opaque_span (snd entry)) data.
(** the last item landing on [q] *)
Definition topmost {A} (q : pos) (items : list (pos * A)) (a : A) : Prop :=
  exists l r, items = l ++ (q, a) :: r /\ ~ In q (map fst r).

(** * Layers *)
(** a layer colors what is below it: its background is blended on, a little stronger than its alpha *)
Definition strength (l : color) : f64 := fmin (fadd (c_alpha l) (flit 1 10)) fone.
Inductive tinted : color -> list color -> color -> Prop :=
| tinted_none : forall b, tinted b [] b
| tinted_layer : forall b l ls m r, blend b l (strength l) None = Ok m -> tinted m ls r -> tinted b (l :: ls) r.
(** blank characters of a span not marked opaque let the character below show *)
Definition see_through (i : str * span) : bool :=
  forallb is_space (strip_ansi (fst i)) && negb (fl_opaque (s_flags (snd i))).
Definition showing (base : str * span) (layers : list (str * span)) : str * span :=
  last (filter (fun i => negb (see_through i)) layers) base.
Definition foreground (i : str * span) : color := match s_fg (snd i) with Some c => c | None => WHITE end.
(** the topmost layer is see-through and something else shows *)
Definition bleeds (base : str * span) (layers : list (str * span)) : Prop :=
  exists ls top, layers = ls ++ [top] /\ see_through top = true /\ fst top <> fst (showing base layers).
(** neighbouring layers have different colors *)
Fixpoint alternating (ls : list color) : Prop :=
  match ls with
  | a :: (b :: _) as r => ~ eq_color (Some a) (Some b) /\ alternating r
  | _ => True
  end.
Definition translucent (i : str * span) (l : color) : Prop := s_bg (snd i) = Some l /\ c_alpha l <> fone.

(** * Rendering *)
Definition above (a b : pos) : Prop := snd a < snd b \/ (snd a = snd b /\ fst a < fst b).
(** [q] is the cell right after [prev] on the same row *)
Definition follows (prev : option pos) (q : pos) : bool :=
  match prev with Some p => (fst q =? fst p + 1) && (snd q =? snd p) | None => false end.
Definition move_to (x y : Z) : str := [27; 91] ++ dec y ++ [59] ++ dec x ++ [72].
Definition emitted (origin : pos) (items : list (pos * str)) : str :=
  List.concat (map (fun pi => let '(prev, (q, t)) := pi in
    (if follows prev q then [] else move_to (fst q + fst origin) (snd q + snd origin)) ++ t)
    (combine (None :: map (fun i => Some (fst i)) items) items)).

(** * Histories that never scroll *)
Definition calm_op (s : screen) (o : op) : Prop :=
  match o with
  | OWrite spans (Some p) _ _ => calm_write s [(p, spans)]
  | OBulk data _ _ => calm_write s data
  | _ => True
  end.
Fixpoint calm_run (e : env) (st : screen * ccache) (ops : list op) : Prop :=
  match ops with
  | [] => True
  | o :: rest => calm_op (fst st) o /\ calm_run e (step e st o) rest
  end.

Definition cache_len (c : ccache) : Prop :=
  Forall (fun kv => let '((s, _, _), v) := kv in zlen v = zlen (s_text s)) c.
