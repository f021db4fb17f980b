(** screen.py.  Definitions only (no proofs). *)
From Coq Require Import ZArith List Bool String.
From Verif Require Import PyBase F64 SpaceModel ColorTab ColorModel AnsiRe SpanModel.
Open Scope Z_scope.

(** screen.py:13-33 _get_blended *)
Definition get_blended (base other : option color) (bg : option bool) (addition : f64)
  : res (option color) :=
  match base, other with
  | None, None => Ok None
  | Some b, None => Ok (Some b)
  | None, Some o => Ok (Some o)
  | Some b, Some o =>
      if feqb (c_alpha o) fone then Ok (Some o)
      else let* r := blend b o (fmin (fadd (c_alpha o) addition) fone) bg in Ok (Some r)
  end.

(** screen.py:36-61 ChangeBuffer: a dict keyed by (x, y) *)
Definition pos := (Z * Z)%type.
Definition pos_eqb (a b : pos) : bool := (fst a =? fst b) && (snd a =? snd b).
Definition buffer := list (pos * str).
Fixpoint buf_set (k : pos) (v : str) (d : buffer) : buffer :=
  match d with
  | [] => [(k, v)]
  | (k', v') :: r => if pos_eqb k' k then (k', v) :: r else (k', v') :: buf_set k v r
  end.
Fixpoint buf_get (k : pos) (d : buffer) : option str :=
  match d with
  | [] => None
  | (k', v) :: r => if pos_eqb k' k then Some v else buf_get k r
  end.

(** screen.py:50-61 gather: stable sort by (y, x) *)
Definition pos_leb (a b : pos) : bool :=
  (snd a <? snd b) || ((snd a =? snd b) && (fst a <=? fst b)).
Fixpoint insert_item (i : pos * str) (l : buffer) : buffer :=
  match l with
  | [] => [i]
  | j :: r => if pos_leb (fst i) (fst j) then i :: l else j :: insert_item i r
  end.
Definition gather (d : buffer) : buffer := fold_right insert_item [] d.

(** screen.py:71-84: the fields of Screen *)
Record screen := mkScreen {
  sc_w : Z;
  sc_h : Z;
  sc_cells : list (list cell);
  sc_buf : buffer;
  sc_cursor : pos;
  sc_off : Z
}.

Definition fill_row (w : Z) (fill : str) : list cell := map (fun _ => (fill, None, None)) (range w).

(** screen.py:101-108: the change buffer after the filling loop *)
Definition fill_buffer (w h : Z) (fill : str) (d : buffer) : buffer :=
  fold_left (fun d y => fold_left (fun d x => buf_set (x, y) fill d) (range w) d) (range h) d.

(** screen.py:110-119: [new] overwritten by [old] where both exist *)
Fixpoint overlay_row (new old : list cell) : list cell :=
  match new, old with
  | _ :: n, o :: r => o :: overlay_row n r
  | _, _ => new
  end.
Fixpoint overlay (new old : list (list cell)) : list (list cell) :=
  match new, old with
  | nr :: n, o :: r => overlay_row nr o :: overlay n r
  | _, _ => new
  end.

(** screen.py:86-124 *)
Definition resize (s : screen) (size : Z * Z) (fill : str) (keep : bool) : screen :=
  let '(w, h) := size in
  let cells := map (fun _ => fill_row w fill) (range h) in
  mkScreen w h (if keep then overlay cells (sc_cells s) else cells)
    (fill_buffer w h fill (sc_buf s)) (sc_cursor s) (sc_off s).

(** screen.py:71-84 *)
Definition new_screen (w h : Z) (cursor : pos) (fill : str) : screen :=
  resize (mkScreen w h [] [] cursor 0) (w, h) fill true.

(** screen.py:126-134 *)
Definition clear (s : screen) (fill : str) : screen :=
  let s' := resize s (sc_w s, sc_h s) fill false in
  mkScreen (sc_w s') (sc_h s') (sc_cells s') (sc_buf s') (0, 0) (sc_off s').

(** Matrices as lists of rows *)
Definition mget {A} (m : list (list A)) (x y : Z) : option A :=
  match nth_error m (Z.to_nat y) with
  | Some row => nth_error row (Z.to_nat x)
  | None => None
  end.
Fixpoint upd_nth {A} (n : nat) (f : A -> A) (l : list A) : list A :=
  match l, n with
  | [], _ => []
  | a :: r, O => f a :: r
  | a :: r, S k => a :: upd_nth k f r
  end.
Definition mset {A} (m : list (list A)) (x y : Z) (v : A) : list (list A) :=
  upd_nth (Z.to_nat y) (set_nth (Z.to_nat x) v) m.

(** span.py:418 [@lru_cache] (maxsize 128) on get_characters: most recently used first.  A
    hit needs equal spans and equal hashes (all fields). *)
Definition cache_key := (span * bool * bool)%type.
Definition ccache := list (cache_key * list str).
Definition opt_str_eqb (a b : option str) : bool :=
  match a, b with
  | None, None => true
  | Some x, Some y => str_eqb x y
  | _, _ => false
  end.
Definition cs_eqb (a b : colorspace) : bool := str_eqb (cs_value a) (cs_value b).
Definition color_same (a b : color) : bool :=
  color_eqb a b && Bool.eqb (c_bg a) (c_bg b) && cs_eqb (c_origin a) (c_origin b)
  && opt_str_eqb (c_ctor a) (c_ctor b).
Definition opt_color_same (a b : option color) : bool :=
  match a, b with
  | None, None => true
  | Some x, Some y => color_same x y
  | _, _ => false
  end.
Definition key_eqb (e : env) (a b : cache_key) : bool :=
  let '(s, x, y) := a in let '(s', x', y') := b in
  Bool.eqb x x' && Bool.eqb y y' && span_eqb e s s'
  && opt_color_same (s_fg s) (s_fg s') && opt_color_same (s_bg s) (s_bg s').

Fixpoint cache_find (e : env) (k : cache_key) (c : ccache) : option (list str) :=
  match c with
  | [] => None
  | (k', v) :: r => if key_eqb e k' k then Some v else cache_find e k r
  end.
Definition cache_del (e : env) (k : cache_key) (c : ccache) : ccache :=
  filter (fun kv => negb (key_eqb e (fst kv) k)) c.
Definition cache_put (e : env) (k : cache_key) (v : list str) (c : ccache) : ccache :=
  firstn 128 ((k, v) :: cache_del e k c).

(** span.py:418-451 with its cache; the caller gets the cached list object itself *)
Definition cached_characters (e : env) (c : ccache) (s : span) (exclude always : bool)
  : list str * ccache :=
  let k := (s, exclude, always) in
  match cache_find e k c with
  | Some v => (v, cache_put e k v c)
  | None => let v := get_characters e s exclude always in (v, cache_put e k v c)
  end.

(** screen.py:177-181, 242: a written cell of write_matrix, [None] being the [blank] object:
    (char, fg, bg, bleedthrough).  The fourth component of the source tuple is never read. *)
Definition wcell := (str * option color * option color * bool)%type.
Definition wmatrix := list (list (option wcell)).
Definition amatrix := list (list (list color)).

Record wstate := mkW {
  ws_wm : wmatrix; ws_am : amatrix;
  ws_cells : list (list cell); ws_off : Z; ws_cache : ccache
}.

Definition alpha_not_one (c : color) : bool := negb (feqb (c_alpha c) fone).
Definition bg_has_alpha (c : option color) : bool :=
  match c with Some b => alpha_not_one b | None => false end.

Definition is_nl (c : Z) : bool := c =? NL.
(** [RE_ANSI.sub("", char).strip() == ""] *)
Definition char_empty (char : str) : bool := str_eqb (strip_by is_space (strip_ansi char)) [].

(** screen.py:230-242: the cell written over [old] *)
Definition over (s : span) (char : str) (old : option wcell) : wcell * option color :=
  let fg := s_fg s in let bg := s_bg s in
  match old, bg with
  | Some (ochar, ofg, obg, _), Some b =>
      if alpha_not_one b then
        let empty := char_empty char && negb (fl_opaque (s_flags s)) in
        let fchar := if empty then ochar else char in
        ((fchar, (if empty then ofg else fg), obg, negb (str_eqb char fchar)), Some b)
      else ((char, fg, bg, false), None)
  | _, _ => ((char, fg, bg, false), None)
  end.

Definition am_push (am : amatrix) (x y : Z) (c : option color) : amatrix :=
  match c with
  | None => am
  | Some b => upd_nth (Z.to_nat y) (upd_nth (Z.to_nat x) (fun l => l ++ [b])) am
  end.

(** screen.py:214-244: the character loop.  [i] the index, [n] = chars_len; [lst] is the
    variable [last], shared with the outer loop (0/1 once it holds a bool). *)
Fixpoint place (w h : Z) (s : span) (chars : list str) (i n : Z) (x y lst : Z)
    (wm : wmatrix) (am : amatrix) : Z * Z * Z * wmatrix * amatrix :=
  match chars with
  | [] => (x, y, lst, wm, am)
  | char :: rest =>
      if (w <=? x) || (x <? 0) || (h <=? y) || (y <? 0) then (x, y, lst, wm, am)
      else if str_eqb char [NL] then place w h s rest (i + 1) n x (y + 1) lst wm am
      else
        let lst := if i =? n - 1 then 1 else 0 in
        let '(nx, ny) := if w <=? x + 1 then (0, y + 1) else (x + 1, y) in
        let old := match mget wm x y with Some o => o | None => None end in
        let '(c, push) := over s char old in
        place w h s rest (i + 1) n nx ny lst (mset wm x y (Some c)) (am_push am x y push)
  end.

(** [chars[-1] = chars[-1] + "\n"] *)
Definition append_nl (chars : list str) : res (list str) :=
  match rev chars with
  | [] => Err IndexError
  | l :: r => Ok (rev ((l ++ [NL]) :: r))
  end.

(** screen.py:197-244: the span loop of one entry of [data]; [i] the index of the span *)
Fixpoint place_line (e : env) (w h : Z) (line : list span) (i : Z) (x y lst : Z) (st : wstate)
  : wstate * res unit :=
  match line with
  | [] => (st, Ok tt)
  | s :: rest =>
      let '(chars, cache) := cached_characters e (ws_cache st) s true true in
      let st := mkW (ws_wm st) (ws_am st) (ws_cells st) (ws_off st) cache in
      let n := zlen chars in
      let scrolled :=                                              (* 205-210 *)
        if (i =? lst) && (h - 1 <? y - ws_off st) then
          let off := y - h + 1 in
          match append_nl chars with
          | Err x => (mkW (ws_wm st) (ws_am st) (ws_cells st) off cache, Err x)
          | Ok chars' =>
              let cache' := cache_put e (s, true, true) chars' cache in
              match ws_cells st with
              | [] => (mkW (ws_wm st) (ws_am st) [] off cache', Err IndexError)
              | _ :: cells =>
                  (mkW (ws_wm st) (ws_am st)
                     (cells ++ [map (fun _ => ([], None, None)) (range w)]) off cache',
                   Ok chars')
              end
          end
        else (st, Ok chars) in
      match scrolled with
      | (st, Err x) => (st, Err x)
      | (st, Ok chars) =>
          let y := y - ws_off st in                                (* 212 *)
          let '(x, y, lst, wm, am) := place w h s chars 0 n x y lst (ws_wm st) (ws_am st) in
          place_line e w h rest (i + 1) x y lst
            (mkW wm am (ws_cells st) (ws_off st) (ws_cache st))
      end
  end.

(** screen.py:193-244 *)
Fixpoint place_all (e : env) (w h : Z) (data : list (pos * list span)) (st : wstate)
  : wstate * res unit :=
  match data with
  | [] => (st, Ok tt)
  | ((x, y), line) :: rest =>
      match place_line e w h line 0 x y (zlen line - 1) st with
      | (st, Err x) => (st, Err x)
      | (st, Ok _) => place_all e w h rest st
      end
  end.

(** screen.py:262-272: the alpha stack.  [color == None] is false. *)
Fixpoint blend_stack (stack : list color) (lst blent fg : option color) (bleed : bool)
  : res (option color * option color) :=
  match stack with
  | [] => Ok (blent, fg)
  | c :: rest =>
      if (match lst with Some l => color_eqb c l | None => false end)
      then blend_stack rest lst blent fg bleed
      else
        let* blent := get_blended blent (Some c) None (flit 1 10) in
        let* fg := (if bleed then get_blended fg (Some c) None (flit 1 10) else Ok fg) in
        blend_stack rest (Some c) blent fg bleed
  end.

(** screen.py:258-285: the new cell and whether its text ended in a newline *)
Definition finish_cell (tb : color) (c : wcell) (stack : list color) : res (cell * bool) :=
  let '(char, fg, bg, bleed) := c in
  let fg := match fg with Some f => Some f | None => Some WHITE end in
  let* bf := blend_stack stack bg bg fg bleed in
  let '(blent, fg) := bf in
  let* bg := (if bg_has_alpha blent then get_blended (Some tb) blent None (flit 1 10)
              else Ok blent) in
  let* fg := (if bg_has_alpha fg then get_blended fg bg None fzero else Ok fg) in
  Ok ((rstrip_by is_nl char, fg, bg), endswith [NL] char).

Definition cell_eqb (a b : cell) : bool :=
  let '(ca, fa, ba) := a in let '(cb, fb, bb) := b in
  str_eqb ca cb && opt_color_eqb fa fb && opt_color_eqb ba bb.

(** screen.py:290-300: the change buffer entry of a cell *)
Definition cell_entry (e : env) (c : cell) (has_newline : bool) : str :=
  let '(char, fg, bg) := c in
  let color := join (lit ";")
                 (map (color_ansi e) (opt_list fg) ++ map (color_ansi e) (opt_list bg)) in
  (match color with [] => char | _ => csi_m color ++ char ++ RESET end)
  ++ (if has_newline then [NL] else []).

(** screen.py:246-304: the commit loop over one row, then over the rows *)
Fixpoint commit_row (e : env) (tb : color) (row : list (option wcell)) (arow : list (list color))
    (x y : Z) (cells : list (list cell)) (buf : buffer) (n : Z)
  : list (list cell) * buffer * Z * option exn :=
  match row with
  | [] => (cells, buf, n, None)
  | None :: rest => commit_row e tb rest (tl arow) (x + 1) y cells buf n
  | Some c :: rest =>
      match finish_cell tb c (hd [] arow) with
      | Err ex => (cells, buf, n, Some ex)
      | Ok (new, nl) =>
          match mget cells x y with
          | None => (cells, buf, n, Some IndexError)
          | Some old =>
              if cell_eqb new old then commit_row e tb rest (tl arow) (x + 1) y cells buf n
              else commit_row e tb rest (tl arow) (x + 1) y (mset cells x y new)
                     (buf_set (x, y) (cell_entry e new nl) buf) (n + 1)
          end
      end
  end.
Fixpoint commit (e : env) (tb : color) (wm : wmatrix) (am : amatrix) (y : Z)
    (cells : list (list cell)) (buf : buffer) (n : Z)
  : list (list cell) * buffer * Z * option exn :=
  match wm with
  | [] => (cells, buf, n, None)
  | row :: rest =>
      match commit_row e tb row (hd [] am) 0 y cells buf n with
      | (cells, buf, n, Some ex) => (cells, buf, n, Some ex)
      | (cells, buf, n, None) => commit e tb rest (tl am) (y + 1) cells buf n
      end
  end.

Definition blank_matrix {A} (w h : Z) (a : A) : list (list A) :=
  map (fun _ => map (fun _ => a) (range w)) (range h).

(** screen.py:158-304 write_bulk.  [force_overwrite] is accepted and unused, as in the
    source. *)
Definition write_bulk (e : env) (cache : ccache) (s : screen) (data : list (pos * list span))
    (tb : color) (force_overwrite : bool) : screen * ccache * res Z :=
  let w := sc_w s in let h := sc_h s in
  let st := mkW (blank_matrix w h None) (blank_matrix w h []) (sc_cells s) (sc_off s) cache in
  match place_all e w h data st with
  | (st, Err x) =>
      (mkScreen w h (ws_cells st) (sc_buf s) (sc_cursor s) (ws_off st), ws_cache st, Err x)
  | (st, Ok _) =>
      match commit e tb (ws_wm st) (ws_am st) 0 (ws_cells st) (sc_buf s) 0 with
      | (cells, buf, n, ex) =>
          (mkScreen w h cells buf (sc_cursor s) (ws_off st), ws_cache st,
           match ex with Some x => Err x | None => Ok n end)
      end
  end.

(** screen.py:136-156 write; unpacking a None cursor raises TypeError *)
Definition write (e : env) (cache : ccache) (s : screen) (spans : list span)
    (cursor : option pos) (tb : color) (force_overwrite : bool) : screen * ccache * res Z :=
  match cursor with
  | None => (s, cache, Err TypeError)
  | Some p => write_bulk e cache s [(p, spans)] tb force_overwrite
  end.

(** "\x1b[{y};{x}H" *)
Definition cup (x y : Z) : str := [ESC; 91] ++ dec y ++ lit ";" ++ dec x ++ lit "H".

(** screen.py:319-321 *)
Fixpoint redraw_rows (x y : Z) (rows : list (list cell)) : str :=
  match rows with
  | [] => []
  | row :: rest => cup x y ++ List.concat (map (fun c => fst (fst c)) row) ++ redraw_rows x (y + 1) rest
  end.

(** screen.py:332-341 *)
Fixpoint render_items (ox oy : Z) (prev : option pos) (items : buffer) : str :=
  match items with
  | [] => []
  | ((x, y), char) :: rest =>
      let x := x + ox in let y := y + oy in
      (if (match prev with Some (px, py) => (x =? px + 1) && (y =? py) | None => false end)
       then char else cup x y ++ char)
      ++ render_items ox oy (Some (x, y)) rest
  end.

(** screen.py:307-348 *)
Definition render (s : screen) (origin : pos) (redraw : bool) : str * screen :=
  let s' := mkScreen (sc_w s) (sc_h s) (sc_cells s) [] (sc_cursor s) (sc_off s) in
  let '(ox, oy) := origin in
  if redraw then (redraw_rows ox oy (sc_cells s), s')
  else
    let buffer := render_items ox oy None (gather (sc_buf s)) in
    ((if endswith RESET buffer then buffer else buffer ++ RESET), s').

(** screen.py:350-420 export_svg_with_styles.  Simplification: the float coordinates are
    replaced by the integer (column, row) they are computed from; each piece is
    (column, row, class number, span). *)
Fixpoint svg_row (spans : list span) (x y i : Z) (prev : option span)
  : list (Z * Z * Z * span) * Z * option span :=
  match spans with
  | [] => ([], i, prev)
  | s :: rest =>
      let i := match prev with
               | Some p => if attrs_eqb p s then i else i + 1
               | None => i + 1 end in
      let '(l, i', p') := svg_row rest (x + span_len s) y i (Some s) in
      ((x, y, i, s) :: l, i', p')
  end.
Fixpoint svg_rows (e : env) (rows : list (list cell)) (y i : Z) (prev : option span)
  : res (list (Z * Z * Z * span)) :=
  match rows with
  | [] => Ok []
  | row :: rest =>
      let* spans := group e row in
      let '(l, i, prev) := svg_row spans 0 y i prev in
      let* r := svg_rows e rest (y + 1) i prev in
      Ok (l ++ r)
  end.
Definition export_svg (e : env) (s : screen) : res (list (Z * Z * Z * span)) :=
  svg_rows e (sc_cells s) 0 0 None.

(** screen.py:379-392: the style rule of one piece (class template "screen__span{i}") *)
Definition svg_class (i : Z) : str := lit "screen__span" ++ dec i.
Definition svg_rule (i : Z) (s : span) : str :=
  lit "." ++ svg_class i ++ lit " {"
  ++ join (lit ";" ++ [NL]) (map (fun kv => fst kv ++ lit ":" ++ snd kv) (get_svg_styles s))
  ++ lit "}" ++ [NL].
