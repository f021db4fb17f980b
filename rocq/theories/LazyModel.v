(** screen.py: writing from iterables that run code while they are consumed (generators).
    Definitions only (no proofs).  ScreenModel.v has the case of lists. *)
From Coq Require Import ZArith List Bool.
From Verif Require Import PyBase F64 ColorModel AnsiRe SpanModel ScreenModel.
Import ListNotations.
Open Scope Z_scope.

(** An iterable: what its code does to the screen and to the cache of get_characters while [list]
    consumes it, and the spans it gives or the exception it raises *)
Record supply := mkSupply { g_run : screen * ccache -> screen * ccache; g_out : res (list span) }.

(** screen.py:214-244, the character loop, when write_matrix may be smaller than the screen *)
Fixpoint place_in (w h : Z) (s : span) (chars : list str) (i n : Z) (x y lst : Z)
    (wm : wmatrix) (am : amatrix) : res (Z * Z * Z * wmatrix * amatrix) :=
  match chars with
  | [] => Ok (x, y, lst, wm, am)
  | char :: rest =>
      if (w <=? x) || (x <? 0) || (h <=? y) || (y <? 0) then Ok (x, y, lst, wm, am)
      else if str_eqb char [NL] then place_in w h s rest (i + 1) n x (y + 1) lst wm am
      else
        let lst := if i =? n - 1 then 1 else 0 in
        let '(nx, ny) := if w <=? x + 1 then (0, y + 1) else (x + 1, y) in
        match mget wm x y with
        | None => Err IndexError
        | Some old =>
            let '(c, push) := over s char old in
            place_in w h s rest (i + 1) n nx ny lst (mset wm x y (Some c)) (am_push am x y push)
        end
  end.

(** screen.py:197-244, as place_line *)
Fixpoint line_in (e : env) (w h : Z) (line : list span) (i : Z) (x y lst : Z) (st : wstate)
  : wstate * res unit :=
  match line with
  | [] => (st, Ok tt)
  | s :: rest =>
      let '(chars, cache) := cached_characters e (ws_cache st) s true true in
      let st := mkW (ws_wm st) (ws_am st) (ws_cells st) (ws_off st) cache in
      let n := zlen chars in
      let scrolled :=
        if (i =? lst) && (h - 1 <? y - ws_off st) then
          let off := y - h + 1 in
          match append_nl chars with
          | Err x => (mkW (ws_wm st) (ws_am st) (ws_cells st) off cache, Err x)
          | Ok chars' =>
              let cache' := cache_put e (s, true, true) chars' cache in
              match ws_cells st with
              | [] => (mkW (ws_wm st) (ws_am st) [] off cache', Err IndexError)
              | _ :: cells =>
                  (mkW (ws_wm st) (ws_am st)
                     (cells ++ [map (fun _ => ([], None, None)) (range w)]) off cache',
                   Ok chars')
              end
          end
        else (st, Ok chars) in
      match scrolled with
      | (st, Err x) => (st, Err x)
      | (st, Ok chars) =>
          let y := y - ws_off st in
          match place_in w h s chars 0 n x y lst (ws_wm st) (ws_am st) with
          | Err ex => (st, Err ex)
          | Ok (x, y, lst, wm, am) =>
              line_in e w h rest (i + 1) x y lst (mkW wm am (ws_cells st) (ws_off st) (ws_cache st))
          end
      end
  end.

(** screen.py:193-244.  The width, height, cells and offset are those of the screen at the time;
    write_matrix keeps the size the screen had at the beginning. *)
Definition put_back (s : screen) (st : wstate) : screen :=
  mkScreen (sc_w s) (sc_h s) (ws_cells st) (sc_buf s) (sc_cursor s) (ws_off st).
Fixpoint lazy_all (e : env) (data : list (pos * supply)) (s : screen) (c : ccache) (wm : wmatrix) (am : amatrix)
  : screen * ccache * res (wmatrix * amatrix) :=
  match data with
  | [] => (s, c, Ok (wm, am))
  | ((x, y), g) :: rest =>
      let '(s, c) := g_run g (s, c) in
      match g_out g with
      | Err ex => (s, c, Err ex)
      | Ok line =>
          match line_in e (sc_w s) (sc_h s) line 0 x y (zlen line - 1) (mkW wm am (sc_cells s) (sc_off s) c) with
          | (st, Err ex) => (put_back s st, ws_cache st, Err ex)
          | (st, Ok _) => lazy_all e rest (put_back s st) (ws_cache st) (ws_wm st) (ws_am st)
          end
      end
  end.

(** screen.py:158-304 write_bulk *)
Definition write_lazy (e : env) (cache : ccache) (s : screen) (data : list (pos * supply)) (tb : color)
  : screen * ccache * res Z :=
  match lazy_all e data s cache (blank_matrix (sc_w s) (sc_h s) None) (blank_matrix (sc_w s) (sc_h s) []) with
  | (s, c, Err ex) => (s, c, Err ex)
  | (s, c, Ok (wm, am)) =>
      match commit e tb wm am 0 (sc_cells s) (sc_buf s) 0 with
      | (cells, buf, n, ex) =>
          (mkScreen (sc_w s) (sc_h s) cells buf (sc_cursor s) (sc_off s), c,
           match ex with Some x => Err x | None => Ok n end)
      end
  end.
