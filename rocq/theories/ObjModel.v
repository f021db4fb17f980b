(** Color and Span objects with their identities and everything that is cached on or about them:
    [Color.ansi], [Color.complement], [Color.contrast] and the three color groups (cached
    properties, color.py:268-356),
    the [lru_cache] on [Color.blend] (color.py:409) and on [Span.get_characters] (span.py:418), the
    sequences a Span computes when it is made (span.py:246-257), and the module's own color objects
    (color.py:497-501).  screen.py's writing over such objects.  Definitions only (no proofs). *)
From Coq Require Import ZArith List Bool String.
From Verif Require Import PyBase F64 SpaceModel ColorTab ColorModel AnsiRe SpanModel ScreenModel.
Open Scope Z_scope.

(** A reference to a Color object: its place in the list of all objects made so far *)
Definition ref := nat.

(** color.py:340-356: the cached properties that are tuples of colors *)
Inductive gkind := Triadic | Analogous | Tetradic.
Definition gkind_eqb (a b : gkind) : bool :=
  match a, b with
  | Triadic, Triadic | Analogous, Analogous | Tetradic, Tetradic => true
  | _, _ => false
  end.

(** color.py:124-155, 268, 325, 331, 340-356: the immutable value, and the cached properties (of
    the groups, those that have been read) *)
Record cobj := mkCobj {
  ob_color : color;
  ob_ansi : option str;
  ob_complement : option ref;
  ob_contrast : option ref;
  ob_groups : list (gkind * list ref)
}.
Definition fresh_obj (c : color) : cobj := mkCobj c None None None [].

(** color.py:409: the key of a call of blend: the two colors, alpha, is_background, and how the
    arguments were passed (positional and keyword calls have different keys) *)
Definition bkey := (color * color * f64 * option bool * Z)%type.
Definition opt_bool_eqb (a b : option bool) : bool :=
  match a, b with
  | None, None => true
  | Some x, Some y => Bool.eqb x y
  | _, _ => false
  end.
(** Equal keys: equal arguments with equal hashes; colors hash by all their fields.
    Simplification: different field tuples of equal colors do not collide. *)
Definition bkey_eqb (k k' : bkey) : bool :=
  let '(a, b, al, bg, sh) := k in let '(a', b', al', bg', sh') := k' in
  color_same a a' && color_same b b' && feqb al al' && opt_bool_eqb bg bg' && (sh =? sh').

(** span.py:216-257: a Span object: the init fields, and the strings computed when it was made *)
Record ospan := mkOSpan {
  os_text : str;
  os_fg : option ref;
  os_bg : option ref;
  os_link : str;
  os_flags : flags;
  os_reset : bool;
  os_sequences : str;
  os_computed : str
}.

Definition okey := (ospan * bool * bool)%type.
Definition ocache := list (okey * list str).

Record world := mkWorld {
  w_objs : list cobj;
  w_blends : list (bkey * ref);
  w_chars : ocache
}.
Definition set_objs (l : list cobj) (w : world) : world := mkWorld l (w_blends w) (w_chars w).
Definition set_blends (l : list (bkey * ref)) (w : world) : world := mkWorld (w_objs w) l (w_chars w).
Definition set_chars (l : ocache) (w : world) : world := mkWorld (w_objs w) (w_blends w) l.

(** color.py:497-501: the objects every process has *)
Definition WHITE_REF : ref := 0%nat.
Definition BLACK_REF : ref := 1%nat.
Definition DEFAULT_WHITE_REF : ref := 2%nat.
Definition DEFAULT_BLACK_REF : ref := 3%nat.
Definition world0 : world :=
  mkWorld (map fresh_obj [WHITE; BLACK; DEFAULT_WHITE; DEFAULT_BLACK]) [] [].

Definition obj (w : world) (r : ref) : cobj := nth r (w_objs w) (fresh_obj WHITE).
Definition val (w : world) (r : ref) : color := ob_color (obj w r).

(** State-passing computations on the world *)
Definition W A := world -> world * res A.
Definition retW {A} (a : A) : W A := fun w => (w, Ok a).
Definition bindW {A B} (m : W A) (k : A -> W B) : W B :=
  fun w => match m w with
           | (w', Ok a) => k a w'
           | (w', Err x) => (w', Err x)
           end.
Notation "'let!' x ':=' m 'in' k" := (bindW m (fun x => k)) (at level 200, x name, right associativity).

(** [Color(...)]: a new object, if the value is one *)
Definition alloc (c : res color) : W ref := fun w =>
  match c with
  | Ok v => (set_objs (w_objs w ++ [fresh_obj v]) w, Ok (List.length (w_objs w)))
  | Err x => (w, Err x)
  end.

(** color.py:268-323 *)
Definition oansi (e : env) (r : ref) : W str := fun w =>
  match ob_ansi (obj w r) with
  | Some a => (w, Ok a)
  | None =>
      let a := color_ansi e (val w r) in
      (set_objs (set_nth r (mkCobj (val w r) (Some a) (ob_complement (obj w r)) (ob_contrast (obj w r))
                            (ob_groups (obj w r))) (w_objs w)) w, Ok a)
  end.

(** color.py:331-338 *)
Definition ocomplement (r : ref) : W ref := fun w =>
  match ob_complement (obj w r) with
  | Some k => (w, Ok k)
  | None =>
      (let! k := alloc (complement (val w r)) in
       fun w => (set_objs (set_nth r (mkCobj (val w r) (ob_ansi (obj w r)) (Some k) (ob_contrast (obj w r))
                                      (ob_groups (obj w r))) (w_objs w)) w, Ok k)) w
  end.

(** color.py:383-389: the object itself, or a new one *)
Definition oas_background (r : ref) (setting : bool) (alpha : option f64) : W ref := fun w =>
  if Bool.eqb (c_bg (val w r)) setting then (w, Ok r)
  else alloc (as_background (val w r) setting alpha) w.

(** color.py:325-329, 84-103 *)
Definition ocontrast (e : env) (r : ref) : W ref := fun w =>
  match ob_contrast (obj w r) with
  | Some k => (w, Ok k)
  | None =>
      (let! k := oas_background
                   (if fltb (flit 179 1000) (luminance e (c_rgb (val w r)))
                    then DEFAULT_BLACK_REF else DEFAULT_WHITE_REF) (c_bg (val w r)) None in
       fun w => (set_objs (set_nth r (mkCobj (val w r) (ob_ansi (obj w r)) (ob_complement (obj w r)) (Some k)
                                      (ob_groups (obj w r))) (w_objs w)) w, Ok k)) w
  end.

(** color.py:391-407 *)
Definition ohue_shift (r : ref) (amount : f64) : W ref := fun w => alloc (hue_shift (val w r) amount) w.

(** color.py:106-121: the color itself and new objects; the complement is the cached one *)
Definition omake_group (g : gkind) (r : ref) : W (list ref) :=
  match g with
  | Triadic =>
      let! a := ohue_shift r (flit 1 3) in
      let! b := ohue_shift r (flit 2 3) in retW [r; a; b]
  | Analogous =>
      let! a := ohue_shift r (flit 1 12) in
      let! b := ohue_shift r (flit 2 12) in retW [r; a; b]
  | Tetradic =>
      let! a := ohue_shift r (flit 1 4) in
      let! k := ocomplement r in
      let! b := ohue_shift r (flit 3 4) in retW [r; a; k; b]
  end.
Fixpoint group_find (g : gkind) (l : list (gkind * list ref)) : option (list ref) :=
  match l with
  | [] => None
  | (g', ks) :: t => if gkind_eqb g' g then Some ks else group_find g t
  end.
(** color.py:340-356 *)
Definition ogroup (g : gkind) (r : ref) : W (list ref) := fun w =>
  match group_find g (ob_groups (obj w r)) with
  | Some ks => (w, Ok ks)
  | None =>
      (let! ks := omake_group g r in
       fun w => (set_objs (set_nth r (mkCobj (val w r) (ob_ansi (obj w r)) (ob_complement (obj w r))
                                      (ob_contrast (obj w r)) ((g, ks) :: ob_groups (obj w r)))
                             (w_objs w)) w, Ok ks)) w
  end.

(** color.py:409-437 behind its lru_cache (maxsize 128, most recently used first); a call that
    raises is not cached *)
Fixpoint blend_find (k : bkey) (l : list (bkey * ref)) : option ref :=
  match l with
  | [] => None
  | (k', r) :: t => if bkey_eqb k' k then Some r else blend_find k t
  end.
Definition blend_put (k : bkey) (r : ref) (l : list (bkey * ref)) : list (bkey * ref) :=
  firstn 128 ((k, r) :: filter (fun kv => negb (bkey_eqb (fst kv) k)) l).
Definition oblend (i j : ref) (alpha : f64) (bg : option bool) (shape : Z) : W ref := fun w =>
  let k := (val w i, val w j, alpha, bg, shape) in
  match blend_find k (w_blends w) with
  | Some r => (set_blends (blend_put k r (w_blends w)) w, Ok r)
  | None =>
      (let! r := alloc (blend (val w i) (val w j) alpha bg) in
       fun w => (set_blends (blend_put k r (w_blends w)) w, Ok r)) w
  end.

(** color.py:363-381 (alpha passed by keyword), 439-448, 250-266 *)
Definition liftW {A} (r : res A) : W A := fun w => (w, r).
Definition olighten (r : ref) (n : Z) (step : f64) : W ref :=
  let! a := liftW (shade_alpha n step) in oblend r WHITE_REF a None 1.
Definition odarken (r : ref) (n : Z) (step : f64) : W ref :=
  let! a := liftW (shade_alpha n step) in oblend r BLACK_REF a None 1.
Definition oblend_complement (r : ref) (alpha : f64) : W ref :=
  let! k := ocomplement r in oblend r k alpha None 0.
Definition owhite (bg : bool) : W ref :=
  if bg then oas_background WHITE_REF bg None else retW WHITE_REF.
Definition oblack (bg : bool) : W ref :=
  if bg then oas_background BLACK_REF bg None else retW BLACK_REF.

(** span.py:304-320 and 246-257, from the colors' sequences *)
Definition total_of (colors : list str) (f : flags) : str :=
  let total := join (lit ";") colors in
  let colorless := colorless_body f in
  match colorless with
  | [] => total
  | _ => total ++ (if zlen total =? 0 then [] else lit ";") ++ colorless
  end.
Definition computed_of (sequences text link : str) (reset : bool) : str :=
  let reset_end := if reset && negb (str_eqb sequences []) then RESET else [] in
  let combined := sequences ++ text ++ reset_end in
  if str_eqb link [] then combined else link_open link ++ combined ++ link_open [].
Definition opt_ansi (e : env) (o : option ref) : W (list str) :=
  match o with
  | None => retW []
  | Some r => let! a := oansi e r in retW [a]
  end.
Definition new_span (e : env) (text : str) (fg bg : option ref) (link : str) (f : flags) (reset : bool)
  : W ospan :=
  let! a := opt_ansi e fg in
  let! b := opt_ansi e bg in
  let sequences := csi_or_empty (total_of (a ++ b) f) in
  retW (mkOSpan text fg bg link f reset sequences (computed_of sequences text link reset)).

(** span.py:418-451 *)
Definition chars_of (sequences text : str) (reset always : bool) : list str :=
  let '(chars, remaining) := chars_init sequences always (removelast text) in
  match rev text with
  | [] => chars
  | lst :: _ =>
      chars ++ [ if negb (str_eqb sequences []) && reset then remaining ++ [lst] ++ RESET else [lst] ]
  end.
Definition ochars (s : ospan) (exclude always : bool) : list str :=
  chars_of (if exclude then csi_or_empty (colorless_body (os_flags s)) else os_sequences s)
    (os_text s) (os_reset s) always.

(** Equality of two Span objects (span.py:216; the colorless sequences are determined by the
    flags), and equality of two cache keys *)
Definition opt_val (objs : list cobj) (o : option ref) : option color :=
  option_map (fun r => ob_color (nth r objs (fresh_obj WHITE))) o.
Definition ospan_eqb (objs : list cobj) (a b : ospan) : bool :=
  str_eqb (os_text a) (os_text b) && opt_color_eqb (opt_val objs (os_fg a)) (opt_val objs (os_fg b))
  && opt_color_eqb (opt_val objs (os_bg a)) (opt_val objs (os_bg b)) && str_eqb (os_link a) (os_link b)
  && flags_eqb (os_flags a) (os_flags b) && Bool.eqb (os_reset a) (os_reset b)
  && str_eqb (os_computed a) (os_computed b)
  && str_eqb (os_sequences a) (os_sequences b)
  && str_eqb (csi_or_empty (colorless_body (os_flags a))) (csi_or_empty (colorless_body (os_flags b))).
Definition okey_eqb (objs : list cobj) (a b : okey) : bool :=
  let '(s, x, y) := a in let '(s', x', y') := b in
  Bool.eqb x x' && Bool.eqb y y' && ospan_eqb objs s s'
  && opt_color_same (opt_val objs (os_fg s)) (opt_val objs (os_fg s'))
  && opt_color_same (opt_val objs (os_bg s)) (opt_val objs (os_bg s')).
Fixpoint ocache_find (objs : list cobj) (k : okey) (c : ocache) : option (list str) :=
  match c with
  | [] => None
  | (k', v) :: r => if okey_eqb objs k' k then Some v else ocache_find objs k r
  end.
Definition ocache_put (objs : list cobj) (k : okey) (v : list str) (c : ocache) : ocache :=
  firstn 128 ((k, v) :: filter (fun kv => negb (okey_eqb objs (fst kv) k)) c).
Definition ocharacters (objs : list cobj) (c : ocache) (s : ospan) (exclude always : bool)
  : list str * ocache :=
  let k := (s, exclude, always) in
  match ocache_find objs k c with
  | Some v => (v, ocache_put objs k v c)
  | None => let v := ochars s exclude always in (v, ocache_put objs k v c)
  end.

(** screen.py:71-84, 158-304 over objects; see ScreenModel.v, branch by branch *)
Definition ocell := (str * option ref * option ref)%type.
Record oscreen := mkOScreen {
  sco_w : Z; sco_h : Z; sco_cells : list (list ocell); sco_buf : buffer; sco_cursor : pos; sco_off : Z
}.
Definition owcell := (str * option ref * option ref * bool)%type.
Definition owmatrix := list (list (option owcell)).
Definition oamatrix := list (list (list ref)).
Record owstate := mkOW {
  ow_wm : owmatrix; ow_am : oamatrix; ow_cells : list (list ocell); ow_off : Z; ow_cache : ocache
}.

(** screen.py:230-242 *)
Definition oover (objs : list cobj) (s : ospan) (char : str) (old : option owcell) : owcell * option ref :=
  match old, os_bg s with
  | Some (ochar, ofg, obg, _), Some b =>
      if alpha_not_one (ob_color (nth b objs (fresh_obj WHITE))) then
        let empty := char_empty char && negb (fl_opaque (os_flags s)) in
        let fchar := if empty then ochar else char in
        ((fchar, (if empty then ofg else os_fg s), obg, negb (str_eqb char fchar)), Some b)
      else ((char, os_fg s, os_bg s, false), None)
  | _, _ => ((char, os_fg s, os_bg s, false), None)
  end.
Definition oam_push (am : oamatrix) (x y : Z) (c : option ref) : oamatrix :=
  match c with
  | None => am
  | Some b => upd_nth (Z.to_nat y) (upd_nth (Z.to_nat x) (fun l => l ++ [b])) am
  end.

(** screen.py:214-244 *)
Fixpoint oplace (objs : list cobj) (w h : Z) (s : ospan) (chars : list str) (i n : Z) (x y lst : Z)
    (wm : owmatrix) (am : oamatrix) : Z * Z * Z * owmatrix * oamatrix :=
  match chars with
  | [] => (x, y, lst, wm, am)
  | char :: rest =>
      if (w <=? x) || (x <? 0) || (h <=? y) || (y <? 0) then (x, y, lst, wm, am)
      else if str_eqb char [NL] then oplace objs w h s rest (i + 1) n x (y + 1) lst wm am
      else
        let lst := if i =? n - 1 then 1 else 0 in
        let '(nx, ny) := if w <=? x + 1 then (0, y + 1) else (x + 1, y) in
        let old := match mget wm x y with Some o => o | None => None end in
        let '(c, push) := oover objs s char old in
        oplace objs w h s rest (i + 1) n nx ny lst (mset wm x y (Some c)) (oam_push am x y push)
  end.

(** screen.py:197-244 *)
Fixpoint oplace_line (objs : list cobj) (w h : Z) (line : list ospan) (i : Z) (x y lst : Z) (st : owstate)
  : owstate * res unit :=
  match line with
  | [] => (st, Ok tt)
  | s :: rest =>
      let '(chars, cache) := ocharacters objs (ow_cache st) s true true in
      let st := mkOW (ow_wm st) (ow_am st) (ow_cells st) (ow_off st) cache in
      let n := zlen chars in
      let scrolled :=
        if (i =? lst) && (h - 1 <? y - ow_off st) then
          let off := y - h + 1 in
          match append_nl chars with
          | Err x => (mkOW (ow_wm st) (ow_am st) (ow_cells st) off cache, Err x)
          | Ok chars' =>
              let cache' := ocache_put objs (s, true, true) chars' cache in
              match ow_cells st with
              | [] => (mkOW (ow_wm st) (ow_am st) [] off cache', Err IndexError)
              | _ :: cells =>
                  (mkOW (ow_wm st) (ow_am st)
                     (cells ++ [map (fun _ => ([], None, None)) (range w)]) off cache',
                   Ok chars')
              end
          end
        else (st, Ok chars) in
      match scrolled with
      | (st, Err x) => (st, Err x)
      | (st, Ok chars) =>
          let y := y - ow_off st in
          let '(x, y, lst, wm, am) := oplace objs w h s chars 0 n x y lst (ow_wm st) (ow_am st) in
          oplace_line objs w h rest (i + 1) x y lst
            (mkOW wm am (ow_cells st) (ow_off st) (ow_cache st))
      end
  end.
Fixpoint oplace_all (objs : list cobj) (w h : Z) (data : list (pos * list ospan)) (st : owstate)
  : owstate * res unit :=
  match data with
  | [] => (st, Ok tt)
  | ((x, y), line) :: rest =>
      match oplace_line objs w h line 0 x y (zlen line - 1) st with
      | (st, Err x) => (st, Err x)
      | (st, Ok _) => oplace_all objs w h rest st
      end
  end.

(** screen.py:13-33; blend is called with alpha positional and is_background by keyword *)
Definition oget_blended (base other : option ref) (bg : option bool) (addition : f64) : W (option ref) :=
  match base, other with
  | None, None => retW None
  | Some b, None => retW (Some b)
  | None, Some o => retW (Some o)
  | Some b, Some o => fun w =>
      if feqb (c_alpha (val w o)) fone then (w, Ok (Some o))
      else (let! r := oblend b o (fmin (fadd (c_alpha (val w o)) addition) fone) bg 2 in retW (Some r)) w
  end.

(** screen.py:262-272 *)
Fixpoint oblend_stack (stack : list ref) (lst blent fg : option ref) (bleed : bool)
  : W (option ref * option ref) :=
  match stack with
  | [] => retW (blent, fg)
  | c :: rest => fun w =>
      if (match lst with Some l => color_eqb (val w c) (val w l) | None => false end)
      then oblend_stack rest lst blent fg bleed w
      else
        (let! blent := oget_blended blent (Some c) None (flit 1 10) in
         let! fg := (if bleed then oget_blended fg (Some c) None (flit 1 10) else retW fg) in
         oblend_stack rest (Some c) blent fg bleed) w
  end.

(** screen.py:258-285 *)
Definition ohas_alpha (w : world) (o : option ref) : bool :=
  match o with Some r => alpha_not_one (val w r) | None => false end.
Definition ofinish_cell (tb : ref) (c : owcell) (stack : list ref) : W (ocell * bool) :=
  let '(char, fg, bg, bleed) := c in
  let fg := match fg with Some f => Some f | None => Some WHITE_REF end in
  let! bf := oblend_stack stack bg bg fg bleed in
  let '(blent, fg) := bf in
  let! bg := (fun w => if ohas_alpha w blent then oget_blended (Some tb) blent None (flit 1 10) w
                       else (w, Ok blent)) in
  let! fg := (fun w => if ohas_alpha w fg then oget_blended fg bg None fzero w else (w, Ok fg)) in
  retW ((rstrip_by is_nl char, fg, bg), endswith [NL] char).

(** screen.py:287: [new != self._cells[y][x]] *)
Definition ocell_eqb (w : world) (a b : ocell) : bool :=
  let '(ca, fa, ba) := a in let '(cb, fb, bb) := b in
  str_eqb ca cb && opt_color_eqb (opt_val (w_objs w) fa) (opt_val (w_objs w) fb)
  && opt_color_eqb (opt_val (w_objs w) ba) (opt_val (w_objs w) bb).

(** screen.py:290-300 *)
Definition ocell_entry (e : env) (c : ocell) (has_newline : bool) : W str :=
  let '(char, fg, bg) := c in
  let! a := opt_ansi e fg in
  let! b := opt_ansi e bg in
  let color := join (lit ";") (a ++ b) in
  retW ((match color with [] => char | _ => csi_m color ++ char ++ RESET end)
        ++ (if has_newline then [NL] else [])).

(** screen.py:246-304 *)
Fixpoint ocommit_row (e : env) (tb : ref) (row : list (option owcell)) (arow : list (list ref))
    (x y : Z) (cells : list (list ocell)) (buf : buffer) (n : Z) (w : world)
  : list (list ocell) * buffer * Z * world * option exn :=
  match row with
  | [] => (cells, buf, n, w, None)
  | None :: rest => ocommit_row e tb rest (tl arow) (x + 1) y cells buf n w
  | Some c :: rest =>
      match ofinish_cell tb c (hd [] arow) w with
      | (w, Err ex) => (cells, buf, n, w, Some ex)
      | (w, Ok (new, nl)) =>
          match mget cells x y with
          | None => (cells, buf, n, w, Some IndexError)
          | Some old =>
              if ocell_eqb w new old then ocommit_row e tb rest (tl arow) (x + 1) y cells buf n w
              else match ocell_entry e new nl w with
                   | (w, Err ex) => (mset cells x y new, buf, n, w, Some ex)
                   | (w, Ok entry) =>
                       ocommit_row e tb rest (tl arow) (x + 1) y (mset cells x y new)
                         (buf_set (x, y) entry buf) (n + 1) w
                   end
          end
      end
  end.
Fixpoint ocommit (e : env) (tb : ref) (wm : owmatrix) (am : oamatrix) (y : Z)
    (cells : list (list ocell)) (buf : buffer) (n : Z) (w : world)
  : list (list ocell) * buffer * Z * world * option exn :=
  match wm with
  | [] => (cells, buf, n, w, None)
  | row :: rest =>
      match ocommit_row e tb row (hd [] am) 0 y cells buf n w with
      | (cells, buf, n, w, Some ex) => (cells, buf, n, w, Some ex)
      | (cells, buf, n, w, None) => ocommit e tb rest (tl am) (y + 1) cells buf n w
      end
  end.

(** screen.py:158-304 write_bulk *)
Definition owrite_bulk (e : env) (s : oscreen) (data : list (pos * list ospan)) (tb : ref) (w : world)
  : oscreen * world * res Z :=
  let wd := sco_w s in let h := sco_h s in
  let st := mkOW (blank_matrix wd h None) (blank_matrix wd h []) (sco_cells s) (sco_off s) (w_chars w) in
  match oplace_all (w_objs w) wd h data st with
  | (st, Err x) =>
      (mkOScreen wd h (ow_cells st) (sco_buf s) (sco_cursor s) (ow_off st), set_chars (ow_cache st) w, Err x)
  | (st, Ok _) =>
      match ocommit e tb (ow_wm st) (ow_am st) 0 (ow_cells st) (sco_buf s) 0 (set_chars (ow_cache st) w) with
      | (cells, buf, n, w, ex) =>
          (mkOScreen wd h cells buf (sco_cursor s) (ow_off st), w,
           match ex with Some x => Err x | None => Ok n end)
      end
  end.

(** screen.py:86-134 *)
Definition ofill_row (w : Z) (fill : str) : list ocell := map (fun _ => (fill, None, None)) (range w).
Fixpoint ooverlay_row (new old : list ocell) : list ocell :=
  match new, old with
  | _ :: n, o :: r => o :: ooverlay_row n r
  | _, _ => new
  end.
Fixpoint ooverlay (new old : list (list ocell)) : list (list ocell) :=
  match new, old with
  | nr :: n, o :: r => ooverlay_row nr o :: ooverlay n r
  | _, _ => new
  end.
Definition oresize (s : oscreen) (size : Z * Z) (fill : str) (keep : bool) : oscreen :=
  let '(w, h) := size in
  let cells := map (fun _ => ofill_row w fill) (range h) in
  mkOScreen w h (if keep then ooverlay cells (sco_cells s) else cells)
    (fill_buffer w h fill (sco_buf s)) (sco_cursor s) (sco_off s).
Definition onew_screen (w h : Z) (cursor : pos) (fill : str) : oscreen :=
  oresize (mkOScreen w h [] [] cursor 0) (w, h) fill true.
Definition oclear (s : oscreen) (fill : str) : oscreen :=
  let s' := oresize s (sco_w s, sco_h s) fill false in
  mkOScreen (sco_w s') (sco_h s') (sco_cells s') (sco_buf s') (0, 0) (sco_off s').

(** screen.py:307-348 *)
Fixpoint oredraw_rows (x y : Z) (rows : list (list ocell)) : str :=
  match rows with
  | [] => []
  | row :: rest => cup x y ++ List.concat (map (fun c => fst (fst c)) row) ++ oredraw_rows x (y + 1) rest
  end.
Definition orender (s : oscreen) (origin : pos) (redraw : bool) : str * oscreen :=
  let s' := mkOScreen (sco_w s) (sco_h s) (sco_cells s) [] (sco_cursor s) (sco_off s) in
  let '(ox, oy) := origin in
  if redraw then (oredraw_rows ox oy (sco_cells s), s')
  else
    let buffer := render_items ox oy None (gather (sco_buf s)) in
    ((if endswith RESET buffer then buffer else buffer ++ RESET), s').

(** ** Programs *)
(** What a program can do with colors, spans and a screen.  Colors and spans it has made are
    numbered in the order of their making; a step that raises makes nothing. *)
Inductive cop :=
| CMake (d : description)                                   (* color(d) *)
| CAlpha (i : nat) (a : f64)                                (* as_alpha *)
| CShift (i : nat) (a : f64)                                (* hue_shift *)
| CBackground (i : nat) (setting : bool) (alpha : option f64)
| CBlend (i j : nat) (alpha : f64) (bg : option bool) (shape : Z)
| CLighten (i : nat) (n : Z) (step : f64)
| CDarken (i : nat) (n : Z) (step : f64)
| CComplement (i : nat)
| CContrast (i : nat)
| CBlendComplement (i : nat) (alpha : f64)
| CWhite (bg : bool)
| CBlack (bg : bool)
| CGroup (g : gkind) (i : nat) (k : nat).                    (* triadic_group[k] and so on *)

Inductive op :=
| OColor (c : cop)
| OLook (i : nat)                                           (* every field of a color *)
| OAnsi (i : nat)                                           (* color.ansi *)
| OSpan (text : str) (fg bg : option nat) (link : str) (f : flags) (reset : bool)
| OStr (k : nat)                                            (* str(span) *)
| OChars (k : nat) (exclude always : bool)                  (* span.get_characters *)
| OWrite (data : list (pos * list nat)) (tb : option nat)   (* screen.write_bulk *)
| OClear (fill : str)
| OResize (size : Z * Z)
| ORender (origin : pos) (redraw : bool)
| OSpace (c : colorspace).                                  (* terminal.color_space = c *)

(** What it sees *)
Inductive seen :=
| SColor (c : color) | SStr (s : str) | SStrs (l : list str) | SInt (n : Z) | SErr (x : exn) | SNone.

Record machine := mkMachine {
  m_world : world; m_colors : list ref; m_spans : list ospan; m_screen : oscreen; m_env : env
}.

(** A number no color has yet *)
Definition getc {A} (l : list A) (i : nat) : res A :=
  match nth_error l i with Some a => Ok a | None => Err IndexError end.
Definition getopt {A} (l : list A) (i : option nat) : res (option A) :=
  match i with None => Ok None | Some i => let* a := getc l i in Ok (Some a) end.
Fixpoint getall {A} (l : list A) (is : list nat) : res (list A) :=
  match is with
  | [] => Ok []
  | i :: r => let* a := getc l i in let* t := getall l r in Ok (a :: t)
  end.
Fixpoint getdata {A} (l : list A) (d : list (pos * list nat)) : res (list (pos * list A)) :=
  match d with
  | [] => Ok []
  | (p, is) :: r => let* a := getall l is in let* t := getdata l r in Ok ((p, a) :: t)
  end.

Definition run_cop (e : env) (colors : list ref) (c : cop) : W ref :=
  match c with
  | CMake d => alloc (color_of d)
  | CAlpha i a => let! r := liftW (getc colors i) in fun w => alloc (as_alpha (val w r) a) w
  | CShift i a => let! r := liftW (getc colors i) in fun w => alloc (hue_shift (val w r) a) w
  | CBackground i b a => let! r := liftW (getc colors i) in oas_background r b a
  | CBlend i j a bg sh =>
      let! r := liftW (getc colors i) in let! q := liftW (getc colors j) in oblend r q a bg sh
  | CLighten i n st => let! r := liftW (getc colors i) in olighten r n st
  | CDarken i n st => let! r := liftW (getc colors i) in odarken r n st
  | CComplement i => let! r := liftW (getc colors i) in ocomplement r
  | CContrast i => let! r := liftW (getc colors i) in ocontrast e r
  | CBlendComplement i a => let! r := liftW (getc colors i) in oblend_complement r a
  | CWhite b => owhite b
  | CBlack b => oblack b
  | CGroup g i k =>
      let! r := liftW (getc colors i) in let! ks := ogroup g r in liftW (getc ks k)
  end.

Definition ostep (o : op) (m : machine) : machine * seen :=
  let '(mkMachine w cs ss sc e) := m in
  match o with
  | OColor c =>
      match run_cop e cs c w with
      | (w, Ok r) => (mkMachine w (cs ++ [r]) ss sc e, SNone)
      | (w, Err x) => (mkMachine w cs ss sc e, SErr x)
      end
  | OLook i =>
      (m, match getc cs i with Ok r => SColor (val w r) | Err x => SErr x end)
  | OAnsi i =>
      match getc cs i with
      | Err x => (m, SErr x)
      | Ok r => match oansi e r w with
                | (w, Ok a) => (mkMachine w cs ss sc e, SStr a)
                | (w, Err x) => (mkMachine w cs ss sc e, SErr x)
                end
      end
  | OSpan t fg bg l f rs =>
      match (let! a := liftW (getopt cs fg) in
             let! b := liftW (getopt cs bg) in new_span e t a b l f rs) w with
      | (w, Ok s) => (mkMachine w cs (ss ++ [s]) sc e, SNone)
      | (w, Err x) => (mkMachine w cs ss sc e, SErr x)
      end
  | OStr k => (m, match getc ss k with Ok s => SStr (os_computed s) | Err x => SErr x end)
  | OChars k ex al =>
      match getc ss k with
      | Err x => (m, SErr x)
      | Ok s => let '(l, c) := ocharacters (w_objs w) (w_chars w) s ex al in
                (mkMachine (set_chars c w) cs ss sc e, SStrs l)
      end
  | OWrite d tb =>
      match getdata ss d, getopt cs tb with
      | Err x, _ => (m, SErr x)
      | _, Err x => (m, SErr x)
      | Ok data, Ok t =>
          let '(sc, w, r) :=
            owrite_bulk e sc data (match t with Some t => t | None => BLACK_REF end) w in
          (mkMachine w cs ss sc e, match r with Ok n => SInt n | Err x => SErr x end)
      end
  | OClear fill => (mkMachine w cs ss (oclear sc fill) e, SNone)
  | OResize sz => (mkMachine w cs ss (oresize sc sz (lit " ") true) e, SNone)
  | ORender p rd => let '(t, sc) := orender sc p rd in (mkMachine w cs ss sc e, SStr t)
  | OSpace c => (mkMachine w cs ss sc {| env_cs := c; env_pow := env_pow e |}, SNone)
  end.
Fixpoint orun (l : list op) (m : machine) : machine * list seen :=
  match l with
  | [] => (m, [])
  | o :: r => let '(m, a) := ostep o m in let '(m, t) := orun r m in (m, a :: t)
  end.
Definition machine0 (e : env) (w h : Z) : machine :=
  mkMachine world0 [] [] (onew_screen w h (0, 0) (lit " ")) e.
