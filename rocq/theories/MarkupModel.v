(** experiments/markup.py: spans from a markup language.  Definitions only (no proofs).
    Its tables COLOR_TABLE and CSS_COLORS (experiments/color_info.py) are those of slate/color_info.py. *)
From Coq Require Import ZArith List Bool String.
From Verif Require Import PyBase F64 SpaceModel ColorTab ColorModel SpanModel ShowModel.
Import ListNotations.
Open Scope Z_scope.
Open Scope list_scope.

(** * RE_MARKUP (markup.py:13) and [finditer] *)

(** the class [^\]\[]: the text of a match is the longest possible one *)
Definition bracket (c : Z) : bool := (c =? 91) || (c =? 93).
Fixpoint run (s : str) : str * str :=
  match s with
  | c :: t => if bracket c then ([], s) else let '(p, rest) := run t in (c :: p, rest)
  | [] => ([], [])
  end.
(** ([^\]\[]+)(?=\[|$) at the head of the string.  A shorter run is followed by a character that is no
    bracket, or by a last line break, and then the longest one reaches the end. *)
Definition plain_here (s : str) : option (str * str) :=
  let '(p, rest) := run s in
  match p with
  | [] => None
  | _ :: _ => match rest with
              | [] => Some (p, rest)
              | c :: _ => if c =? 91 then Some (p, rest) else None
              end
  end.
(** (.+?)\] and the text after it, the shortest tags first; [acc]: the tags so far *)
Fixpoint lazy_tags (acc s : str) : option (str * str * str) :=
  match s with
  | [] => None
  | c :: t =>
      match (if (c =? 93) && negb (str_eqb acc []) then plain_here t else None) with
      | Some (p, rest) => Some (acc, p, rest)
      | None => if c =? NL then None else lazy_tags (acc ++ [c]) t
      end
  end.
(** the whole pattern at the head of the string: tags, text, what follows.  At a bracket the optional group
    cannot be left out, because the text does not start with one. *)
Definition match_at (s : str) : option (option str * str * str) :=
  match s with
  | [] => None
  | c :: t =>
      if c =? 91
      then match lazy_tags [] t with Some (g, p, rest) => Some (Some g, p, rest) | None => None end
      else match plain_here s with Some (p, rest) => Some (None, p, rest) | None => None end
  end.
(** [RE_MARKUP.finditer]: matches are not empty, so the length of the string bounds the steps *)
Fixpoint finditer (fuel : nat) (s : str) : list (option str * str) :=
  match fuel, s with
  | O, _ | _, [] => []
  | S f, _ :: t =>
      match match_at s with
      | Some (g, p, rest) => (g, p) :: finditer f rest
      | None => finditer f t
      end
  end.
Definition matches (s : str) : list (option str * str) := finditer (List.length s) s.

(** [s.split()]; [cur]: the word so far *)
Fixpoint split_space (cur s : str) : list str :=
  match s with
  | [] => match cur with [] => [] | _ => [cur] end
  | c :: t =>
      if is_space c then match cur with [] => split_space [] t | _ => cur :: split_space [] t end
      else split_space (cur ++ [c]) t
  end.

(** * Colors *)

(** markup.py:19-21, [RE_COLOR.match].  Simplification: a $ before a last line break is left out; words have
    no white space. *)
Definition optional (c : Z) (s : str) : str := match s with a :: t => if a =? c then t else s | [] => s end.
Fixpoint decimals (s : str) : nat * str :=
  match s with
  | c :: t => if is_decimal c then let '(n, rest) := decimals t in (S n, rest) else (O, s)
  | [] => (O, [])
  end.
Definition hex_char (c : Z) : bool := is_digit c || ((97 <=? c) && (c <=? 102)) || ((65 <=? c) && (c <=? 70)).
Definition re_256 (s : str) : bool :=
  let '(n, rest) := decimals (optional 64 s) in
  match rest with [] => (1 <=? n)%nat && (n <=? 3)%nat | _ => false end.
Definition re_hex (s : str) : bool :=
  let s := optional 35 (optional 64 s) in
  (6 <=? List.length s)%nat && forallb hex_char (firstn 6 s).
(** \d{1,3}; and what follows *)
Definition re_channel (s : str) : option str :=
  let '(n, rest) := decimals s in
  match rest with
  | c :: t => if (c =? 59) && (1 <=? n)%nat && (n <=? 3)%nat then Some t else None
  | [] => None
  end.
Definition re_rgb (s : str) : bool :=
  match re_channel (optional 64 s) with
  | Some t => match re_channel t with Some u => (1 <=? fst (decimals u))%nat | None => false end
  | None => false
  end.
Definition re_color (s : str) : bool := re_256 s || re_hex s || re_rgb s.

(** experiments/color_info.py:261-409: the named colors without Slate's own four *)
Definition CSS_COLORS : list (str * str) := firstn 147 NAMED_COLORS.
Definition in_css (s : str) : bool := match dict_get CSS_COLORS s with Some _ => true | None => false end.

(** markup.py:109-142 *)
Definition parse_color (color : str) : res str :=
  let background := if startswith (lit "@") color then 10 else 0 in
  let color := lstrip_by (Z.eqb 64) color in
  if isdigit color then
    let* index := py_int color in
    if (0 <=? index) && (index <? 8) then Ok (dec (30 + background + index))
    else if (8 <=? index) && (index <? 16) then Ok (dec (80 + background + (index + 2)))
    else if index <? 256 then Ok (dec (38 + background) ++ lit ";5;" ++ dec index)
    else Err ValueError
  else
    let color := match dict_get CSS_COLORS color with Some h => h | None => color end in
    let* color :=
      if startswith (lit "#") color then
        let color := lstrip_by (Z.eqb 35) color in
        let* r := py_int16 (slice None (Some 2) color) in
        let* g := py_int16 (slice (Some 2) (Some 4) color) in
        let* b := py_int16 (slice (Some 4) None color) in
        Ok (join (lit ";") [dec r; dec g; dec b])
      else Ok color in
    Ok (dec (38 + background) ++ lit ";2;" ++ color).

(** markup.py:30-66, 68-106: [Color.from_ansi(ansi).contrast.ansi].  The channels of a color given by four or
    more parts are strings, read by [float].  Simplification: of the exceptions, that of an overflowing power is
    left out. *)
Definition float_luminance (e : env) (r g b : f64) : f64 :=
  let l v := linearize e (fdiv v (fofZ 255)) in
  fadd (fadd (fmul (flit 2126 10000) (l r)) (fmul (flit 7152 10000) (l g))) (fmul (flit 722 10000) (l b)).
Definition channels (ansi : str) : res (f64 * f64 * f64) :=
  let parts := split_on 59 ansi in
  if 3 <? zlen parts then
    let channel i := match nth_error parts i with Some t => py_float t | None => Err IndexError end in
    let* r := channel 2%nat in let* g := channel 3%nat in let* b := channel 4%nat in Ok (r, g, b)
  else
    let* index := py_int (last_of parts) in
    let index :=
      if zlen parts =? 1 then
        let index := if (30 <=? index) && (index <? 38) then index - 30
                     else if (40 <=? index) && (index <? 48) then index - 40 else index in
        if (90 <=? index) && (index <? 98) then index - 82
        else if (100 <=? index) && (index <? 108) then index - 92 else index
      else index in
    match (if 0 <=? index then nth_error COLOR_TABLE (Z.to_nat index) else None) with
    | Some (r, g, b) => Ok (fofZ r, fofZ g, fofZ b)
    | None => Err IndexError
    end.
Definition contrast_ansi (e : env) (ansi : str) : res str :=
  let* (r, g, b) := channels ansi in
  Ok (if fltb (flit 179 1000) (float_luminance e r g b) then lit "38;2;35;35;35" else lit "38;2;245;245;245").

(** * The generator *)

(** markup.py:160: the dictionary of styles.  A color is a string; the tags "foreground" and "background"
    make it a boolean once it is there. *)
Inductive setting := SStr (s : str) | SBool (b : bool).
Record stack := mkStack { st_flags : flags; st_fg : option setting; st_bg : option setting }.
Definition stack0 : stack := mkStack no_flags None None.
Definition set_fg (v : option setting) (st : stack) : stack := mkStack (st_flags st) v (st_bg st).
Definition set_bg (v : option setting) (st : stack) : stack := mkStack (st_flags st) (st_fg st) v.
Definition set_style (k : flag) (v : bool) (st : stack) : stack := mkStack (set_flag k v (st_flags st)) (st_fg st) (st_bg st).
Definition is_set {A} (o : option A) : bool := match o with Some _ => true | None => false end.
Definition style_named (tag : str) : option flag := find (fun k => str_eqb (field_name k) tag) all_flags.

(** what a run of the generator does: printing the message about an unknown tag, yielding a span *)
Inductive event := Unknown (tag : str) | Yield (s : span).

(** markup.py:168-186: the tags of one match *)
Fixpoint tag_loop (words : list str) (st : stack) : list event * res stack :=
  match words with
  | [] => ([], Ok st)
  | w :: rest =>
      let unsetter := startswith (lit "/") w in
      let tag := lstrip_by (Z.eqb 47) w in
      if re_color tag || in_css (lstrip_by (Z.eqb 64) tag) then
        match parse_color tag with
        | Err x => ([], Err x)
        | Ok v => tag_loop rest (if startswith (lit "@") tag then set_bg (Some (SStr v)) st else set_fg (Some (SStr v)) st)
        end
      else if unsetter && str_eqb tag (lit "fg") then tag_loop rest (set_fg (Some (SStr [])) st)
      else if unsetter && str_eqb tag (lit "bg") then tag_loop rest (set_bg (Some (SStr [])) st)
      else match style_named tag with
           | Some k => tag_loop rest (set_style k (negb unsetter) st)
           | None =>
               if str_eqb tag (lit "foreground") && is_set (st_fg st)
               then tag_loop rest (set_fg (Some (SBool (negb unsetter))) st)
               else if str_eqb tag (lit "background") && is_set (st_bg st)
               then tag_loop rest (set_bg (Some (SBool (negb unsetter))) st)
               else let '(evs, r) := tag_loop rest st in (Unknown tag :: evs, r)
           end
  end.

(** markup.py:145-156 *)
Definition apply_auto_foreground (e : env) (st : stack) : res (bool * stack) :=
  let '(back, fore) := if get_flag FInvert (st_flags st) then (st_fg st, st_bg st) else (st_bg st, st_fg st) in
  match fore, back with
  | None, Some (SStr ansi) => let* c := contrast_ansi e ansi in Ok (true, set_fg (Some (SStr c)) st)
  | None, Some (SBool _) => Err AttributeError
  | _, _ => Ok (false, st)
  end.

(** markup.py:190, [Span(plain, style_stack)]: span.py:306-310 asks a color that is not None for its [ansi],
    which neither a string nor a boolean has *)
Definition span_of_stack (plain : str) (st : stack) : res span :=
  match st_fg st, st_bg st with
  | None, None => Ok (mkSpan plain None None [] (st_flags st) true)
  | _, _ => Err AttributeError
  end.

(** markup.py:159-193: what happens in the order it happens, and the exception that ended it *)
Fixpoint markup_loop (e : env) (ms : list (option str * str)) (st : stack) : list event * option exn :=
  match ms with
  | [] => ([], None)
  | (tags, plain) :: rest =>
      let '(evs, r) := tag_loop (split_space [] (match tags with Some t => t | None => [] end)) st in
      match (let* st := r in
             let* (delete, st) := apply_auto_foreground e st in
             let* s := span_of_stack plain st in
             Ok (s, if delete : bool then set_fg None st else st)) with
      | Err x => (evs, Some x)
      | Ok (s, st) => let '(evs', x) := markup_loop e rest st in (evs ++ Yield s :: evs', x)
      end
  end.
Definition styled_from_markup (e : env) (markup : str) : list event * option exn := markup_loop e (matches markup) stack0.

(** markup.py:196-197, the text [mprint] prints after the messages; an exception in the generator comes first *)
Definition yielded (evs : list event) : list span :=
  flat_map (fun v => match v with Yield s => [s] | Unknown _ => [] end) evs.
Definition mprint (e : env) (markup : str) : res str :=
  match styled_from_markup e markup with
  | (_, Some x) => Err x
  | (evs, None) => Ok (flat_map (span_str e) (yielded evs) ++ [NL])
  end.
