(** span.py.  Definitions only (no proofs). *)
From Coq Require Import ZArith List Bool String.
From Verif Require Import PyBase F64 SpaceModel ColorTab ColorModel AnsiRe.
Open Scope Z_scope.

(** span.py:230-239: the ten style flags *)
Record flags := mkFlags {
  fl_bold : bool; fl_dim : bool; fl_italic : bool; fl_underline : bool; fl_blink : bool;
  fl_fast_blink : bool; fl_invert : bool; fl_conceal : bool; fl_strike : bool; fl_opaque : bool
}.

Inductive flag :=
| FBold | FDim | FItalic | FUnderline | FBlink | FFastBlink | FInvert | FConceal | FStrike
| FOpaque.

Definition all_flags : list flag :=
  [FBold; FDim; FItalic; FUnderline; FBlink; FFastBlink; FInvert; FConceal; FStrike; FOpaque].

Definition get_flag (k : flag) (f : flags) : bool :=
  match k with
  | FBold => fl_bold f | FDim => fl_dim f | FItalic => fl_italic f
  | FUnderline => fl_underline f | FBlink => fl_blink f | FFastBlink => fl_fast_blink f
  | FInvert => fl_invert f | FConceal => fl_conceal f | FStrike => fl_strike f
  | FOpaque => fl_opaque f
  end.

Definition set_flag (k : flag) (v : bool) (f : flags) : flags :=
  let '(mkFlags a b c d e g h i j o) := f in
  match k with
  | FBold => mkFlags v b c d e g h i j o
  | FDim => mkFlags a v c d e g h i j o
  | FItalic => mkFlags a b v d e g h i j o
  | FUnderline => mkFlags a b c v e g h i j o
  | FBlink => mkFlags a b c d v g h i j o
  | FFastBlink => mkFlags a b c d e v h i j o
  | FInvert => mkFlags a b c d e g v i j o
  | FConceal => mkFlags a b c d e g h v j o
  | FStrike => mkFlags a b c d e g h i v o
  | FOpaque => mkFlags a b c d e g h i j v
  end.

Definition no_flags : flags :=
  mkFlags false false false false false false false false false false.

(** span.py:14-25 SETTERS *)
Definition setter (k : flag) : str :=
  match k with
  | FBold => lit "1" | FDim => lit "2" | FItalic => lit "3" | FUnderline => lit "4"
  | FBlink => lit "5" | FFastBlink => lit "6" | FInvert => lit "7" | FConceal => lit "8"
  | FStrike => lit "9" | FOpaque => lit "99"
  end.

(** span.py:27 SETTERS_TO_STYLES *)
Definition SETTERS_TO_STYLES : list (str * flag) := map (fun k => (setter k, k)) all_flags.

(** span.py:29-42 UNSETTERS; a key is an attribute of Span, or not one ([UBad]) *)
Inductive unset_key := UFlag (k : flag) | UForeground | UBackground | UBad.
(** span.py:44 UNSETTERS_TO_STYLES (value -> key, in source order: for "22" bold wins) *)
Definition UNSETTERS_TO_STYLES : list (str * unset_key) :=
  [ (lit "22", UFlag FDim); (lit "22", UFlag FBold); (lit "23", UFlag FItalic);
    (lit "24", UFlag FUnderline); (lit "25", UFlag FBlink);
    (lit "26", UBad (* blink2 *)); (lit "27", UFlag FInvert);
    (lit "28", UBad (* invisible *)); (lit "29", UBad (* strikethrough *));
    (lit "39", UForeground); (lit "49", UBackground); (lit "54", UBad (* overline *)) ].

(** span.py:216-240: the init fields of the frozen dataclass [Span].  The computed fields
    (span.py:242-257) are the functions [span_sequences], [span_str] below. *)
Record span := mkSpan {
  s_text : str;
  s_fg : option color;
  s_bg : option color;
  s_link : str;
  s_flags : flags;
  s_reset : bool
}.

(** [Span(text)] *)
Definition plain_span (t : str) : span := mkSpan t None None [] no_flags true.
(** span.py:626 *)
Definition EMPTY_SPAN : span := plain_span [].

Definition is_semicolon (c : Z) : bool := c =? 59.

(** "\x1b[{body}m" *)
Definition csi_m (body : str) : str := [ESC; 91] ++ body ++ [109].
Definition RESET : str := csi_m (lit "0").

(** span.py:294-302: setters in field order, each followed by ";", stripped of ";" *)
Definition colorless_body (f : flags) : str :=
  strip_by is_semicolon
    (flat_map (fun k => if get_flag k f then setter k ++ lit ";" else []) all_flags).

Definition opt_list {A} (o : option A) : list A := match o with Some a => [a] | None => [] end.

(** span.py:304-315 *)
Definition total_body (e : env) (s : span) : str :=
  let colors := map (color_ansi e) (opt_list (s_fg s)) ++ map (color_ansi e) (opt_list (s_bg s)) in
  let total := join (lit ";") colors in
  let colorless := colorless_body (s_flags s) in
  match colorless with
  | [] => total
  | _ => total ++ (if zlen total =? 0 then [] else lit ";") ++ colorless
  end.

Definition csi_or_empty (body : str) : str :=
  match body with [] => [] | _ => csi_m body end.

(** span.py:291-320: (_sequences, _colorless_sequences) *)
Definition span_sequences (e : env) (s : span) : str := csi_or_empty (total_body e s).
Definition span_colorless (s : span) : str := csi_or_empty (colorless_body (s_flags s)).

(** span.py:246-260: __post_init__ and __str__ *)
Definition link_open (url : str) : str := [ESC] ++ lit "]8;;" ++ url ++ [ESC; 92].
Definition span_str (e : env) (s : span) : str :=
  let sequences := span_sequences e s in
  let reset_end := if s_reset s && negb (str_eqb sequences []) then RESET else [] in
  let combined := sequences ++ s_text s ++ reset_end in
  if str_eqb (s_link s) [] then combined
  else link_open (s_link s) ++ combined ++ link_open [].

(** span.py:262-266 *)
Definition span_len (s : span) : Z := zlen (s_text s).
Definition span_contains (t : str) (s : span) : bool := contains t (s_text s).

(** span.py:551-557 mutate: [attrs] does not contain reset_after, so it falls back to its
    default True unless passed. *)
Inductive mopt :=
| MText (t : str) | MFg (c : option color) | MBg (c : option color) | MLink (l : str)
| MFlag (k : flag) (v : bool) | MReset (b : bool).

Definition apply_mopt (s : span) (o : mopt) : span :=
  match o with
  | MText t => mkSpan t (s_fg s) (s_bg s) (s_link s) (s_flags s) (s_reset s)
  | MFg c => mkSpan (s_text s) c (s_bg s) (s_link s) (s_flags s) (s_reset s)
  | MBg c => mkSpan (s_text s) (s_fg s) c (s_link s) (s_flags s) (s_reset s)
  | MLink l => mkSpan (s_text s) (s_fg s) (s_bg s) l (s_flags s) (s_reset s)
  | MFlag k v => mkSpan (s_text s) (s_fg s) (s_bg s) (s_link s) (set_flag k v (s_flags s)) (s_reset s)
  | MReset b => mkSpan (s_text s) (s_fg s) (s_bg s) (s_link s) (s_flags s) b
  end.

Definition mutate (s : span) (opts : list mopt) : span :=
  fold_left apply_mopt opts
    (mkSpan (s_text s) (s_fg s) (s_bg s) (s_link s) (s_flags s) true).

(** span.py:268-269 __getitem__ *)
Definition span_slice (s : span) (a b : option Z) : span := mutate s [MText (slice a b (s_text s))].
Definition span_index (s : span) (i : Z) : res span :=
  let* c := index i (s_text s) in Ok (mutate s [MText c]).

(** [list(span)]: Span has no __iter__, so iteration calls [span[0]], [span[1]], ... until
    IndexError *)
Definition span_iter (s : span) : list span := map (fun c => mutate s [MText [c]]) (s_text s).

(** span.py:559-562 *)
Definition span_split (s : span) (sep : str) : res (list span) :=
  let* parts := split_str sep (s_text s) in Ok (map (fun p => mutate s [MText p]) parts).

(** span.py:564-573 *)
Definition as_color (s : span) (c : color) : span :=
  if c_bg c then mutate s [MBg (Some c)] else mutate s [MFg (Some c)].
Definition as_color_desc (s : span) (d : description) : res span :=
  let* c := color_of d in Ok (as_color s c).

(** span.py:575-623 *)
Definition as_flag (k : flag) (s : span) (v : bool) : span := mutate s [MFlag k v].
Definition as_hyperlink (s : span) (l : str) : span := mutate s [MLink l].

(** Dataclass equality of two spans made in environment [e] (span.py:216): all fields,
    including the computed strings. *)
Definition opt_color_eqb (a b : option color) : bool :=
  match a, b with
  | None, None => true
  | Some x, Some y => color_eqb x y
  | _, _ => false
  end.
Definition flags_eqb (a b : flags) : bool :=
  forallb (fun k => Bool.eqb (get_flag k a) (get_flag k b)) all_flags.
Definition span_eqb (e : env) (a b : span) : bool :=
  str_eqb (s_text a) (s_text b) && opt_color_eqb (s_fg a) (s_fg b)
  && opt_color_eqb (s_bg a) (s_bg b) && str_eqb (s_link a) (s_link b)
  && flags_eqb (s_flags a) (s_flags b) && Bool.eqb (s_reset a) (s_reset b)
  && str_eqb (span_str e a) (span_str e b)
  && str_eqb (span_sequences e a) (span_sequences e b)
  && str_eqb (span_colorless a) (span_colorless b).

(** span.py:322-341: equality of two [attrs] dicts, and of two [attrs | {"text": ""}] dicts *)
Definition style_attrs_eqb (a b : span) : bool :=
  opt_color_eqb (s_fg a) (s_fg b) && opt_color_eqb (s_bg a) (s_bg b)
  && str_eqb (s_link a) (s_link b) && flags_eqb (s_flags a) (s_flags b).
Definition attrs_eqb (a b : span) : bool :=
  str_eqb (s_text a) (s_text b) && style_attrs_eqb a b.

(** span.py:105-111 *)
Definition is_background_color (body : str) : bool :=
  startswith (lit "4") body || (startswith (lit "10") body && (2 <? zlen body)).

(** span.py:114-145.  [IndexError] for parts[1] of a body without ";" (never reached from
    the parser). *)
Definition is_valid_color (body : str) : res bool :=
  if isdigit body then
    let* index := py_int body in
    if (30 <=? index) && (index <=? 49) && negb ((index =? 38) || (index =? 48)) then Ok true
    else if ((90 <=? index) && (index <=? 97)) || ((100 <=? index) && (index <=? 107)) then Ok true
    else Ok false
  else
    let parts := split_on 59 body in
    match nth_error parts 1 with
    | None => Err IndexError
    | Some p1 =>
        if str_eqb p1 (lit "2") then Ok ((zlen parts =? 5) || (zlen parts =? 6))
        else if str_eqb p1 (lit "5") then Ok ((zlen parts =? 3) || (zlen parts =? 4))
        else Ok false
    end.

(** The [options] dict filled by the parser: the recognised keys, and whether a key that is
    not an argument of Span (blink2, invisible, strikethrough, overline) was set. *)
Record options := mkOptions {
  o_fg : option color; o_bg : option color; o_flags : flags; o_bad : bool
}.
Definition no_options : options := mkOptions None None no_flags false.

Definition starts_color (part : str) : res bool :=      (* span.py:165-169 *)
  if isdigit part then
    let* n := py_int part in
    Ok ((((30 <=? n) && (n <? 49)) || ((90 <=? n) && (n <? 108)))
        && negb (str_in part [lit "39"; lit "49"]))
  else Ok false.

(** span.py:148-213.  Result: the options as left by the loop, and the unparseable part if
    any, or the exception raised.  The condition on line 176, [len(parts) >= i or ...], is
    always true since i < len(parts). *)
Fixpoint parse_parts (parts : list str) (in_color : bool) (buf : str) (o : options)
  : options * res (option str) :=
  match parts with
  | [] => (o, Ok None)
  | part :: rest =>
      match starts_color part with
      | Err x => (o, Err x)
      | Ok sc =>
          if in_color || sc then
            let buf := buf ++ part in
            match is_valid_color buf with
            | Err x => (o, Err x)
            | Ok true =>
                match from_ansi buf fone with
                | Err x => (o, Err x)
                | Ok c =>
                    let o' := if is_background_color buf
                              then mkOptions (o_fg o) (Some c) (o_flags o) (o_bad o)
                              else mkOptions (Some c) (o_bg o) (o_flags o) (o_bad o) in
                    parse_parts rest false [] o'
                end
            | Ok false => parse_parts rest true (buf ++ lit ";") o
            end
          else
            match dict_get SETTERS_TO_STYLES part with
            | Some k =>
                parse_parts rest in_color buf
                  (mkOptions (o_fg o) (o_bg o) (set_flag k true (o_flags o)) (o_bad o))
            | None =>
                match dict_get UNSETTERS_TO_STYLES part with
                | Some UForeground =>
                    parse_parts rest in_color buf
                      (mkOptions None (o_bg o) (o_flags o) (o_bad o))
                | Some UBackground =>
                    parse_parts rest in_color buf
                      (mkOptions (o_fg o) None (o_flags o) (o_bad o))
                | Some (UFlag k) =>
                    let f := set_flag k false (o_flags o) in
                    let f := match k with FBold => set_flag FDim false f | _ => f end in
                    parse_parts rest in_color buf (mkOptions (o_fg o) (o_bg o) f (o_bad o))
                | Some UBad =>
                    parse_parts rest in_color buf
                      (mkOptions (o_fg o) (o_bg o) (o_flags o) true)
                | None => (o, Ok (Some part))
                end
            end
      end
  end.
Definition parse_sequence (seq : str) (o : options) : options * res (option str) :=
  parse_parts (split_on 59 seq) false [] o.

(** [Span(plain, **options)] *)
Definition span_of_options (plain : str) (o : options) : res span :=
  if o_bad o then Err TypeError
  else Ok (mkSpan plain (o_fg o) (o_bg o) [] (o_flags o) true).

(** span.py:353-361: the loop over the matches: spans yielded, end offset of the last match
    processed, and the exception that stopped it, if any *)
Fixpoint yield_loop (ms : list (str * str * Z)) (o : options) (idx : Z)
  : list span * Z * option exn :=
  match ms with
  | [] => ([], idx, None)
  | (seq, plain, stop) :: rest =>
      match parse_sequence seq o with
      | (_, Err x) => ([], stop, Some x)
      | (_, Ok (Some _)) => ([], stop, Some ValueError)
      | (o', Ok None) =>
          match span_of_options plain o' with
          | Err x => ([], stop, Some x)
          | Ok s =>
              let '(ss, i, x) := yield_loop rest o' stop in (s :: ss, i, x)
          end
      end
  end.

Definition is_esc (c : Z) : bool := c =? ESC.

(** span.py:343-366: the spans yielded, and the exception that ends the generator, if any *)
Definition yield_from (line : str) : list span * option exn :=
  let line := if endswith [ESC] line then line else line ++ [ESC] in
  let '(ss, idx, x) := yield_loop (finditer line) no_options 0 in
  match x with
  | Some _ => (ss, x)
  | None =>
      let line := rstrip_by is_esc line in
      if idx <? zlen line then (ss ++ [plain_span (slice (Some idx) None line)], None)
      else (ss, None)
  end.

(** [list(Span.yield_from(line))] *)
Definition parse_line (line : str) : res (list span) :=
  match yield_from line with
  | (ss, None) => Ok ss
  | (_, Some x) => Err x
  end.

(** span.py:368-375 first_from *)
Definition first_from (line : str) : res (option span) :=
  match yield_from line with
  | (s :: _, _) => Ok (Some s)
  | ([], Some x) => Err x
  | ([], None) => Ok None
  end.

(** A screen cell, screen.py:78 *)
Definition cell := (str * option color * option color)%type.

(** span.py:377-416 group.  [gempty]: the object is EMPTY_SPAN itself ([is] test on 408).
    The [attrs] variable always is the style of [group] (or of EMPTY_SPAN at the start). *)
Fixpoint group_loop (e : env) (line : list cell) (group : span) (gempty : bool) (attrs : span)
    (prev_str : str) : res (list span) :=
  match line with
  | [] => Ok [group]
  | (char, fg, bg) :: rest =>
      if str_eqb char prev_str then
        let* lst := index (-1) char in
        group_loop e rest (mutate group [MText (s_text group ++ lst)]) false attrs prev_str
      else
        let* f := first_from char in
        let span := match f with Some s => s | None => EMPTY_SPAN end in
        let span := mutate span [MFg fg; MBg bg] in
        if style_attrs_eqb span attrs then
          group_loop e rest (mutate group [MText (s_text group ++ s_text span)]) false attrs prev_str
        else
          let* r := group_loop e rest span false span (span_str e (mutate span [MReset false])) in
          Ok (if gempty then r else group :: r)
  end.
Definition group (e : env) (line : list cell) : res (list span) :=
  group_loop e line EMPTY_SPAN true EMPTY_SPAN [].

(** span.py:418-451 get_characters, uncached *)
Fixpoint chars_init (seqs : str) (always : bool) (init : str) : list str * str :=
  match init with
  | [] => ([], seqs)
  | c :: t => let '(l, r) := chars_init (if always then seqs else []) always t in
              ((seqs ++ [c]) :: l, r)
  end.
Definition get_characters (e : env) (s : span) (exclude_color always : bool) : list str :=
  let sequences := if exclude_color then span_colorless s else span_sequences e s in
  let '(chars, remaining) := chars_init sequences always (removelast (s_text s)) in
  match rev (s_text s) with
  | [] => chars
  | lst :: _ =>
      chars ++ [ if negb (str_eqb sequences []) && s_reset s
                 then remaining ++ [lst] ++ RESET
                 else [lst] ]
  end.

(** html.escape (quote=True), and span.py:89-92 *)
Definition html_escape (s : str) : str :=
  replace (lit "'") (lit "&#x27;")
    (replace (lit """") (lit "&quot;")
       (replace (lit ">") (lit "&gt;")
          (replace (lit "<") (lit "&lt;")
             (replace (lit "&") (lit "&amp;") s)))).
Definition escape_html (s : str) : str := replace (lit " ") (lit "&#160;") (html_escape s).

(** span.py:95-102 *)
Definition is_block (s : str) : bool := forallb (fun c => (9600 <=? c) && (c <=? 9631)) s.

(** Dict update preserving first insertion order *)
Fixpoint dict_set {A} (k : str) (v : A) (d : list (str * A)) : list (str * A) :=
  match d with
  | [] => [(k, v)]
  | (k', v') :: r => if str_eqb k' k then (k', v) :: r else (k', v') :: dict_set k v r
  end.

(** span.py:60-67 STYLE_TO_CSS restricted to the keys [attrs] has *)
Definition style_to_css (k : flag) : option (str * str) :=
  match k with
  | FBold => Some (lit "font-weight", lit "bold")
  | FItalic => Some (lit "font-style", lit "italic")
  | FDim => Some (lit "opacity", lit "0.7")
  | FUnderline => Some (lit "text-decoration", lit "underline")
  | _ => None
  end.

(** span.py:453-472, walking [attrs] in its order: the flags, foreground, background *)
Definition get_svg_styles (s : span) : list (str * str) :=
  let css := fold_left
    (fun d k => if get_flag k (s_flags s)
                then match style_to_css k with Some (a, b) => dict_set a b d | None => d end
                else d) all_flags [] in
  let inv := fl_invert (s_flags s) in
  let css := match s_fg s with
             | Some c => if inv then css else dict_set (lit "fill") (color_hex c) css
             | None => css end in
  match s_bg s with
  | Some c => if inv then dict_set (lit "fill") (color_hex c) css else css
  | None => css
  end.

(** span.py:474-549 as_svg.  The numbers are given already formatted (float arithmetic,
    [round] and float formatting are not modelled): x, the two y, width and height. *)
Record svg_numbers := { sv_x : str; sv_yrect : str; sv_width : str; sv_height : str; sv_ytext : str }.
Definition quoted (name v : str) : str := lit " " ++ name ++ lit "='" ++ v ++ lit "'".
Definition css_inline (d : list (str * str)) : str :=
  join (lit "; ") (map (fun kv => fst kv ++ lit ":" ++ snd kv) d).
Definition svg_colors (s : span) (dfg dbg : color) : color * color :=
  let fg := match s_fg s with Some c => c | None => dfg end in
  let bg := match s_bg s with Some c => c | None => dbg end in
  if fl_invert (s_flags s) then (bg, fg) else (fg, bg).
Definition as_svg (s : span) (n : svg_numbers) (dfg dbg : color) (inline : bool) (cls : option str)
  : str :=
  let '(fg, bg) := svg_colors s dfg dbg in
  lit "<rect" ++ quoted (lit "x") (sv_x n) ++ quoted (lit "y") (sv_yrect n)
  ++ quoted (lit "fill") (color_hex bg) ++ quoted (lit "width") (sv_width n)
  ++ quoted (lit "height") (sv_height n) ++ lit "></rect>"
  ++ lit "<text  dy='-0.25em'" ++ quoted (lit "x") (sv_x n) ++ quoted (lit "y") (sv_ytext n)
  ++ quoted (lit "fill") (color_hex fg)
  ++ (if inline then quoted (lit "styles") (css_inline (get_svg_styles s)) else [])
  ++ (match cls with Some c => quoted (lit "class") c | None => [] end)
  ++ lit ">" ++ escape_html (s_text s) ++ lit "</text>".
