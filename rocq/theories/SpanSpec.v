(** Specification of what styled text is: how a terminal shows a span, which SGR parameters
    mean what, which texts a grouping stands for.  Uses the terminal of Vt.v; nothing here
    calls the functions of span.py under verification except to read a span's fields. *)
From Coq Require Import ZArith List Bool String.
From Verif Require Import PyBase F64 SpaceModel ColorModel ColorSpec PaletteSpec GreySpec AnsiRe SpanModel Vt.
Open Scope Z_scope.

(** * Showing a span *)
Definition paint (bg : bool) (x : ecolor) (pen : rend) : rend :=
  if bg then with_bg x pen else with_fg x pen.

(** The escape parameters of color [c] make a terminal select [x] on the color's layer,
    whatever parameters follow. *)
Definition emits (e : env) (c : color) (x : ecolor) : Prop :=
  color_ansi e c <> [] /\ forallb param_char (color_ansi e c) = true /\
  forall more pen, sgr (params (color_ansi e c) ++ more) pen = sgr more (paint (c_bg c) x pen).

(** The optional color [o] of the layer [bg] is displayed as [x] *)
Definition displayed (e : env) (bg : bool) (o : option color) (x : option ecolor) : Prop :=
  match o, x with
  | None, None => True
  | Some c, Some x => c_bg c = bg /\ emits e c x
  | _, _ => False
  end.

(** A pen with additional attributes *)
Definition styled (f : flags) (fg bg : option ecolor) (pen : rend) : rend :=
  mkRend (match fg with Some x => x | None => r_fg pen end)
         (match bg with Some x => x | None => r_bg pen end)
         (fl_bold f || r_bold pen) (fl_dim f || r_dim pen) (fl_italic f || r_italic pen)
         (fl_underline f || r_underline pen) (fl_blink f || r_blink pen)
         (fl_fast_blink f || r_rapid pen) (fl_invert f || r_inverse pen)
         (fl_conceal f || r_conceal pen) (fl_strike f || r_strike pen).

Definition has_style (s : span) : bool :=
  existsb (fun k => get_flag k (s_flags s)) all_flags
  || match s_fg s with Some _ => true | None => false end
  || match s_bg s with Some _ => true | None => false end.

(** Printable text: no control characters *)
Definition printable (t : str) : Prop := Forall (fun c => is_ctl c = false) t.
(** A hyperlink target that can be put in an escape sequence *)
Definition linkable (l : str) : Prop := ~ In 27 l /\ ~ In 7 l /\ ~ In 10 l.

Definition type_text (t : str) (m : emu) : emu := fold_left (fun m c => put_char c m) t m.

Definition no_esc (t : str) : Prop := ~ In ESC t.

(** * Attributes of a span *)
Inductive attribute := AText | AFg | ABg | ALink | AFlag (k : flag) | AReset.
Inductive value := VText (t : str) | VColor (c : option color) | VBool (b : bool).
Definition attr_of (s : span) (a : attribute) : value :=
  match a with
  | AText => VText (s_text s)
  | AFg => VColor (s_fg s)
  | ABg => VColor (s_bg s)
  | ALink => VText (s_link s)
  | AFlag k => VBool (get_flag k (s_flags s))
  | AReset => VBool (s_reset s)
  end.
Definition named (o : mopt) : attribute * value :=
  match o with
  | MText t => (AText, VText t)
  | MFg c => (AFg, VColor c)
  | MBg c => (ABg, VColor c)
  | MLink l => (ALink, VText l)
  | MFlag k v => (AFlag k, VBool v)
  | MReset b => (AReset, VBool b)
  end.
(** The keyword arguments give [a] the value [v] (each keyword occurs once) *)
Definition sets (opts : list mopt) (a : attribute) (v : value) : Prop := In (a, v) (map named opts).
Definition keywords (opts : list mopt) : list attribute := map (fun o => fst (named o)) opts.

(** Same style: every attribute but the text *)
Definition same_style (s t : span) : Prop := forall a, a <> AText -> attr_of s a = attr_of t a.

(** * Python slicing: bounds counted from the end if negative, then cut to the text *)
Definition slice_bound (n : Z) (default : Z) (o : option Z) : Z :=
  match o with
  | None => default
  | Some i => Z.max 0 (Z.min n (if i <? 0 then i + n else i))
  end.
Definition is_slice (a b : option Z) (t u : str) : Prop :=
  let n := zlen t in
  let lo := slice_bound n 0 a in
  let hi := slice_bound n n b in
  zlen u = Z.max 0 (hi - lo) /\
  forall k, 0 <= k < zlen u -> nth_error u (Z.to_nat k) = nth_error t (Z.to_nat (lo + k)).

(** * Markup escaping *)
Definition entity (c : Z) : str :=
  if c =? 38 then lit "&amp;" else if c =? 60 then lit "&lt;" else if c =? 62 then lit "&gt;"
  else if c =? 34 then lit "&quot;" else if c =? 39 then lit "&#x27;"
  else if c =? 32 then lit "&#160;" else [c].

(** * SGR parameters selecting a color *)
Definition color_params (bg : bool) (x : ecolor) (ps : list Z) : Prop :=
  let layer := if bg then 10 else 0 in
  match x with
  | EDefault => False
  | EIdx n =>
      (0 <= n < 256 /\ ps = [38 + layer; 5; n]) \/
      (0 <= n < 8 /\ ps = [30 + n + layer]) \/ (8 <= n < 16 /\ ps = [82 + n + layer])
  | ERgb r g b =>
      (0 <= r < 256 /\ 0 <= g < 256 /\ 0 <= b < 256) /\ ps = [38 + layer; 2; r; g; b]
  end.
Definition sgr_text (ps : list Z) : str := join (lit ";") (map dec ps).
(** [k] is the text of parameters selecting [x] on the layer *)
Definition color_text (bg : bool) (x : ecolor) (k : str) : Prop :=
  exists ps, color_params bg x ps /\ k = sgr_text ps.

(** * Parsing styled lines *)
(** A line: some leading text, then escape sequences each followed by the text it styles *)
Definition piece := (str * str)%type.                         (* body, text *)
Definition line_of (lead : str) (pieces : list piece) : str :=
  lead ++ flat_map (fun p => [27; 91] ++ fst p ++ [109] ++ snd p) pieces.
(** bodies of which the end is recognisable; texts that are there and hold no sequences *)
Definition body_ok (b : str) : Prop := ~ In 109 b /\ ~ In 72 b /\ ~ In 10 b /\ ~ In 27 b.
Definition text_ok (t : str) : Prop := t <> [] /\ ~ In 27 t.
Definition piece_ok (p : piece) : Prop := body_ok (fst p) /\ text_ok (snd p).

(** The SGR parameters read by the parser in the terminal's sense: attributes 1-9, 22, 23, 24,
    27, 39, 49 and color selections *)
Definition simple_codes : list Z := [1; 2; 3; 4; 5; 6; 7; 8; 9; 22; 23; 24; 27; 39; 49].
Inductive supported : list Z -> Prop :=
| sup_nil : supported []
| sup_code : forall n ps, In n simple_codes -> supported ps -> supported (n :: ps)
| sup_color : forall bg x c ps, color_params bg x c -> supported ps -> supported (c ++ ps).

(** Texts and the pens a terminal writes them with *)
Fixpoint pens (pen : rend) (l : list (list Z * str)) : list (str * rend) :=
  match l with
  | [] => []
  | (ps, t) :: r => (t, sgr ps pen) :: pens (sgr ps pen) r
  end.

(** The color a terminal color stands for *)
Definition color_for (bg : bool) (o : option color) (x : ecolor) : Prop :=
  match o with
  | None => x = EDefault
  | Some c =>
      c_bg c = bg /\ c_alpha c = fone /\
      (exists k, c_ctor c = Some k /\ color_text bg x k) /\
      match x with
      | EDefault => False
      | EIdx n => nth_error ColorTab.COLOR_TABLE (Z.to_nat n) = Some (c_rgb c)
      | ERgb r g b => c_rgb c = (r, g, b)
      end
  end.
Definition looks_like (s : span) (pen : rend) : Prop :=
  color_for false (s_fg s) (r_fg pen) /\ color_for true (s_bg s) (r_bg pen) /\
  let f := s_flags s in
  fl_bold f = r_bold pen /\ fl_dim f = r_dim pen /\ fl_italic f = r_italic pen /\
  fl_underline f = r_underline pen /\ fl_blink f = r_blink pen /\ fl_fast_blink f = r_rapid pen /\
  fl_invert f = r_inverse pen /\ fl_conceal f = r_conceal pen /\ fl_strike f = r_strike pen /\
  fl_opaque f = false /\ s_link s = [] /\ s_reset s = true.

(** * Grouping *)
(** A cell: character, attributes, colors, and whether a reset is attached to it *)
Definition scell := (Z * flags * option color * option color * bool)%type.
Definition plain_flags (f : flags) : Prop := forall k, get_flag k f = false.
(** how a screen stores it (see Span.get_characters) *)
Definition stored (s : scell) (c : cell) : Prop :=
  let '(ch, f, fg, bg, rst) := s in
  let '(t, fg', bg') := c in
  fg' = fg /\ bg' = bg /\
  ((plain_flags f /\ t = [ch]) \/
   (~ plain_flags f /\ exists b, b = join (lit ";") (map setter (filter (fun k => get_flag k f) all_flags)) /\
    t = [27; 91] ++ b ++ [109; ch] ++ if rst then [27; 91; 48; 109] else [])).
Definition eq_color (a b : option color) : Prop :=
  match a, b with
  | None, None => True
  | Some c, Some d => c_rgb c = c_rgb d /\ feqb (c_alpha c) (c_alpha d) = true
  | _, _ => False
  end.
Definition same_look (s t : span) : Prop :=
  s_flags s = s_flags t /\ eq_color (s_fg s) (s_fg t) /\ eq_color (s_bg s) (s_bg t).
Definition letters (s : span) : list (Z * flags * option color * option color) :=
  map (fun c => (c, s_flags s, s_fg s, s_bg s)) (s_text s).
Definition carries (l : Z * flags * option color * option color) (s : scell) : Prop :=
  let '(c, f, fg, bg) := l in
  let '(c', f', fg', bg', _) := s in
  c = c' /\ f = f' /\ (fg = fg' \/ eq_color fg fg') /\ (bg = bg' \/ eq_color bg bg').
(** A color whose escape parameters are those of a terminal color *)
Definition regular (e : env) (o : option color) : Prop :=
  forall c, o = Some c -> exists x, color_text (c_bg c) x (color_ansi e c).
Definition uncolored (s : scell) : Prop := let '(_, _, fg, bg, _) := s in fg = None /\ bg = None.
Definition cell_char (s : scell) : Z := let '(c, _, _, _, _) := s in c.
Definition cell_flags (s : scell) : flags := let '(_, f, _, _, _) := s in f.
Definition scell_ok (e : env) (s : scell) : Prop :=
  let '(ch, f, fg, bg, _) := s in ch <> 27 /\ fl_opaque f = false /\ regular e fg /\ regular e bg.
(** No colored cell follows a run of uncolored cells of its attributes holding its character
    (in particular: every cell has a color, or none has) *)
Definition no_clash (row : list scell) : Prop := forall a c mid d b,
  row = a ++ c :: mid ++ d :: b -> uncolored c -> Forall (fun x => cell_flags x = cell_flags c /\ uncolored x) mid ->
  cell_char d = cell_char c -> cell_flags d = cell_flags c -> uncolored d.
(** no group could be joined with the next *)
Fixpoint maximal (l : list span) : Prop :=
  match l with
  | a :: r => match r with b :: _ => ~ same_look a b /\ maximal r | [] => True end
  | [] => True
  end.

(** * Further notions *)
(** the tails considered: nothing or a reset *)
Definition tail_ok (t : str) : Prop := t = [] \/ t = RESET.
(** the pieces of a list of parameter lists and texts *)
Definition sgr_pieces (l : list (list Z * str)) : list piece := map (fun p => (sgr_text (fst p), snd p)) l.
(** The optional color of the layer is emitted as the parameters of [x] *)
Definition layer_text (e : env) (bg : bool) (o : option color) (x : option ecolor) : Prop :=
  match o, x with
  | None, None => True
  | Some c, Some x => c_bg c = bg /\ color_text bg x (color_ansi e c)
  | _, _ => False
  end.
(** * Exceptions *)
Definition bad_parts : list str := [lit "26"; lit "28"; lit "29"; lit "54"].
(** A styling sequence of the line: ESC [ body, ended by m or H, then text *)
Definition occurs (body line : str) : Prop :=
  exists a f t r, line = a ++ 27 :: 91 :: body ++ f :: t ++ r /\ (f = 109 \/ f = 72) /\ t <> [].
Definition good_group (s : span) : Prop := s_text s <> [] /\ s_link s = [] /\ s_reset s = true.
(** * Widths *)
Definition calm (t : str) : Prop := ~ In 109 t /\ ~ In 72 t /\ ~ In 10 t.
Definition quiet_span (e : env) (s : span) : Prop :=
  no_esc (s_text s) /\ ~ In ESC (s_link s) /\ ~ In NL (s_link s) /\
  forall c, s_fg s = Some c \/ s_bg s = Some c -> calm (color_ansi e c).
(** * Characters *)
Definition layer_sequences (e : env) (s : span) (exclude : bool) : str :=
  if exclude then span_colorless s else span_sequences e s.
(** the entry of the [k]-th of [n] characters *)
Definition entry (seqs : str) (reset always : bool) (n k : nat) (c : Z) : str :=
  let lead := if always || (k =? 0)%nat then seqs else [] in
  if (k =? n - 1)%nat then
    if reset && negb (str_eqb seqs []) then lead ++ [c] ++ RESET else [c]
  else lead ++ [c].
Definition entities : list str :=
  [lit "&amp;"; lit "&lt;"; lit "&gt;"; lit "&quot;"; lit "&#x27;"; lit "&#160;"].

(** which color of the terminal a Color becomes, by color space *)
Definition approximates (e : env) (c : color) (x : ecolor) : Prop :=
  match env_cs e with
  | TRUE_COLOR => x = ERgb (red c) (green c) (blue c)
  | EIGHT_BIT => exists i j k, nearest_sixth (red c) i /\ nearest_sixth (green c) j /\ nearest_sixth (blue c) k /\
                   x = EIdx (cube_index i j k)
  | STANDARD => exists i, first_nearest (c_rgb c) i /\ x = EIdx i
  | NO_COLOR => exists n, x = EIdx n /\ grey_for (cie_lightness (c_rgb c)) n
  end.
