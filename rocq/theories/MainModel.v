(** __main__.py: the report of [slate debug] (lines 16-97).  Definitions only (no proofs).
    Simplification: the state of the global terminal and the environment variables are given. *)
From Coq Require Import ZArith List Bool String.
From Verif Require Import PyBase F64 SpaceModel ColorTab ColorModel SpanModel.
Import ListNotations.
Open Scope Z_scope.
Open Scope list_scope.

(** what the report reads: $TERM, $COLORTERM, $NO_COLOR, $SLATE_COLORSYS, the size, the support of
    synchronized updates and the default colors; the color space is that of the [env] *)
Record view := mkView {
  v_term : option str; v_colorterm : option str; v_no_color : option str; v_colorsys : option str;
  v_size : Z * Z; v_sync : bool; v_fg : color; v_bg : color
}.

(** [os.getenv(name) or "-"] *)
Definition or_dash (o : option str) : str := match o with Some (c :: t) => c :: t | _ => lit "-" end.
(** [str(terminal.color_space)]: the name of the enum's member *)
Definition cs_name (c : colorspace) : str :=
  match c with
  | NO_COLOR => lit "ColorSpace.NO_COLOR"
  | STANDARD => lit "ColorSpace.STANDARD"
  | EIGHT_BIT => lit "ColorSpace.EIGHT_BIT"
  | TRUE_COLOR => lit "ColorSpace.TRUE_COLOR"
  end.
Definition bool_str (b : bool) : str := if b then lit "True" else lit "False".

(** __main__.py:17-29 *)
Definition debug_rows (e : env) (v : view) : list (str * option str) :=
  [ (lit "Environment:", None);
    (lit "$TERM", Some (or_dash (v_term v)));
    (lit "$COLORTERM", Some (or_dash (v_colorterm v)));
    (lit "$NO_COLOR", Some (or_dash (v_no_color v)));
    (lit "$SLATE_COLORSYS", Some (or_dash (v_colorsys v)));
    (lit "Terminal state:", None);
    (lit "size", Some (join (lit "x") [dec (fst (v_size v)); dec (snd (v_size v))]));
    (lit "colorspace", Some (cs_name (env_cs e)));
    (lit "synchronized update support", Some (bool_str (v_sync v)));
    (lit "foreground color", Some (color_hex (v_fg v)));
    (lit "background color", Some (color_hex (v_bg v))) ].

(** [max(...)] of non-negative numbers *)
Definition max_of (l : list Z) : Z := fold_left Z.max l 0.
(** __main__.py:31-32 *)
Definition max_left (rows : list (str * option str)) : Z := max_of (map (fun r => zlen (fst r)) rows) + 3.
Definition max_right (rows : list (str * option str)) : Z :=
  max_of (map (fun r => zlen (match snd r with Some t => t | None => [] end)) rows) + 3.

(** [" " * n], f"{t:<{n}}" and f"{t:>{n}}" *)
Definition spaces (n : Z) : str := repeat 32 (Z.to_nat n).
Definition ljust (t : str) (n : Z) : str := t ++ spaces (n - zlen t).
Definition rjust (t : str) (n : Z) : str := spaces (n - zlen t) ++ t.

(** [Span(t, flag=True)] *)
Definition styled_span (t : str) (k : flag) : span := mkSpan t None None [] (set_flag k true no_flags) true.

(** __main__.py:36-62: what one row adds to a buffer *)
Definition debug_row (e : env) (ml mr : Z) (buff : str) (row : str * option str) : res str :=
  let '(label, value) := row in
  match value with
  | None =>
      let buff := if str_eqb buff [] then buff else buff ++ [NL] in
      Ok (buff ++ span_str e (styled_span label FBold) ++ [NL])
  | Some value =>
      let buff := buff ++ span_str e (styled_span (ljust label ml) FDim) in
      if contains (lit "ground color") label then
        let* c := color_of (DStr value) in
        let* k := contrast e c in
        let* k := as_background k true None in
        Ok (buff ++ spaces (mr - zlen value) ++ span_str e (mkSpan value (Some c) (Some k) [] no_flags true) ++ [NL])
      else Ok (buff ++ span_str e (plain_span (rjust value mr)) ++ [NL])
  end.
Fixpoint debug_table (e : env) (ml mr : Z) (buff : str) (rows : list (str * option str)) : res str :=
  match rows with
  | [] => Ok buff
  | row :: rest => let* buff := debug_row e ml mr buff row in debug_table e ml mr buff rest
  end.

(** __main__.py:70-72: one cell of the color line *)
Definition debug_hue (width i : Z) : res color :=
  let* blue := from_hex (lit "#0000ff") fone in
  let* c := lighten blue 2 default_step in
  let* c := hue_shift c (fmul (fdiv fone (fofZ width)) (fofZ i)) in
  as_background c true None.
Fixpoint color_line (e : env) (width : Z) (i : Z) (n : nat) : res str :=
  match n with
  | O => Ok []
  | S n =>
      let* c := debug_hue width i in
      let* rest := color_line e width (i + 1) n in
      Ok (span_str e (mkSpan [32] None (Some c) [] no_flags true) ++ rest)
  end.

(** __main__.py:74-83 *)
Definition debug_styles : list span :=
  [ plain_span (lit "std"); styled_span (lit "bold") FBold; styled_span (lit "italic") FItalic;
    styled_span (lit "dim") FDim; styled_span (lit "underline") FUnderline; styled_span (lit "blink") FBlink;
    styled_span (lit "invert") FInvert; styled_span (lit "strike") FStrike ].
(** __main__.py:85-97 *)
Fixpoint style_line (e : env) (width : Z) (line : str) (used : Z) (l : list span) : str :=
  match l with
  | [] => line
  | s :: rest =>
      let over := width <? used + span_len s in
      let line := if over then line ++ [NL] else line in
      let used := if over then 0 else used in
      let line := if negb (str_eqb line []) && negb (used =? 0) then line ++ [32] else line in
      style_line e width (line ++ span_str e s) (used + (span_len s + 1)) rest
  end.

(** __main__.py:16-99: what is printed *)
Definition run_debug (e : env) (v : view) : res str :=
  let rows := debug_rows e v in
  let ml := max_left rows in
  let mr := max_right rows in
  let* buff := debug_table e ml mr [] rows in
  let buff := slice None (Some (-1)) buff in
  let width := ml + mr in
  let* colors := color_line e width 0 (Z.to_nat width) in
  Ok (join [NL] [colors; []; buff; []; style_line e width [] 0 debug_styles] ++ [NL]).
