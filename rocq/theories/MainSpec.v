(** Specification notions for the report of [slate debug]. *)
From Coq Require Import ZArith List Bool String.
From Verif Require Import PyBase F64 SpaceModel ColorModel SpanModel MainModel.
Import ListNotations.
Open Scope Z_scope.
Open Scope list_scope.

(** the values as they are shown: a variable that is not set, or empty, is a dash *)
Definition shown_value (o : option str) : str := match o with Some (c :: t) => c :: t | _ => lit "-" end.
Definition shown_space (c : colorspace) : str :=
  match c with
  | NO_COLOR => lit "ColorSpace.NO_COLOR" | STANDARD => lit "ColorSpace.STANDARD"
  | EIGHT_BIT => lit "ColorSpace.EIGHT_BIT" | TRUE_COLOR => lit "ColorSpace.TRUE_COLOR"
  end.
Definition shown_bool (b : bool) : str := if b then lit "True" else lit "False".
(** the facts reported, label and value *)
Definition env_facts (v : view) : list (str * str) :=
  [(lit "$TERM", shown_value (v_term v)); (lit "$COLORTERM", shown_value (v_colorterm v));
   (lit "$NO_COLOR", shown_value (v_no_color v)); (lit "$SLATE_COLORSYS", shown_value (v_colorsys v))].
Definition state_facts (e : env) (v : view) : list (str * str) :=
  [(lit "size", dec (fst (v_size v)) ++ lit "x" ++ dec (snd (v_size v))); (lit "colorspace", shown_space (env_cs e));
   (lit "synchronized update support", shown_bool (v_sync v));
   (lit "foreground color", color_hex (v_fg v)); (lit "background color", color_hex (v_bg v))].
(** the widest value, and the width of the report: the widest label has 27 characters, both
    columns leave three more *)
Fixpoint widest (l : list (str * str)) : Z := match l with [] => 0 | f :: r => Z.max (zlen (snd f)) (widest r) end.
Definition report_width (e : env) (v : view) : Z := 30 + (widest (env_facts v ++ state_facts e v) + 3).

(** a line with a fact: label on the left, value on the right *)
Definition fact_line (w : Z) (f : str * str) (line : str) : Prop :=
  zlen line = w /\ exists n, (6 <= n)%nat /\ line = fst f ++ repeat 32 n ++ snd f.
Definition blank_line (w : Z) (line : str) : Prop := zlen line = w /\ Forall (eq 32) line.

(** words filled into lines: each line is as full as it can be *)
Definition wrapped (w : Z) (words lines : list str) : Prop :=
  exists chunks, concat chunks = words /\ lines = map (join [32]) chunks /\ Forall (fun c => c <> []) chunks /\
    Forall (fun l => zlen l <= w) lines /\
    forall a c1 x c2 b, chunks = a ++ c1 :: (x :: c2) :: b -> w < zlen (join [32] (c1 ++ [x])).

(** the styles shown *)
Definition style_names : list (str * flags) :=
  [(lit "std", no_flags); (lit "bold", set_flag FBold true no_flags); (lit "italic", set_flag FItalic true no_flags);
   (lit "dim", set_flag FDim true no_flags); (lit "underline", set_flag FUnderline true no_flags);
   (lit "blink", set_flag FBlink true no_flags); (lit "invert", set_flag FInvert true no_flags);
   (lit "strike", set_flag FStrike true no_flags)].

(** the lines of a report *)
Definition report (e : env) (v : view) (lines : list str) : Prop :=
  exists colors envs states styles, blank_line (report_width e v) colors /\
    Forall2 (fact_line (report_width e v)) (env_facts v) envs /\
    Forall2 (fact_line (report_width e v)) (state_facts e v) states /\
    wrapped (report_width e v) (map fst style_names) styles /\
    lines = [colors; []; lit "Environment:"] ++ envs ++ [[]; lit "Terminal state:"] ++ states ++ [[]] ++ styles.

(** the values that come from outside are plain text *)
Definition plain_value (o : option str) : Prop := match o with Some t => ~ In ESC t /\ ~ In NL t | None => True end.
(** a default color is shown as text of that color on a contrasting background *)
Definition swatch (c : color) (l : list span) : Prop :=
  exists c' k, In (mkSpan (color_hex c) (Some c') (Some k) [] no_flags true) l /\ c_rgb c' = c_rgb c /\ c_bg c' = false /\
    c_bg k = true /\ (c_rgb k = (35, 35, 35) \/ c_rgb k = (245, 245, 245)).
