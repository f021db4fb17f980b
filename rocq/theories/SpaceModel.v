(** core.py:183-227 and 275-302: color spaces.  Definitions only. *)
From Coq Require Import ZArith List Bool String.
From Verif Require Import PyBase.
Open Scope Z_scope.

(** core.py:191-204, class ColorSpace(Enum) *)
Inductive colorspace := NO_COLOR | STANDARD | EIGHT_BIT | TRUE_COLOR.

(** the enum values, core.py:194-203 *)
Definition cs_value (c : colorspace) : str :=
  match c with
  | NO_COLOR => lit "no_color"
  | STANDARD => lit "standard"
  | EIGHT_BIT => lit "eight_bit"
  | TRUE_COLOR => lit "true_color"
  end.

(** core.py:183-188 *)
Definition COLOR_SPACE_CASCADE : list str :=
  [lit "standard"; lit "no_color"; lit "eight_bit"; lit "true_color"].

(** [ColorSpace(value)]: lookup by value, ValueError if there is none *)
Definition cs_of_value (s : str) : res colorspace :=
  if str_eqb s (cs_value NO_COLOR) then Ok NO_COLOR
  else if str_eqb s (cs_value STANDARD) then Ok STANDARD
  else if str_eqb s (cs_value EIGHT_BIT) then Ok EIGHT_BIT
  else if str_eqb s (cs_value TRUE_COLOR) then Ok TRUE_COLOR
  else Err ValueError.

(** [list.index(x)]; ValueError if absent *)
Fixpoint list_index_from (i : Z) (x : str) (l : list str) : res Z :=
  match l with
  | [] => Err ValueError
  | y :: r => if str_eqb y x then Ok i else list_index_from (i + 1) x r
  end.
Definition list_index := list_index_from 0.

(** the [other] argument of the comparisons: [str | ColorSpace] or anything else *)
Inductive cs_arg := ArgSpace (c : colorspace) | ArgStr (s : str) | ArgOther.

Definition coerce_arg (a : cs_arg) : res colorspace :=
  match a with
  | ArgSpace c => Ok c
  | ArgStr s => cs_of_value s
  | ArgOther => Err AttributeError          (* other.value on an arbitrary object *)
  end.

(** core.py:206-212, __gt__ *)
Definition cs_gt (self : colorspace) (other : cs_arg) : res bool :=
  let* o := coerce_arg other in
  let* io := list_index (cs_value o) COLOR_SPACE_CASCADE in
  let* is_ := list_index (cs_value self) COLOR_SPACE_CASCADE in
  Ok (io <? is_).

(** core.py:214-221, __eq__ ([None] is NotImplemented) *)
Definition cs_eq (self : colorspace) (other : cs_arg) : res (option bool) :=
  match other with
  | ArgOther => Ok None
  | _ => let* o := coerce_arg other in Ok (Some (str_eqb (cs_value self) (cs_value o)))
  end.

(** core.py:223-227, __ge__ : [self > other or self == other] *)
Definition cs_ge (self : colorspace) (other : cs_arg) : res bool :=
  let* o := coerce_arg other in
  let* g := cs_gt self (ArgSpace o) in
  if g then Ok true
  else let* e := cs_eq self (ArgSpace o) in
       match e with Some b => Ok b | None => Ok false end.

(** [self < other] and [self <= other]: ColorSpace defines neither, so Python calls the
    reflected [other > self] / [other >= self]; a str (or another object) has none that
    accepts a ColorSpace, which is a TypeError. *)
Definition cs_lt (self : colorspace) (other : cs_arg) : res bool :=
  match other with
  | ArgSpace o => cs_gt o (ArgSpace self)
  | _ => Err TypeError
  end.
Definition cs_le (self : colorspace) (other : cs_arg) : res bool :=
  match other with
  | ArgSpace o => cs_ge o (ArgSpace self)
  | _ => Err TypeError
  end.

(** the four environment variables read; [None] = unset *)
Record shell_env := {
  SLATE_COLORSYS : option str;
  NO_COLOR_VAR : option str;
  TERM : option str;
  COLORTERM : option str
}.

Definition getenv_default (v : option str) (d : str) : str :=
  match v with Some s => s | None => d end.

(** core.py:275-302 *)
Definition get_color_space (e : shell_env) : res colorspace :=
  match SLATE_COLORSYS e with
  | Some s => cs_of_value (lower s)
  | None =>
      match NO_COLOR_VAR e with
      | Some _ => Ok NO_COLOR
      | None =>
          let term := getenv_default (TERM e) [] in
          let color_term := lower (strip_by is_space (getenv_default (COLORTERM e) [])) in
          let* color_term :=
            (if str_eqb color_term []
             then let* parts := split_str (lit "xterm-") term in Ok (last_of parts)
             else Ok color_term) in
          if str_in color_term [lit "24bit"; lit "truecolor"] then Ok TRUE_COLOR
          else if str_eqb color_term (lit "256color") then Ok EIGHT_BIT
          else Ok STANDARD
      end
  end.
