(** Specification of color space detection and order, independent of the model's helpers. *)
From Coq Require Import ZArith List Bool String.
From Verif Require Import PyBase SpaceModel.
Open Scope Z_scope.

(** The documented order, weakest first *)
Definition rank (c : colorspace) : Z :=
  match c with STANDARD => 0 | NO_COLOR => 1 | EIGHT_BIT => 2 | TRUE_COLOR => 3 end.

(** [spells s c]: the string names the color space *)
Definition spells (s : str) (c : colorspace) : Prop :=
  match c with
  | NO_COLOR => s = lit "no_color"
  | STANDARD => s = lit "standard"
  | EIGHT_BIT => s = lit "eight_bit"
  | TRUE_COLOR => s = lit "true_color"
  end.

(** [t] is what follows the last "xterm-" of [term], or all of it if there is none *)
Definition after_last_xterm (term t : str) : Prop :=
  (forall a b, t <> a ++ lit "xterm-" ++ b) /\
  (t = term \/ exists p, term = p ++ lit "xterm-" ++ t).

(** The hint used when nothing is forced: $COLORTERM (without surrounding blanks, in lower
    case) unless blank, else the tail of $TERM *)
Definition color_hint (e : shell_env) (h : str) : Prop :=
  let ct := match COLORTERM e with Some s => lower (strip_by is_space s) | None => [] end in
  (ct <> [] /\ h = ct) \/
  (ct = [] /\ after_last_xterm (match TERM e with Some s => s | None => [] end) h).

Definition hint_space (h : str) (c : colorspace) : Prop :=
  ((h = lit "24bit" \/ h = lit "truecolor") /\ c = TRUE_COLOR) \/
  (h = lit "256color" /\ c = EIGHT_BIT) \/
  (h <> lit "24bit" /\ h <> lit "truecolor" /\ h <> lit "256color" /\ c = STANDARD).

(** The documented precedence *)
Definition detects (e : shell_env) (r : res colorspace) : Prop :=
  (exists s, SLATE_COLORSYS e = Some s /\
     ((exists c, spells (lower s) c /\ r = Ok c) \/
      ((forall c, ~ spells (lower s) c) /\ r = Err ValueError))) \/
  (SLATE_COLORSYS e = None /\ (exists s, NO_COLOR_VAR e = Some s) /\ r = Ok NO_COLOR) \/
  (SLATE_COLORSYS e = None /\ NO_COLOR_VAR e = None /\
     exists h c, color_hint e h /\ hint_space h c /\ r = Ok c).
