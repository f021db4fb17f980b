(** [repr()] of colors and spans (color.py:157-162, span.py:271-289).  Definitions only (no
    proofs).  [pr] is [str.isprintable] for characters above 126, as in KeyUseModel.v. *)
From Coq Require Import ZArith List Bool String.
From Verif Require Import PyBase F64 ColorModel SpanModel ReprModel KeyUseModel.
Import ListNotations.
Open Scope Z_scope.
Open Scope list_scope.

(** color.py:157-162.  Subclasses (another [type(self).__name__]) and channels that are not
    ints are not modelled; an alpha is a float. *)
Definition color_repr (c : color) : str :=
  let '(r, g, b) := c_rgb c in
  lit "Color(rgb=" ++ (lit "(" ++ join (lit ", ") [dec r; dec g; dec b] ++ lit ")")
  ++ (if feqb (c_alpha c) fone then [] else lit ", alpha=" ++ float_repr (c_alpha c))
  ++ lit ")".

(** span.py:232-241 the names of the attributes *)
Definition field_name (k : flag) : str :=
  match k with
  | FBold => lit "bold" | FDim => lit "dim" | FItalic => lit "italic"
  | FUnderline => lit "underline" | FBlink => lit "blink" | FFastBlink => lit "fast_blink"
  | FInvert => lit "invert" | FConceal => lit "conceal" | FStrike => lit "strike"
  | FOpaque => lit "opaque"
  end.
(** span.py:275-277: the fields that are [True], in field order *)
Definition truthy_fields (s : span) : list str :=
  map field_name (filter (fun k => get_flag k (s_flags s)) all_flags)
  ++ (if s_reset s then [lit "reset_after"] else []).
(** span.py:271-289 *)
Definition span_repr (pr : Z -> bool) (s : span) : str :=
  let attributes := repr_str pr (s_text s) ++ lit ", " in
  let attributes := attributes ++ join (lit ", ") (map (fun n => n ++ lit "=True") (truthy_fields s)) in
  let attributes :=
    match s_fg s with Some c => attributes ++ lit ", foreground=" ++ color_repr c | None => attributes end in
  let attributes :=
    match s_bg s with Some c => attributes ++ lit ", background=" ++ color_repr c | None => attributes end in
  let attributes :=
    if str_eqb (s_link s) [] then attributes else attributes ++ lit ", hyperlink=" ++ repr_str pr (s_link s) in
  lit "Span(" ++ attributes ++ lit ")".
