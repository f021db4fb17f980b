(** span.py:216-257: the equality and the hash that the dataclass decorator gives to Span.  Definitions only. *)
From Coq Require Import ZArith List Bool String.
From Verif Require Import PyBase F64 SpaceModel ColorModel SpanModel.
Import ListNotations.
Open Scope Z_scope.

(** span.py:216: equality of a span made in [e1] and one made in [e2]; all fields are compared, and the computed
    strings (span.py:242-257) are those of the moment each was made.  Comparing tuples, Python takes an object as equal
    to itself without asking; that is left out and only matters for an alpha that is no number. *)
Definition made_eqb (e1 : env) (a : span) (e2 : env) (b : span) : bool :=
  str_eqb (s_text a) (s_text b) && opt_color_eqb (s_fg a) (s_fg b)
  && opt_color_eqb (s_bg a) (s_bg b) && str_eqb (s_link a) (s_link b)
  && flags_eqb (s_flags a) (s_flags b) && Bool.eqb (s_reset a) (s_reset b)
  && str_eqb (span_str e1 a) (span_str e2 b)
  && str_eqb (span_sequences e1 a) (span_sequences e2 b)
  && str_eqb (span_colorless a) (span_colorless b).
(** span.py:216 (frozen=True, eq=True): the hash is that of the tuple of all fields, a color being hashed by its
    own fields (color.py:124) *)
Definition span_hash (e : env) (s : span) :=
  (s_text s, option_map hash_fields (s_fg s), option_map hash_fields (s_bg s), s_link s, s_flags s, s_reset s,
   span_str e s, span_sequences e s, span_colorless s).
