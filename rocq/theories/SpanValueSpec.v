(** Specification: spans as values. *)
From Coq Require Import ZArith List Bool String.
From Verif Require Import PyBase F64 SpaceModel ColorModel AnsiRe SpanModel Vt SpanSpec.
Import ListNotations.
Open Scope Z_scope.

(** no color, or colors with the same channels and alpha that are written alike *)
Definition alike (e : env) (a b : option color) : Prop :=
  match a, b with
  | None, None => True
  | Some c, Some d => c_rgb c = c_rgb d /\ feqb (c_alpha c) (c_alpha d) = true /\ color_ansi e c = color_ansi e d
  | _, _ => False
  end.
Definition same_arguments (e : env) (a b : span) : Prop :=
  s_text a = s_text b /\ alike e (s_fg a) (s_fg b) /\ alike e (s_bg a) (s_bg b) /\ s_link a = s_link b /\ s_flags a = s_flags b /\
  s_reset a = s_reset b.
Definition regular_span (e : env) (s : span) : Prop := regular e (s_fg s) /\ regular e (s_bg s).
Definition number_alpha (o : option color) : Prop := match o with Some c => f_nan (c_alpha c) = false | None => True end.
(** options whose colors have an alpha that is a number *)
Definition numeric (m : mopt) : Prop := match m with MFg o | MBg o => number_alpha o | _ => True end.
(** made in the same way: the colors too *)
Definition built_alike (a b : option color) : Prop :=
  match a, b with Some c, Some d => c_bg c = c_bg d /\ c_origin c = c_origin d /\ c_ctor c = c_ctor d | _, _ => True end.
