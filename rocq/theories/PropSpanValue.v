(** C124: spans are values.  The theorems; proofs in SpanValueProofs.v. *)
From Coq Require Import ZArith List Bool String.
From Verif Require Import PyBase F64 SpaceModel ColorModel AnsiRe SpanModel Vt SpanSpec ColorProofs2 SpanValueModel SpanValueSpec SpanValueProofs.
Import ListNotations.
Open Scope Z_scope.

(** C124: [==] of spans is an equivalence, whatever color space each was made in (for colors whose alpha is a number). *)
Theorem C124_equivalence : forall e1 a e2 b e3 c,
  (number_alpha (s_fg a) -> number_alpha (s_bg a) -> made_eqb e1 a e1 a = true) /\
  made_eqb e1 a e2 b = made_eqb e2 b e1 a /\
  (made_eqb e1 a e2 b = true -> made_eqb e2 b e3 c = true -> made_eqb e1 a e3 c = true).
Proof. exact equivalence. Qed.
Print Assumptions C124_equivalence.

(** C124: what it means: the same text, hyperlink, attributes and reset_after, and on either layer colors with the same channels and alpha that are written
    alike. *)
Theorem C124_meaning : forall e a b, regular_span e a -> regular_span e b -> (span_eqb e a b = true <-> same_arguments e a b).
Proof. exact meaning. Qed.
Print Assumptions C124_meaning.

(** C124: equal spans cannot be told apart: not by the strings they give, not by their SVG, and not by what is made of them. *)
Theorem C124_interchangeable : forall e a b, regular_span e a -> regular_span e b -> span_eqb e a b = true ->
  span_str e a = span_str e b /\ span_len a = span_len b /\ (forall x y, get_characters e a x y = get_characters e b x y) /\
  (forall n dfg dbg inline cls, as_svg a n dfg dbg inline cls = as_svg b n dfg dbg inline cls) /\ get_svg_styles a = get_svg_styles b /\
  forall ms, Forall numeric ms -> span_eqb e (mutate a ms) (mutate b ms) = true.
Proof. exact interchangeable. Qed.
Print Assumptions C124_interchangeable.

(** C124: equal spans hash alike when their colors were made in the same way, ... *)
Theorem C124_hash_partial : forall e a b, span_eqb e a b = true -> built_alike (s_fg a) (s_fg b) -> built_alike (s_bg a) (s_bg b) ->
  span_hash e a = span_hash e b.
Proof. exact same_hash. Qed.
Print Assumptions C124_hash_partial.

(** C124: ... and not otherwise: a span of a color and one of the color of its hex string are equal and hash differently, so a set keeps both. *)
Theorem C124_hash_refuted : forall e t l f rst rgb c d, valid_rgb rgb = true -> color_of (DStr (color_hex d)) = Ok c -> plain_color rgb false fone = Ok d ->
  span_eqb e (mkSpan t (Some c) None l f rst) (mkSpan t (Some d) None l f rst) = true /\
  span_hash e (mkSpan t (Some c) None l f rst) <> span_hash e (mkSpan t (Some d) None l f rst).
Proof. exact hash_differs. Qed.
Print Assumptions C124_hash_refuted.

(** C124: equal colors do not make equal spans, whatever their text, hyperlink and attributes. *)
Theorem C124_colors_refuted : forall e t l f rst, env_cs e = TRUE_COLOR -> exists c d,
  color_of (DStr (lit "38;5;196")) = Ok c /\ plain_color (255, 0, 0) false fone = Ok d /\ color_eqb c d = true /\
  span_eqb e (mkSpan t (Some c) None l f rst) (mkSpan t (Some d) None l f rst) = false.
Proof. exact indexed_differs. Qed.
Print Assumptions C124_colors_refuted.

(** C124: nor do the same arguments, once the color space has changed in between. *)
Theorem C124_spaces_refuted : forall e1 e2 t l f rst rgb d, env_cs e1 = TRUE_COLOR -> env_cs e2 = STANDARD -> plain_color rgb false fone = Ok d ->
  made_eqb e1 (mkSpan t (Some d) None l f rst) e2 (mkSpan t (Some d) None l f rst) = false.
Proof. exact spaces_differ. Qed.
Print Assumptions C124_spaces_refuted.

(** Non-vacuity: two spans whose colors are of different makes, equal in every color space that is not above *)
Example C124_ex_spans : exists c d, color_of (DStr (lit "#FF0000")) = Ok c /\ plain_color (255, 0, 0) false fone = Ok d /\ c <> d /\
  forall e, env_cs e = TRUE_COLOR ->
    let a := mkSpan (lit "hi") (Some c) None [] no_flags true in let b := mkSpan (lit "hi") (Some d) None [] no_flags true in
    regular_span e a /\ regular_span e b /\ span_eqb e a b = true /\
    span_str e (mutate a [MText (lit "ho"); MFlag FBold true]) = [27] ++ lit "[38;2;255;0;0;1mho" ++ [27] ++ lit "[0m".
Proof.
  eexists _, _. split; [reflexivity|]. split; [reflexivity|]. split; [discriminate|]. intros e He.
  match goal with |- let a := mkSpan _ (Some ?x) _ _ _ _ in let b := mkSpan _ (Some ?y) _ _ _ _ in _ => set (c := x); set (d := y) end. intros a b.
  assert (A : color_ansi e c = lit "38;2;255;0;0") by (unfold color_ansi; rewrite He; reflexivity).
  assert (B : color_ansi e d = lit "38;2;255;0;0") by (unfold color_ansi; rewrite He; reflexivity).
  assert (R : forall x, x = c \/ x = d -> regular e (Some x)).
  { intros x Hx y Hy. injection Hy as <-. exists (ERgb 255 0 0), [38; 2; 255; 0; 0].
    destruct Hx as [-> | ->]; (split; [split; [repeat split; discriminate|reflexivity]|]); [rewrite A|rewrite B]; reflexivity. }
  split; [split; [apply R; now left|discriminate]|]. split; [split; [apply R; now right|discriminate]|]. split.
  - apply args_eqb. unfold same_arguments, alike. cbn [a b s_text s_fg s_bg s_link s_flags s_reset]. rewrite A, B.
    assert (N : feqb (c_alpha c) (c_alpha d) = true) by (apply feqb_refl; reflexivity). assert (E : c_rgb c = c_rgb d) by reflexivity. tauto.
  - unfold span_str, span_sequences, total_body. cbn [a mutate fold_left apply_mopt s_text s_fg s_bg s_link s_flags s_reset opt_list map app]. rewrite A. reflexivity.
Qed.
(** Non-vacuity: the two kinds of color spaces *)
Example C124_ex_spaces : exists d, plain_color (255, 0, 0) false fone = Ok d /\
  color_ansi {| env_cs := TRUE_COLOR; env_pow := fun x _ => x |} d = lit "38;2;255;0;0" /\
  exists n, color_ansi {| env_cs := STANDARD; env_pow := fun x _ => x |} d = dec n.
Proof.
  eexists. split; [reflexivity|]. split; [reflexivity|]. unfold color_ansi. cbn [env_cs c_ctor c_origin c_rgb c_bg cs_ge]. eexists. reflexivity.
Qed.
