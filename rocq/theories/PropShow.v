(** C97, C98: what the [repr()] of colors and spans evaluates to. *)
From Coq Require Import ZArith List Bool String Reals Lra.
From Flocq Require Import Core IEEE754.BinarySingleNaN.
From Verif Require Import PyBase F64 SpaceModel ColorModel SpanModel KeyUseSpec ReprSpec BlendProofs ShowModel ShowSpec ShowProofs ShowProofs4.
Import ListNotations.
Open Scope Z_scope.
Open Scope list_scope.

(** * C97 The repr of a color evaluates to an equal color *)
Theorem C97_equal : forall read c, reader read -> printable c ->
  exists c', evaluates read (color_repr c) (VColor c') /\ plain_again c c' /\ color_eqb c' c = true.
Proof. exact color_reads. Qed.
Print Assumptions C97_equal.

(** ... and to nothing else *)
Theorem C97_only : forall read t v v', evaluates read t v -> evaluates read t v' -> v = v'.
Proof. exact evaluates_unique. Qed.
Print Assumptions C97_only.

(** an alpha that is no number or infinite cannot be read back *)
Theorem C97_not_finite : forall read c, valid_rgb (c_rgb c) = true -> is_finite (c_alpha c) = false -> fails read (color_repr c).
Proof. exact unreadable_alpha. Qed.
Print Assumptions C97_not_finite.

(** there are readers of floats as assumed *)
Theorem C97_reader : exists read, reader read.
Proof. exact (ex_intro _ read_decimal read_decimal_reader). Qed.
Print Assumptions C97_reader.

Example C97_ex :
  color_repr (mkColor (10, 200, 30) true (flit 1 10) EIGHT_BIT None) = lit "Color(rgb=(10, 200, 30), alpha=0.1)" /\
  color_repr (mkColor (0, 0, 255) false fone TRUE_COLOR None) = lit "Color(rgb=(0, 0, 255))" /\
  color_repr (mkColor (0, 0, 255) false B754_nan TRUE_COLOR None) = lit "Color(rgb=(0, 0, 255), alpha=nan)" /\
  tokens 30 (lit "Color(rgb=(0, 7, 255), alpha=-1.5e-07)") =
    Some [TName (lit "Color"); TSym 40; TName (lit "rgb"); TSym 61; TSym 40; TNum (lit "0"); TSym 44; TNum (lit "7"); TSym 44;
          TNum (lit "255"); TSym 41; TSym 44; TName (lit "alpha"); TSym 61; TSym 45; TNum (lit "1.5e-07"); TSym 41] /\
  (forall read, evaluates read (lit "Color((1, 2, 3), is_background=True)") (VColor (mkColor (1, 2, 3) true fone TRUE_COLOR None))) /\
  (forall read, fails read (lit "Color(rgb=(1, 2, 300))")) /\
  printable (mkColor (0, 0, 255) false fone TRUE_COLOR None).
Proof.
  split; [vm_compute; reflexivity|]. split; [vm_compute; reflexivity|]. split; [vm_compute; reflexivity|]. split; [vm_compute; reflexivity|].
  split; [intro read; do 3 eexists; split; [apply (tokens_mono 40 _ _ 40); [reflexivity|apply le_n]|]; split; reflexivity|].
  split.
  - intros read v H. apply evaluates_iff in H. destruct H as [ts [x [A [B C]]]].
    assert (A' : lexes (lit "Color(rgb=(1, 2, 300))") [TName (lit "Color"); TSym 40; TName (lit "rgb"); TSym 61; TSym 40; TNum (lit "1"); TSym 44; TNum (lit "2"); TSym 44; TNum (lit "300"); TSym 41; TSym 41])
      by (exists 40%nat; reflexivity).
    rewrite (lexes_unique _ _ _ A A') in B.
    assert (B' : parses [TName (lit "Color"); TSym 40; TName (lit "rgb"); TSym 61; TSym 40; TNum (lit "1"); TSym 44; TNum (lit "2"); TSym 44; TNum (lit "300"); TSym 41; TSym 41]
      (ECall (lit "Color") [(Some (lit "rgb"), ETuple [ENum (lit "1"); ENum (lit "2"); ENum (lit "300")])]) []) by (exists 10%nat; reflexivity).
    destruct (parses_unique _ _ _ _ _ B B') as [-> _]. discriminate.
  - split; [reflexivity|]. split; [reflexivity|]. change (B2R (c_alpha (mkColor (0, 0, 255) false fone TRUE_COLOR None))) with (B2R fone).
    rewrite (proj2 fone_1). rewrite Rabs_R1. apply Rle_trans with (bpow radix2 2); [change (bpow radix2 2) with 4%R; lra|apply bpow_le; discriminate].
Qed.

(** * C98 The repr of a span evaluates to an equal span ... *)
(** ... when its colors are made plainly and it resets after itself *)
Theorem C98_equal_partial : forall e read pr s, reader read -> Forall character (s_text s) -> Forall character (s_link s) ->
  each_color printable s -> each_color made_plainly s -> s_reset s = true ->
  exists s', evaluates read (span_repr pr s) (VSpan s') /\ span_eqb e s' s = true.
Proof. exact span_equal. Qed.
Print Assumptions C98_equal_partial.

(** whatever evaluates keeps text, styles, hyperlink and color values; colors come back as fresh
    foreground colors, reset_after as True *)
Theorem C98_reads : forall read pr s, reader read -> Forall character (s_text s) -> Forall character (s_link s) ->
  each_color printable s -> ~ comma_twice s ->
  exists s', evaluates read (span_repr pr s) (VSpan s') /\
    s_text s' = s_text s /\ s_flags s' = s_flags s /\ s_link s' = s_link s /\ s_reset s' = true /\
    plain_again_opt (s_fg s) (s_fg s') /\ plain_again_opt (s_bg s) (s_bg s').
Proof. exact span_reads. Qed.
Print Assumptions C98_reads.

(** without a style, without reset_after, but with a color or hyperlink, the text is no expression *)
Theorem C98_comma_refuted : forall read pr s, Forall character (s_text s) -> comma_twice s -> fails read (span_repr pr s).
Proof. exact comma_fails. Qed.
Print Assumptions C98_comma_refuted.

(** without reset_after it is not the same span *)
Theorem C98_reset_refuted : forall e read pr s, reader read -> Forall character (s_text s) -> Forall character (s_link s) ->
  each_color printable s -> s_reset s = false ->
  forall s', evaluates read (span_repr pr s) (VSpan s') -> span_eqb e s' s = false.
Proof. exact reset_lost. Qed.
Print Assumptions C98_reset_refuted.

(** a background color comes back as a foreground color: another span, shown differently *)
Theorem C98_background_refuted : forall e read pr t c, reader read -> Forall character t -> printable c -> c_bg c = true -> c_ctor c = None ->
  let s := mkSpan t None (Some c) [] no_flags true in
  exists s', evaluates read (span_repr pr s) (VSpan s') /\ span_eqb e s' s = false /\ span_str e s' <> span_str e s.
Proof. exact background_lost. Qed.
Print Assumptions C98_background_refuted.

Example C98_ex :
  let pr := fun _ => true in
  let red := mkColor (255, 0, 0) false fone TRUE_COLOR None in
  span_repr pr (mkSpan (lit "it's") (Some red) None (lit "u") (set_flag FBold true no_flags) true) =
    lit "Span(""it's"", bold=True, reset_after=True, foreground=Color(rgb=(255, 0, 0)), hyperlink='u')" /\
  span_repr pr (mkSpan (lit "x") None None [] no_flags false) = lit "Span('x', )" /\
  span_repr pr (mkSpan (lit "x") (Some red) None [] no_flags false) = lit "Span('x', , foreground=Color(rgb=(255, 0, 0)))" /\
  comma_twice (mkSpan (lit "x") (Some red) None [] no_flags false) /\
  made_plainly red.
Proof.
  cbv zeta. split; [vm_compute; reflexivity|]. split; [vm_compute; reflexivity|]. split; [vm_compute; reflexivity|].
  split; [split; [intros []; reflexivity|split; [reflexivity|left; discriminate]]|]. split; [reflexivity|split; reflexivity].
Qed.
