(** Spans from markup (experiments/markup.py), and what a terminal shows of them. *)
From Coq Require Import ZArith List Bool String.
From Verif Require Import PyBase F64 SpaceModel ColorTab ColorModel ColorSpec SpanModel SpanSpec ShowModel Vt MarkupModel MarkupSpec MarkupProofs MarkupProofs2 MarkupProofs3.
Import ListNotations.
Open Scope Z_scope.
Open Scope list_scope.

(** ** C121 *)
(** Every word of a tag is a style switched on or off, a color, or unknown, and only one of these; so every
    well-formed text has exactly one meaning. *)
Theorem C121_meaning : forall l, exists us, Forall2 understood l us.
Proof. exact all_understood. Qed.
Print Assumptions C121_meaning.

Theorem C121_one_meaning : forall s u v, understood s u -> understood s v -> u = v.
Proof. exact understood_unique. Qed.
Print Assumptions C121_one_meaning.

(** Without colors, every stretch of text becomes one span with exactly the styles whose last word up to there
    switches them on; the unknown words are reported, in order. *)
Theorem C121_styles_partial : forall e l us, markup_ok l -> Forall2 understood l us -> Forall colorless us ->
  styled_from_markup e (written l) = (expected [] us, None).
Proof. exact markup_styles. Qed.
Print Assumptions C121_styles_partial.

(** ... and that is what a terminal shows of it when printed *)
Theorem C121_printed : forall e l us m, markup_ok l -> Forall2 understood l us -> Forall colorless us ->
  Forall (fun u => printable (snd u)) us -> e_parse m = PGround -> e_rend m = rend0 ->
  exists out, mprint e (written l) = Ok out /\ vt out m = vt [NL] (typed [] us m).
Proof. exact markup_printed. Qed.
Print Assumptions C121_printed.

(** Not with colors: the first stretch whose tags set or remove one raises, after the spans before it, whatever
    the color. *)
Theorem C121_color_refuted : forall e l us s u r vs, markup_ok (l ++ s :: r) -> Forall2 understood (l ++ s :: r) (us ++ u :: vs) ->
  List.length l = List.length us -> Forall colorless us -> ~ colorless u ->
  exists unknown x, styled_from_markup e (written (l ++ s :: r)) = (expected [] us ++ map Unknown unknown, Some x).
Proof. exact markup_color. Qed.
Print Assumptions C121_color_refuted.

(** ... so nothing is printed *)
Theorem C121_unprinted : forall e s x evs, styled_from_markup e s = (evs, Some x) -> mprint e s = Err x.
Proof. exact markup_unprinted. Qed.
Print Assumptions C121_unprinted.

(** Two styles in tags of their own, directly one after the other, are one unknown word: the text has neither. *)
Theorem C121_adjacent_refuted : forall e j k p, p <> [] -> free p ->
  styled_from_markup e ([91] ++ field_name j ++ [93; 91] ++ field_name k ++ [93] ++ p) =
    ([Unknown (field_name j ++ [93; 91] ++ field_name k); Yield (plain_span p)], None).
Proof. exact markup_adjacent. Qed.
Print Assumptions C121_adjacent_refuted.

(** A closing bracket in a text makes what is before it disappear. *)
Theorem C121_lost_refuted : forall e p s, free p -> styled_from_markup e (p ++ [93] ++ s) = styled_from_markup e s.
Proof. exact markup_lost. Qed.
Print Assumptions C121_lost_refuted.

(** Tags at the end, without a text, are passed over; their unknown words are not reported. *)
Theorem C121_trailing : forall e l ts, markup_ok l -> Forall tag_ok ts ->
  styled_from_markup e (written l ++ flat_map (fun t => [91] ++ t ++ [93]) ts) = styled_from_markup e (written l).
Proof. exact markup_trailing. Qed.
Print Assumptions C121_trailing.

(** The colors themselves: an index selects the color of the palette, on both layers, and nothing beyond it is one. *)
Theorem C121_index : forall (bg : bool) n, 0 <= n < 256 ->
  exists body, parse_color ((if bg then [64] else []) ++ dec n) = Ok body /\ selects body bg (EIdx n).
Proof. exact parse_index. Qed.
Print Assumptions C121_index.

Theorem C121_beyond : forall (bg : bool) n, 256 <= n -> parse_color ((if bg then [64] else []) ++ dec n) = Err ValueError.
Proof. exact parse_beyond. Qed.
Print Assumptions C121_beyond.

(** six hexadecimal digits after a #, three numbers, a name *)
Theorem C121_hex : forall (bg : bool) a b c d e f x1 x2 x3 x4 x5 x6, hex_value a x1 -> hex_value b x2 -> hex_value c x3 -> hex_value d x4 ->
  hex_value e x5 -> hex_value f x6 ->
  exists body, parse_color ((if bg then [64] else []) ++ 35 :: [a; b; c; d; e; f]) = Ok body /\
    selects body bg (ERgb (16 * x1 + x2) (16 * x3 + x4) (16 * x5 + x6)).
Proof. exact parse_hex. Qed.
Print Assumptions C121_hex.

Theorem C121_rgb : forall (bg : bool) r g b, 0 <= r -> 0 <= g -> 0 <= b ->
  exists body, parse_color ((if bg then [64] else []) ++ dec r ++ [59] ++ dec g ++ [59] ++ dec b) = Ok body /\ selects body bg (ERgb r g b).
Proof. exact parse_rgb. Qed.
Print Assumptions C121_rgb.

Theorem C121_css : forall n name v, In (name, v) CSS_COLORS -> exists a b c d e f x1 x2 x3 x4 x5 x6 body,
  v = [35; a; b; c; d; e; f] /\ hex_value a x1 /\ hex_value b x2 /\ hex_value c x3 /\ hex_value d x4 /\ hex_value e x5 /\ hex_value f x6 /\
  parse_color (repeat 64 n ++ name) = Ok body /\
  selects body (negb (n =? 0)%nat) (ERgb (16 * x1 + x2) (16 * x3 + x4) (16 * x5 + x6)).
Proof. exact parse_css. Qed.
Print Assumptions C121_css.
(** these are the named colors but Slate's own four *)
Theorem C121_names : forall name v, In (name, v) CSS_COLORS <->
  In (name, v) NAMED_COLORS /\ ~ In name [lit "slate"; lit "zenith"; lit "celadon"; lit "carmine"].
Proof. exact css_names. Qed.
Print Assumptions C121_names.

(** without the # they are accepted as a color, but their parameters are not ones a terminal understands *)
Theorem C121_bare_hex_refuted : forall (bg : bool) x, hex_six x -> (exists c, In c x /\ is_digit c = false) ->
  exists body, parse_color ((if bg then [64] else []) ++ x) = Ok body /\ forallb param_char body = false.
Proof. exact parse_bare_hex. Qed.
Print Assumptions C121_bare_hex_refuted.

Definition bold_on : flags := set_flag FBold true no_flags.
Definition italic_on : flags := set_flag FItalic true no_flags.
Definition sample : list segment :=
  [([], lit "a "); ([lit "bold wave"], lit "b"); ([lit " /bold  italic"], lit "c, d"); ([lit "//italic"], lit "e")].
Definition sample_read : list (list kind * str) :=
  [([], lit "a "); ([KStyle FBold true; KOther (lit "wave")], lit "b"); ([KStyle FBold false; KStyle FItalic true], lit "c, d");
   ([KStyle FItalic false], lit "e")].
Ltac chars := repeat split; try discriminate; vm_compute; intuition discriminate.
Example C121_sample_ok : markup_ok sample.
Proof.
  split; [|repeat constructor; discriminate]. repeat (constructor; [split; [repeat (constructor; [chars|]); constructor|chars]|]). constructor.
Qed.
Example C121_sample_read : Forall2 understood sample sample_read /\ Forall colorless sample_read /\ Forall (fun u => printable (snd u)) sample_read.
Proof.
  split; [|split].
  - constructor; [|constructor; [|constructor; [|constructor; [|constructor]]]]; (split; [reflexivity|]); eexists; (split; [apply separated_exists|]).
    + constructor.
    + constructor; [exact (means_style 0 FBold)|]. constructor; [|constructor]. apply (means_other 0 (lit "wave")).
      * discriminate.
      * intro C. apply color_tag_iff in C. vm_compute in C. discriminate.
      * destruct k; discriminate.
      * congruence.
    + constructor; [exact (means_style 1 FBold)|]. constructor; [exact (means_style 0 FItalic)|constructor].
    + constructor; [exact (means_style 2 FItalic)|constructor].
  - repeat (constructor; [unfold colorless; cbn; intuition discriminate|]). constructor.
  - repeat (constructor; [repeat constructor|]). constructor.
Qed.
Example C121_sample_ex :
  written sample = lit "a [bold wave]b[ /bold  italic]c, d[//italic]e" /\
  expected [] sample_read =
    [Yield (plain_span (lit "a ")); Unknown (lit "wave"); Yield (mkSpan (lit "b") None None [] bold_on true);
     Yield (mkSpan (lit "c, d") None None [] italic_on true); Yield (plain_span (lit "e"))].
Proof. split; reflexivity. Qed.

(** a red word in the middle: the text before it is yielded, then the generator fails *)
Example C121_color_ex : forall e,
  styled_from_markup e (lit "[bold]a[/bold red]b[/fg]c") = ([Yield (mkSpan (lit "a") None None [] bold_on true)], Some AttributeError) /\
  styled_from_markup e (lit "a[/fg]b") = ([Yield (plain_span (lit "a"))], Some AttributeError) /\
  styled_from_markup e (lit "a[/bg]b") = ([Yield (plain_span (lit "a"))], Some ValueError) /\
  styled_from_markup e (lit "[256]b") = ([], Some ValueError).
Proof. intro e. repeat split. Qed.
Example C121_color_hyp : let l := [([lit "bold"], lit "a"); ([lit "/bold @#ff0080"], lit "b")] : list segment in
  let us := [([KStyle FBold true], lit "a")] in let u := ([KStyle FBold false; KColor], lit "b") in
  markup_ok l /\ Forall2 understood l (us ++ [u]) /\ Forall colorless us /\ ~ colorless u.
Proof.
  cbv zeta. split; [|split; [|split]].
  - split; [|repeat constructor; discriminate]. repeat (constructor; [split; [repeat (constructor; [chars|]); constructor|chars]|]). constructor.
  - constructor; [|constructor; [|constructor]]; (split; [reflexivity|]); eexists; (split; [apply separated_exists|]).
    + constructor; [exact (means_style 0 FBold)|constructor].
    + constructor; [exact (means_style 1 FBold)|]. constructor; [|constructor]. apply (means_color 0 (lit "@#ff0080")); [discriminate|].
      apply color_tag_iff. vm_compute. reflexivity.
  - constructor; [unfold colorless; cbn; intuition discriminate|constructor].
  - intro C. apply C. right. left. reflexivity.
Qed.
Example C121_brackets_ex : forall e,
  styled_from_markup e (lit "[bold][italic]x") = ([Unknown (lit "bold][italic"); Yield (plain_span (lit "x"))], None) /\
  styled_from_markup e (lit "a]b[bold]") = ([Yield (plain_span (lit "b"))], None) /\
  styled_from_markup e (lit "list[0] = x") = ([Yield (plain_span (lit "list"))], Some AttributeError).
Proof. intro e. repeat split. Qed.
Example C121_colors_ex :
  parse_color (lit "@13") = Ok (lit "105") /\ parse_color (lit "3") = Ok (lit "33") /\ parse_color (lit "@200") = Ok (lit "48;5;200") /\
  parse_color (lit "tomato") = Ok (lit "38;2;255;99;71") /\ parse_color (lit "ff6347") = Ok (lit "38;2;ff6347").
Proof. repeat split; vm_compute; reflexivity. Qed.
