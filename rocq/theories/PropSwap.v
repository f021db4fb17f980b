(** C126: equal spans are interchangeable in calls of a screen.  The theorems; proofs in SwapProofs.v. *)
From Coq Require Import ZArith List Bool String.
From Verif Require Import PyBase F64 SpaceModel ColorModel AnsiRe SpanModel Vt SpanSpec ScreenModel ScreenSpec ColorProofs2 SpanValueModel SpanValueSpec SpanValueProofs SvgTextModel SwapSpec SwapProofs SwapProofs2.
Import ListNotations.
Open Scope Z_scope.

(** C126: two histories of calls of a screen that differ only in spans that are [==] return the same: the counts of the writes, the exceptions, the characters, and
    everything that is rendered, full redraws included; for histories that do not scroll. *)
Theorem C126_interchangeable : forall e ops ops' s c, cache_ok e c -> calm_run e (s, c) ops -> Forall2 (equal_op e) ops ops' ->
  sights e (s, c) ops = sights e (s, c) ops'.
Proof. exact interchange. Qed.
Print Assumptions C126_interchangeable.

(** C126: and the screens they leave are exported alike, to the letter. *)
Theorem C126_exported : forall e ops ops' s c fs dfg dbg w h, cache_ok e c -> calm_run e (s, c) ops -> Forall2 (equal_op e) ops ops' ->
  export_svg_with_styles e (fst (run e (s, c) ops)) fs dfg dbg = export_svg_with_styles e (fst (run e (s, c) ops')) fs dfg dbg /\
  export_text e (fst (run e (s, c) ops)) w h fs dfg dbg = export_text e (fst (run e (s, c) ops')) w h fs dfg dbg.
Proof. exact exported. Qed.
Print Assumptions C126_exported.

(** C126: false after any scroll: equal spans that hash differently are told apart by get_characters. *)
Theorem C126_scrolled_refuted : forall e c s a b x y tb force, cache_ok e c -> equal_spans e a b -> span_hash e a <> span_hash e b -> s_text a <> [] ->
  sc_cells s <> [] -> sc_h s + sc_off s <= y ->
  sights e (s, c) [OWrite [a] (Some (x, y)) tb force; OChars a true true] <> sights e (s, c) [OWrite [a] (Some (x, y)) tb force; OChars b true true].
Proof. exact told_apart. Qed.
Print Assumptions C126_scrolled_refuted.

(** * Examples: a red word by hex code or by channels, under a translucent blue blank *)
Definition e_swap : env := {| env_cs := TRUE_COLOR; env_pow := fun x _ => x |}.
Definition by_hex : color := mkColor (255, 0, 0) false fone TRUE_COLOR (Some (lit "#FF0000")).
Definition by_rgb : color := mkColor (255, 0, 0) false fone TRUE_COLOR None.
Definition word (c : color) : span := mkSpan (lit "hi") (Some c) None [] no_flags true.
Definition film : span := mkSpan (lit " ") None (Some (mkColor (0, 0, 255) true (flit 1 2) TRUE_COLOR None)) [] no_flags true.
Definition calls (c : color) : list op :=
  [OBulk [((1, 0), [word c]); ((1, 0), [film])] BLACK false; ORender (1, 1) false; OClear (lit " "); OWrite [word c] (Some (0, 1)) BLACK false; ORender (1, 1) true].
Definition s42 : screen := new_screen 4 2 (0, 0) (lit " ").
Lemma ex_equal : forall c d, (c = by_hex \/ c = by_rgb) -> (d = by_hex \/ d = by_rgb) -> equal_spans e_swap (word c) (word d).
Proof.
  intros c d Hc Hd.
  assert (R : forall x, x = by_hex \/ x = by_rgb -> regular_span e_swap (word x)).
  { intros x Hx. split; [|intros ? K; discriminate K]. intros y Hy. cbn in Hy. injection Hy as <-. exists (ERgb 255 0 0), [38; 2; 255; 0; 0].
    destruct Hx as [-> | ->]; (split; [split; [repeat split; discriminate|reflexivity]|reflexivity]). }
  split; [now apply R|]. split; [now apply R|]. destruct Hc as [-> | ->], Hd as [-> | ->]; reflexivity.
Qed.
Lemma ex_film : equal_spans e_swap film film.
Proof.
  assert (R : regular_span e_swap film).
  { split; [intros ? K; discriminate K|]. intros y Hy. cbn [film s_bg] in Hy. injection Hy as <-. exists (ERgb 0 0 255), [48; 2; 0; 0; 255].
    split; [split; [repeat split; discriminate|reflexivity]|reflexivity]. }
  split; [exact R|]. split; [exact R|reflexivity].
Qed.
Example C126_ex_colors : color_of (DStr (lit "#FF0000")) = Ok by_hex /\ plain_color (255, 0, 0) false fone = Ok by_rgb /\
  span_hash e_swap (word by_hex) <> span_hash e_swap (word by_rgb).
Proof.
  split; [reflexivity|]. split; [reflexivity|]. intro H.
  apply (f_equal (fun h => let '(_, f, _, _, _, _, _, _, _) := h in match f with Some (_, _, _, _, k) => k | None => None end)) in H. discriminate H.
Qed.
Example C126_ex_calls : cache_ok e_swap [] /\ calm_run e_swap (s42, []) (calls by_hex) /\ Forall2 (equal_op e_swap) (calls by_hex) (calls by_rgb) /\
  hd Nothing (sights e_swap (s42, []) (calls by_hex)) = Count (Ok 2).
Proof.
  assert (W : equal_spans e_swap (word by_hex) (word by_rgb)) by (apply ex_equal; auto). pose proof ex_film as F.
  split; [constructor|]. split; [|split].
  - assert (N : forall s, s = word by_hex \/ s = film -> ~ In NL (s_text s)) by (intros s [-> | ->] K; cbn in K; intuition discriminate).
    cbn [calls calm_run fst calm_op]. split; [|split; [exact Logic.I|split; [exact Logic.I|split; [|split; exact Logic.I]]]].
    + split; [reflexivity|]. repeat constructor; auto.
    + split; [reflexivity|]. repeat constructor; auto.
  - unfold calls. constructor; [|constructor; [reflexivity|constructor; [reflexivity|constructor; [|constructor; [reflexivity|constructor]]]]].
    + split; [|auto]. constructor; [|constructor; [|constructor]]; (split; [reflexivity|]); (constructor; [assumption|constructor]).
    + split; [|auto]. constructor; [assumption|constructor].
  - vm_compute. reflexivity.
Qed.
Example C126_ex_scrolled : equal_spans e_swap (word by_hex) (word by_rgb) /\ s_text (word by_hex) <> [] /\ sc_cells s42 <> [] /\ sc_h s42 + sc_off s42 <= 2 /\
  sights e_swap (s42, []) [OWrite [word by_hex] (Some (0, 2)) BLACK false; OChars (word by_hex) true true] = [Count (Ok 2); Chars [lit "h"; [105; 10]]] /\
  sights e_swap (s42, []) [OWrite [word by_hex] (Some (0, 2)) BLACK false; OChars (word by_rgb) true true] = [Count (Ok 2); Chars [lit "h"; lit "i"]].
Proof.
  split; [apply ex_equal; auto|]. split; [discriminate|]. split; [discriminate|]. split; [discriminate|]. split; vm_compute; reflexivity.
Qed.
