(** What an SVG export shows (C122): the pieces over the positions of a screen. *)
From Coq Require Import ZArith Reals List Bool Lia String.
From Verif Require Import PyBase PyLemmas F64 SpaceModel SpaceSpec GreySpec ColorModel ColorSpec ColorProofs PaletteSpec PaletteProofs AnsiRe SpanModel Vt SpanSpec
  SpanProofs SpanProofs2 SpanProofs3 GroupProofs GroupSpec GroupProofs2 ScreenModel ScreenSpec DrawSpec DrawProofs DrawProofs2
  SvgSpec SvgProofs SvgDocSpec SvgGeoModel SvgGeoSpec SvgTextModel SvgTextSpec SvgTextProofs ViewSpec ViewProofs.
Import ListNotations.
Open Scope Z_scope.
Open Scope list_scope.

(** * A row *)
Lemma row_scells : forall row (Q : nat -> Z * rend), (forall i c, nth_error row i = Some c -> tells c (Q i)) ->
  exists scells, Forall2 stored scells row /\ forall i d, nth_error scells i = Some d -> stands d (Q i).
Proof.
  intro row. induction row as [|c row IH]; intros Q H; [exists []; split; [constructor|intros [|i] d E; discriminate]|].
  destruct (H O c eq_refl) as [d [D1 D2]]. destruct (IH (fun i => Q (S i)) (fun i c' E => H (S i) c' E)) as [sc [S1 S2]].
  exists (d :: sc). split; [now constructor|]. intros [|i] d' E; [injection E as <-; exact D2|exact (S2 i d' E)].
Qed.
Definition powers (e : env) : Prop := env_cs e = NO_COLOR -> pow_accurate (env_pow e).
Lemma layer_regular : forall e bg o, powers e -> layer_ok bg o -> regular e o.
Proof.
  intros e bg o Hp H c E. destruct (H c E) as [[H1 [H2 H3]] _].
  destruct (free_color_text e c H1 H3) as [x [_ X]]; [|eauto]. intro N. apply grey_in_range; auto.
Qed.
Lemma stands_ok : forall e d v, powers e -> stands d v -> scell_fine e d.
Proof.
  intros e [[[[ch f] fg] bg] rst] v Hp [H1 [H2 [H4 [H5 _]]]]. split.
  - intros ->. discriminate.
  - split; eapply layer_regular; eauto.
Qed.
Lemma stands_uncolored : forall d v, stands d v -> (uncolored d <-> snd v = rend0).
Proof.
  intros [[[[ch f] fg] bg] rst] v [H1 [H2 [H4 [H5 [H6 H7]]]]]. cbn [uncolored]. rewrite H6. split.
  - intros [-> ->]. rewrite (H7 eq_refl eq_refl). cbn [shade_o option_map]. apply styled_none.
  - intro E. unfold styled, rend0 in E. injection E as E1 E2 _. split.
    + destruct fg as [c|]; [|reflexivity]. cbn in E1. unfold as_asked in E1. destruct (c_rgb c) as [[? ?] ?]. discriminate.
    + destruct bg as [c|]; [|reflexivity]. cbn in E2. unfold as_asked in E2. destruct (c_rgb c) as [[? ?] ?]. discriminate.
Qed.
Lemma stands_flags : forall d v, stands d v -> uncolored d -> cell_flags d = no_flags.
Proof. intros [[[[ch f] fg] bg] rst] v [_ [_ [_ [_ [_ H7]]]]] [A B]. cbn. auto. Qed.
Lemma stands_plain : forall d v, stands d v -> cell_flags d = no_flags -> DrawSpec.attributes (snd v) = DrawSpec.attributes rend0.
Proof. intros [[[[ch f] fg] bg] rst] v [_ [_ [_ [_ [H6 _]]]]] F. cbn in F. subst f. rewrite H6. reflexivity. Qed.
Lemma stands_char : forall d v, stands d v -> cell_char d = fst v.
Proof. intros [[[[ch f] fg] bg] rst] v [H _]. exact H. Qed.

Lemma kept_nth : forall s r i d', nth_error (kept_row r s) i = Some d' -> exists d, nth_error s i = Some d /\ (d' = unmark d \/ d' = colorless d).
Proof.
  intro s. induction s as [|d s IH]; intros r i d' E; [destruct i; discriminate|]. cbn [kept_row] in E.
  destruct (retold r d); (destruct i as [|i]; [injection E as <-; exists d; auto|]); exact (IH _ _ _ E).
Qed.
Lemma kept_length : forall s r, List.length (kept_row r s) = List.length s.
Proof. intro s. induction s as [|d s IH]; intro r; [reflexivity|]. cbn [kept_row]. destruct (retold r d); cbn; now rewrite IH. Qed.

(** * Pieces *)
Lemma css_fill : forall s, lookup (lit "fill") (piece_css s) = match (if fl_invert (s_flags s) then s_bg s else s_fg s) with Some c => Some (color_hex c) | None => None end.
Proof.
  intros [t fg bg lk [b1 b2 b3 b4 b5 b6 b7 b8 b9 b10] rs]. unfold piece_css, wanted_css.
  cbn [s_flags s_fg s_bg fl_bold fl_dim fl_italic fl_underline fl_invert].
  destruct b1, b2, b3, b4, b7, fg, bg; reflexivity.
Qed.
Lemma css_in : forall s n v, n <> lit "fill" -> In (n, v) (piece_css s) <-> In (n, v) (wanted_css (s_flags s)).
Proof.
  intros s n v N. unfold piece_css. rewrite in_app_iff. split; [|tauto]. intros [H|H]; [exact H|exfalso].
  destruct (if fl_invert (s_flags s) then s_bg s else s_fg s); [destruct H as [H|[]]; injection H as H _; congruence|destruct H].
Qed.
Ltac css := match goal with |- _ <-> ?b = true => rewrite css_in by discriminate; unfold wanted_css;
  rewrite !in_app_iff; split;
  [intro; repeat match goal with H : _ \/ _ |- _ => destruct H | H : In _ (if ?b then _ else _) |- _ => destruct b eqn:? | H : In _ (_ :: _) |- _ => destruct H | H : In _ [] |- _ => destruct H | H : (_, _) = (_, _) |- _ => discriminate H end; auto
  |intros ->; cbn; auto 10] end.
Lemma bold_css : forall s, In (lit "font-weight", lit "bold") (piece_css s) <-> fl_bold (s_flags s) = true. Proof. intro s. css. Qed.
Lemma dim_css : forall s, In (lit "opacity", lit "0.7") (piece_css s) <-> fl_dim (s_flags s) = true. Proof. intro s. css. Qed.
Lemma italic_css : forall s, In (lit "font-style", lit "italic") (piece_css s) <-> fl_italic (s_flags s) = true. Proof. intro s. css. Qed.
Lemma underline_css : forall s, In (lit "text-decoration", lit "underline") (piece_css s) <-> fl_underline (s_flags s) = true. Proof. intro s. css. Qed.

Lemma ink_is : forall nums dfg dbg p, ink nums dfg dbg p = Some (color_hex (if fl_invert (s_flags (p_span p))
   then match s_bg (p_span p) with Some c => c | None => dbg end else match s_fg (p_span p) with Some c => c | None => dfg end)).
Proof.
  intros nums dfg dbg p. unfold ink. rewrite css_fill. destruct (fl_invert (s_flags (p_span p))) eqn:E.
  - destruct (s_bg (p_span p)) eqn:Eb; [reflexivity|]. unfold piece_nodes. cbv zeta. rewrite E, Eb. reflexivity.
  - destruct (s_fg (p_span p)) eqn:Ef; [reflexivity|]. unfold piece_nodes. cbv zeta. rewrite E, Ef. reflexivity.
Qed.
Lemma paper_is : forall nums dfg dbg p, paper nums dfg dbg p = Some (color_hex (if fl_invert (s_flags (p_span p))
   then match s_fg (p_span p) with Some c => c | None => dfg end else match s_bg (p_span p) with Some c => c | None => dbg end)).
Proof. intros. reflexivity. Qed.
Lemma hex_asked : forall d c, hex_of d (as_asked (c_rgb c)) = Some (color_hex c).
Proof. intros d c. unfold as_asked, color_hex. destruct (c_rgb c) as [[r g] b] eqn:E. cbn [hex_of color_hex]. unfold color_hex. reflexivity. Qed.
Lemma hex_layer : forall d o o', o' = o \/ eq_color o' o ->
  Some (color_hex (match o' with Some c => c | None => d end)) =
  hex_of d (match shade_o as_asked o with Some x => x | None => EDefault end).
Proof.
  intros d o o' H. assert (E : option_map c_rgb o' = option_map c_rgb o).
  { destruct H as [->|H]; [reflexivity|]. destruct o as [c|], o' as [c'|]; cbn in H; try contradiction; [|reflexivity].
    destruct H as [H _]. cbn. now rewrite H. }
  destruct o as [c|], o' as [c'|]; cbn in E; try discriminate; cbn [shade_o option_map]; [|reflexivity].
  rewrite hex_asked. f_equal. unfold color_hex. injection E as ->. reflexivity.
Qed.
