(** Proofs about the report of [slate debug]. *)
From Coq Require Import ZArith List Bool Lia String.
From Verif Require Import PyBase PyLemmas F64 SpaceModel ColorTab ColorModel ColorSpec ColorProofs ColorProofs2 AnsiRe SpanModel CoreModel SpanSpec SpanProofs SpanProofs2
  HueSpec HueProofs3 KeyProofs MainModel MainSpec.
Import ListNotations.
Open Scope Z_scope.
Open Scope list_scope.

(** * Filling lines *)
Section Styles.
Variable e : env.
Variable W : Z.
Definition word_ok (s : span) : Prop := 0 < zlen (s_text s) <= W.
Definition sep_of (l : list span) (s : span) : Prop := In s l \/ s = plain_span [NL] \/ s = plain_span [32].
Lemma plain_str : forall t, span_str e (plain_span t) = t.
Proof. intro t. unfold span_str, plain_span. cbn. now rewrite app_nil_r. Qed.
Lemma span_str_nonempty : forall s, s_text s <> [] -> span_str e s <> [].
Proof.
  intros s H. unfold span_str. destruct (str_eqb (s_link s) []); [|discriminate].
  destruct (span_sequences e s); [|discriminate]. destruct (s_text s); [congruence|discriminate].
Qed.
Lemma join_snoc : forall sep c x, c <> [] -> join sep (c ++ [x]) = join sep c ++ sep ++ x.
Proof.
  intros sep c x. induction c as [|y [|z c] IH]; intro H; [congruence|reflexivity|].
  change (join sep ((y :: z :: c) ++ [x])) with (y ++ sep ++ join sep ((z :: c) ++ [x])). rewrite IH by discriminate.
  change (join sep (y :: z :: c)) with (y ++ sep ++ join sep (z :: c)). now rewrite !app_assoc.
Qed.
Lemma join_two : forall sep x y r, join sep (x :: y :: r) = x ++ sep ++ join sep (y :: r).
Proof. reflexivity. Qed.

Definition full (chunks : list (list str)) : Prop :=
  forall a c1 x c2 b, chunks = a ++ c1 :: (x :: c2) :: b -> W < zlen (join [32] (c1 ++ [x])).
Lemma style_spec : forall l line c, Forall word_ok l -> line <> [] -> c <> [] -> zlen (join [32] c) <= W ->
  exists d chunks spans, style_line e W line (zlen (join [32] c) + 1) l = line ++ flat_map (span_str e) spans /\
    Forall (sep_of l) spans /\ incl l spans /\
    concat ((c ++ d) :: chunks) = c ++ map s_text l /\
    join [NL] (map (join [32]) ((c ++ d) :: chunks)) = join [32] c ++ concat (map s_text spans) /\
    Forall (fun k => k <> []) ((c ++ d) :: chunks) /\ Forall (fun k => zlen (join [32] k) <= W) ((c ++ d) :: chunks) /\ full ((c ++ d) :: chunks).
Proof.
  induction l as [|s l IH]; intros line c Hl Hline Hc HW.
  { exists [], [], []. cbn [style_line flat_map map concat]. rewrite !app_nil_r. repeat split; auto.
    - intros ? [].
    - intros a c1 x c2 b E. destruct a as [|? [|]]; discriminate. }
  inversion Hl as [|? ? Hs Hl']; subst. cbn [style_line]. unfold span_len.
  assert (P : 0 <= zlen (join [32] c)) by apply zlen_nonneg.
  destruct (W <? zlen (join [32] c) + 1 + zlen (s_text s)) eqn:O.
  - rewrite Z.eqb_refl, andb_false_r.
    assert (N : (line ++ [NL]) ++ span_str e s <> []) by (destruct line; discriminate).
    destruct (IH ((line ++ [NL]) ++ span_str e s) [s_text s] Hl' N ltac:(discriminate) ltac:(cbn [join]; apply Hs)) as [d [chunks [spans [E [S1 [S2 [K [J [F1 [F2 F3]]]]]]]]]].
    cbn [join] in E. rewrite Z.add_0_l.
    exists [], (([s_text s] ++ d) :: chunks), (plain_span [NL] :: s :: spans). rewrite app_nil_r.
    split; [rewrite E; cbn [flat_map]; rewrite plain_str, <- !app_assoc; reflexivity|].
    split; [constructor; [right; left; reflexivity|]; constructor; [left; left; reflexivity|]; eapply Forall_impl; [|exact S1]; intros k [H|H]; [left; now right|now right]|].
    split; [intros k [->|Hk]; right; [now left|right; now apply S2]|].
    split; [cbn [concat map]; cbn [concat map] in K; now rewrite K|].
    split.
    { cbn [map]. rewrite join_two. cbn [map] in J. rewrite J. reflexivity. }
    split; [now constructor|]. split; [now constructor|].
    intros a c1 x c2 b H. destruct a as [|a0 a].
    + cbn [app] in H. injection H as <- <- _ _. rewrite join_snoc by assumption. rewrite !zlen_app. apply Z.ltb_lt in O. change (zlen [32]) with 1. lia.
    + cbn [app] in H. injection H as _ H. apply (F3 a c1 x c2 b). exact H.
  - assert (B : negb (str_eqb line []) && negb (zlen (join [32] c) + 1 =? 0) = true).
    { apply andb_true_iff. split; apply negb_true_iff; [destruct line; [congruence|reflexivity]|apply Z.eqb_neq; lia]. }
    rewrite B. apply Z.ltb_ge in O.
    assert (L : zlen (join [32] (c ++ [s_text s])) = zlen (join [32] c) + 1 + zlen (s_text s)) by (rewrite join_snoc by assumption; rewrite !zlen_app; change (zlen [32]) with 1; lia).
    assert (N : (line ++ [32]) ++ span_str e s <> []) by (destruct line; discriminate).
    destruct (IH ((line ++ [32]) ++ span_str e s) (c ++ [s_text s]) Hl' N ltac:(now destruct c) ltac:(lia)) as [d [chunks [spans [E [S1 [S2 [K [J [F1 [F2 F3]]]]]]]]]].
    exists (s_text s :: d), chunks, (plain_span [32] :: s :: spans).
    replace (zlen (join [32] c) + 1 + (zlen (s_text s) + 1)) with (zlen (join [32] (c ++ [s_text s])) + 1) by lia.
    rewrite <- app_assoc in K, J, F1, F2, F3. cbn [app] in K, J, F1, F2, F3.
    split; [rewrite E; cbn [flat_map]; rewrite plain_str, <- !app_assoc; reflexivity|].
    split; [constructor; [right; right; reflexivity|]; constructor; [left; left; reflexivity|]; eapply Forall_impl; [|exact S1]; intros k [H|H]; [left; now right|now right]|].
    split; [intros k [->|Hk]; right; [now left|right; now apply S2]|].
    split; [rewrite K, <- app_assoc; reflexivity|]. split.
    { rewrite J, join_snoc by assumption. cbn [map concat plain_span s_text]. now rewrite <- !app_assoc. }
    auto.
Qed.
Lemma styles_all : forall s l, word_ok s -> Forall word_ok l -> 
  exists chunks spans, style_line e W [] 0 (s :: l) = flat_map (span_str e) spans /\ Forall (sep_of (s :: l)) spans /\ incl (s :: l) spans /\
    concat chunks = map s_text (s :: l) /\ join [NL] (map (join [32]) chunks) = concat (map s_text spans) /\
    Forall (fun k => k <> []) chunks /\ Forall (fun k => zlen (join [32] k) <= W) chunks /\ full chunks.
Proof.
  intros s l Hs Hl. cbn [style_line]. unfold span_len. destruct (W <? 0 + zlen (s_text s)) eqn:O; [apply Z.ltb_lt in O; unfold word_ok in Hs; lia|].
  cbn [str_eqb negb andb app]. rewrite !Z.add_0_l.
  assert (T : s_text s <> []) by (intro T; unfold word_ok in Hs; rewrite T in Hs; destruct Hs as [Hs _]; now apply Z.lt_irrefl in Hs).
  destruct (style_spec l (span_str e s) [s_text s] Hl (span_str_nonempty s T) ltac:(discriminate) ltac:(cbn [join]; apply Hs)) as [d [chunks [spans [E [S1 [S2 [K [J [F1 [F2 F3]]]]]]]]]].
  cbn [join] in E, J. exists (([s_text s] ++ d) :: chunks), (s :: spans). rewrite E.
  split; [reflexivity|]. split; [constructor; [left; now left|]; eapply Forall_impl; [|exact S1]; intros k [H|H]; [left; now right|now right]|].
  split; [intros k [->|Hk]; [now left|right; now apply S2]|]. split; [exact K|]. split; [rewrite J; reflexivity|]. auto.
Qed.
End Styles.

(** * The color line *)
Definition hue_span (s : span) : Prop := exists c, s = mkSpan [32] None (Some c) [] no_flags true /\ c_ctor c = None.
Lemma hue_quiet : forall e s, hue_span s -> quiet_span e s.
Proof.
  intros e s [c [-> N]]. unfold quiet_span. cbn [s_text s_link s_fg s_bg]. split; [unfold no_esc; cbn; intuition discriminate|].
  split; [auto|]. split; [auto|]. intros c' [H|H]; [discriminate|]. injection H as <-. apply color_calm. intros k E. congruence.
Qed.
Lemma as_bg_ctor : forall c, color_ok c -> c_bg c = false -> as_background c true None = Ok (mkColor (c_rgb c) true (c_alpha c) TRUE_COLOR None).
Proof.
  intros c H B. destruct (as_background_spec c true None H) as [c' [E _]]. rewrite E.
  unfold as_background in E. rewrite B in E. cbn [Bool.eqb] in E. unfold plain_color, new_color in E.
  destruct (valid_rgb (c_rgb c)); [|discriminate]. now injection E as <-.
Qed.
Lemma debug_hue_ok : forall w i, exists c, debug_hue w i = Ok c /\ c_ctor c = None.
Proof.
  intros w i. unfold debug_hue.
  assert (B : match from_hex (lit "#0000ff") fone with Ok b => match lighten b 2 default_step with Ok _ => negb (c_bg b) | Err _ => false end | Err _ => false end = true)
    by (vm_compute; reflexivity).
  destruct (from_hex (lit "#0000ff") fone) as [b|]; [|discriminate]. cbn [bindr].
  destruct (lighten b 2 default_step) as [c|] eqn:EL; [|discriminate]. cbn [bindr].
  assert (Hc : color_ok c) by exact (lighten_ok _ _ _ _ EL).
  assert (Bc : c_bg c = false).
  { apply negb_true_iff in B. unfold lighten, shade_alpha, blend in EL. destruct (f_finite (fofZ 2)); [|discriminate]. cbn [bindr] in EL.
    destruct (c_rgb b) as [[? ?] ?]. destruct (c_rgb WHITE) as [[? ?] ?].
    destruct (blend_channel _ _ _); [|discriminate]. cbn [bindr] in EL. destruct (blend_channel _ _ _); [|discriminate]. cbn [bindr] in EL.
    destruct (blend_channel _ _ _); [|discriminate]. cbn [bindr] in EL. unfold plain_color, new_color in EL. destruct (valid_rgb _); [|discriminate].
    injection EL as <-. exact B. }
  destruct (hue_shift_total c (fmul (fdiv fone (fofZ w)) (fofZ i)) Hc) as [k [EK [Bk _]]]. rewrite EK. cbn [bindr].
  assert (Hk : color_ok k) by exact (hue_shift_ok _ _ _ EK).
  rewrite as_bg_ctor by congruence. eexists. split; reflexivity.
Qed.
Lemma color_line_spec : forall e w n i, exists l, color_line e w i n = Ok (flat_map (span_str e) l) /\ Forall hue_span l /\ concat (map s_text l) = repeat 32 n.
Proof.
  intros e w n. induction n as [|n IH]; intro i; [exists []; cbn; auto|].
  cbn [color_line]. destruct (debug_hue_ok w i) as [c [E N]]. rewrite E. cbn [bindr].
  destruct (IH (i + 1)) as [l [El [Fl Tl]]]. rewrite El. cbn [bindr].
  exists (mkSpan [32] None (Some c) [] no_flags true :: l). split; [reflexivity|]. split; [apply Forall_cons; [exists c; split; [reflexivity|exact N]|exact Fl]|].
  cbn [map concat s_text repeat]. now rewrite Tl.
Qed.

(** * The table *)
Definition fact_spans (ml mr : Z) (f : str * str) : list span := [styled_span (ljust (fst f) ml) FDim; plain_span (rjust (snd f) mr)].
Definition contrast_of (e : env) (t : triple) : triple := if fltb (flit 179 1000) (luminance e t) then (35, 35, 35) else (245, 245, 245).
Definition swatch_spans (e : env) (ml mr : Z) (label : str) (c : color) : list span :=
  [styled_span (ljust label ml) FDim; plain_span (spaces (mr - zlen (color_hex c)));
   mkSpan (color_hex c) (Some (mkColor (c_rgb c) false fone TRUE_COLOR (Some (color_hex c))))
     (Some (mkColor (contrast_of e (c_rgb c)) true fone TRUE_COLOR None)) [] no_flags true].
Lemma row_fact : forall e ml mr buff label value, contains (lit "ground color") label = false ->
  debug_row e ml mr buff (label, Some value) = Ok (buff ++ flat_map (span_str e) (fact_spans ml mr (label, value)) ++ [NL]).
Proof.
  intros e ml mr buff label value H. unfold debug_row. rewrite H. unfold fact_spans. cbn [flat_map fst snd]. rewrite app_nil_r, <- !app_assoc. reflexivity.
Qed.
Lemma row_swatch : forall e ml mr buff label c, color_ok c -> contains (lit "ground color") label = true ->
  debug_row e ml mr buff (label, Some (color_hex c)) = Ok (buff ++ flat_map (span_str e) (swatch_spans e ml mr label c) ++ [NL]).
Proof.
  intros e ml mr buff label c Hc H. unfold debug_row. rewrite H. destruct (hex_roundtrip c Hc) as [d1 [d2 [d3 [d4 [d5 [d6 [_ [_ R]]]]]]]]. rewrite R. cbn [bindr].
  unfold contrast. cbn [c_rgb c_bg].
  assert (K : (let* k := if fltb (flit 179 1000) (luminance e (c_rgb c)) then as_background DEFAULT_BLACK false None else as_background DEFAULT_WHITE false None in as_background k true None)
    = Ok (mkColor (contrast_of e (c_rgb c)) true fone TRUE_COLOR None)).
  { unfold contrast_of. destruct (fltb _ _); reflexivity. }
  unfold bindr in K |- *.
  destruct (if fltb (flit 179 1000) (luminance e (c_rgb c)) then as_background DEFAULT_BLACK false None else as_background DEFAULT_WHITE false None) as [k|]; [|discriminate].
  rewrite K. unfold swatch_spans. cbn [flat_map fst snd]. rewrite plain_str, app_nil_r, <- !app_assoc. reflexivity.
Qed.
Definition table_spans (e : env) (v : view) (ml mr : Z) : list span :=
  let nl := plain_span [NL] in
  styled_span (lit "Environment:") FBold :: nl ::
  flat_map (fun f => fact_spans ml mr f ++ [nl]) (env_facts v) ++
  nl :: styled_span (lit "Terminal state:") FBold :: nl ::
  flat_map (fun f => fact_spans ml mr f ++ [nl]) (firstn 3 (state_facts e v)) ++
  swatch_spans e ml mr (lit "foreground color") (v_fg v) ++ nl :: swatch_spans e ml mr (lit "background color") (v_bg v).
Lemma table_spec : forall e v ml mr, color_ok (v_fg v) -> color_ok (v_bg v) ->
  debug_table e ml mr [] (debug_rows e v) = Ok (flat_map (span_str e) (table_spans e v ml mr) ++ [NL]).
Proof.
  intros e v ml mr Hf Hb. unfold debug_rows. cbn [debug_table].
  change (debug_row e ml mr [] (lit "Environment:", None)) with (Ok (span_str e (styled_span (lit "Environment:") FBold) ++ [NL])). cbn [bindr].
  do 4 (rewrite row_fact by reflexivity; cbn [bindr]).
  match goal with |- context [debug_row e ml mr ?b (lit "Terminal state:", None)] => set (bf := b) end.
  assert (N : bf <> []) by (subst bf; intro H; repeat (apply app_eq_nil in H; destruct H as [H _]); discriminate H).
  unfold debug_row at 1. assert (N' : str_eqb bf [] = false) by (destruct bf; [congruence|reflexivity]). rewrite N'. cbn [bindr].
  do 3 (rewrite row_fact by reflexivity; cbn [bindr]). do 2 (rewrite row_swatch by (assumption || reflexivity); cbn [bindr]).
  f_equal. subst bf. unfold table_spans, env_facts, state_facts. cbv zeta. cbn [firstn flat_map app]. unfold fact_spans, swatch_spans. cbn [flat_map app fst snd].
  rewrite !plain_str. repeat (cbn [app]; rewrite <- ?app_assoc). rewrite ?app_nil_r. cbn [app]. reflexivity.
Qed.
