(** Lemmas about SVG exports. *)
From Coq Require Import ZArith List Bool Lia String Sorting.Sorted.
From Verif Require Import PyBase PyLemmas F64 ColorModel ColorSpec ColorProofs ColorProofs2 SpanModel SpanSpec SpanProofs2 GroupProofs ScreenModel TermModel SvgSpec.
Import ListNotations.
Open Scope Z_scope.
Open Scope list_scope.

(** * Classes *)
Lemma eq_color_trans : forall a b c, eq_color a b -> eq_color b c -> eq_color a c.
Proof. intros [a|] [b|] [c|]; cbn; try tauto. intros [-> H1] [-> H2]. split; auto. eapply feqb_trans; eauto. Qed.
Lemma attrs_eqb_iff : forall a b, attrs_eqb a b = true <-> s_text a = s_text b /\ same_style a b.
Proof.
  intros a b. unfold attrs_eqb, style_attrs_eqb, same_style.
  rewrite !andb_true_iff, !str_eqb_eq, !opt_color_eqb_iff, flags_eqb_iff. tauto.
Qed.
Lemma same_style_trans : forall a b c, same_style a b -> same_style b c -> same_style a c.
Proof.
  unfold same_style. intros a b c [H1 [H2 [H3 H4]]] [G1 [G2 [G3 G4]]].
  repeat split; try congruence; eapply eq_color_trans; eauto.
Qed.
Lemma same_style_sym : forall a b, same_style a b -> same_style b a.
Proof.
  unfold same_style. intros a b [H1 [H2 [H3 H4]]].
  repeat split; auto; [destruct (s_fg a), (s_fg b)|destruct (s_bg a), (s_bg b)]; cbn in *; try tauto;
    rewrite feqb_sym; intuition.
Qed.

(** earlier pieces have smaller classes, or the same class and the same attributes *)
Definition follows (a b : piece) : Prop :=
  p_class a < p_class b \/ (p_class a = p_class b /\ s_text (p_span a) = s_text (p_span b) /\ same_style (p_span a) (p_span b)).
Lemma follows_trans : forall a b c, follows a b -> follows b c -> follows a c.
Proof.
  intros a b c [H|[H1 [H2 H3]]] [G|[G1 [G2 G3]]]; unfold follows; try (left; lia).
  right. split; [lia|]. split; [congruence|]. eapply same_style_trans; eauto.
Qed.
Definition head_ok (i : Z) (prev : option span) (l : list piece) : Prop :=
  match l with
  | [] => True
  | p :: _ => match prev with
              | None => i < p_class p
              | Some q => i < p_class p \/ (i = p_class p /\ s_text q = s_text (p_span p) /\ same_style q (p_span p))
              end
  end.

Lemma svg_row_sorted : forall spans x y i prev l i' prev' rest, svg_row spans x y i prev = (l, i', prev') ->
  Sorted follows rest -> head_ok i' prev' rest -> Sorted follows (l ++ rest) /\ head_ok i prev (l ++ rest).
Proof.
  induction spans as [|s spans IH]; intros x y i prev l i' prev' rest H S Hh; cbn [svg_row] in H.
  - injection H as <- <- <-. auto.
  - set (j := match prev with Some p => if attrs_eqb p s then i else i + 1 | None => i + 1 end) in *.
    destruct (svg_row spans (x + span_len s) y j (Some s)) as [[l1 i1] p1] eqn:E. injection H as <- <- <-.
    destruct (IH _ _ _ _ _ _ _ rest E S Hh) as [H1 H2]. cbn [app]. split.
    + constructor; auto. destruct (l1 ++ rest) as [|p t]; constructor. exact H2.
    + cbn [head_ok]. change (p_class (x, y, j, s)) with j. change (p_span (x, y, j, s)) with s. unfold j. destruct prev as [q|]; [|lia].
      destruct (attrs_eqb q s) eqn:A; [|left; lia]. right. apply attrs_eqb_iff in A. split; auto.
Qed.
Lemma svg_rows_sorted : forall e rows y i prev l, svg_rows e rows y i prev = Ok l -> Sorted follows l /\ head_ok i prev l.
Proof.
  intros e rows. induction rows as [|row rows IH]; intros y i prev l H; cbn [svg_rows] in H.
  - injection H as <-. split; [constructor|exact I].
  - unfold bindr in H. destruct (group e row) as [spans|]; [|discriminate].
    destruct (svg_row spans 0 y i prev) as [[l1 i1] p1] eqn:E.
    destruct (svg_rows e rows (y + 1) i1 p1) as [r|] eqn:R; [|discriminate]. injection H as <-.
    destruct (IH _ _ _ _ R) as [S Hh]. eapply svg_row_sorted; eauto.
Qed.

Lemma color_hex_eq : forall a b, c_rgb a = c_rgb b -> color_hex a = color_hex b.
Proof. intros a b H. unfold color_hex. now rewrite H. Qed.
Lemma styles_eq : forall a b, same_style a b -> get_svg_styles a = get_svg_styles b.
Proof.
  intros a b [H1 [H2 [H3 _]]]. unfold get_svg_styles. rewrite H1.
  destruct (s_fg a) as [c|], (s_fg b) as [d|]; cbn in H2; try contradiction;
    try rewrite (color_hex_eq c d (proj1 H2));
    (destruct (s_bg a) as [c'|], (s_bg b) as [d'|]; cbn in H3; try contradiction;
     try rewrite (color_hex_eq c' d' (proj1 H3)); reflexivity).
Qed.

Lemma in_two : forall A (l : list A) a b, In a l -> In b l -> exists p q, l = p ++ q /\
  ((exists q', q = a :: q' /\ In b q') \/ (exists q', q = b :: q' /\ In a q') \/ a = b).
Proof.
  intros A l a b Ha Hb. apply in_split in Ha. destruct Ha as [p [q ->]].
  apply in_app_or in Hb. destruct Hb as [Hb|[Hb|Hb]].
  - apply in_split in Hb. destruct Hb as [p1 [p2 ->]]. exists p1, (b :: p2 ++ a :: q). split; [now rewrite <- app_assoc|].
    right. left. exists (p2 ++ a :: q). split; auto. apply in_or_app. right. now left.
  - exists p, (a :: q). split; auto.
  - exists p, (a :: q). split; auto. left. eauto.
Qed.
Lemma sorted_suffix : forall p q, StronglySorted follows (p ++ q) -> StronglySorted follows q.
Proof. induction p as [|x p IH]; intros q H; auto. inversion H; auto. Qed.

Lemma shared_class : forall e s l, export_svg e s = Ok l -> forall a b, In a l -> In b l -> p_class a = p_class b ->
  a = b \/ (s_text (p_span a) = s_text (p_span b) /\ same_style (p_span a) (p_span b) /\
            get_svg_styles (p_span a) = get_svg_styles (p_span b)).
Proof.
  intros e s l H a b Ha Hb Hc. apply svg_rows_sorted in H. destruct H as [S _].
  apply Sorted_StronglySorted in S; [|exact follows_trans].
  destruct (in_two _ _ _ _ Ha Hb) as [p [q [-> [[q' [-> Hq]]|[[q' [-> Hq]]|E]]]]]; [| |now left].
  - apply sorted_suffix in S. inversion S as [|? ? _ F]; subst. rewrite Forall_forall in F.
    destruct (F _ Hq) as [L|[_ [T Y]]]; [lia|]. right. split; auto. split; auto. now apply styles_eq.
  - apply sorted_suffix in S. inversion S as [|? ? _ F]; subst. rewrite Forall_forall in F.
    destruct (F _ Hq) as [L|[_ [T Y]]]; [lia|]. right. apply same_style_sym in Y. split; auto. split; auto. now apply styles_eq.
Qed.

(** * Columns and rows *)
Lemma svg_row_layout : forall spans x y i prev l i' prev', svg_row spans x y i prev = (l, i', prev') ->
  map p_span l = spans /\ Forall (fun p => p_row p = y) l /\
  forall a p b, l = a ++ p :: b -> p_column p = x + characters_in a.
Proof.
  induction spans as [|s spans IH]; intros x y i prev l i' prev' H; cbn [svg_row] in H.
  - injection H as <- _ _. split; auto. split; auto. intros a0 p b H; destruct a0; discriminate.
  - set (j := match prev with Some p => if attrs_eqb p s then i else i + 1 | None => i + 1 end) in *.
    destruct (svg_row spans (x + span_len s) y j (Some s)) as [[l1 i1] p1] eqn:E. injection H as <- _ _.
    destruct (IH _ _ _ _ _ _ _ E) as [H1 [H2 H3]]. split; [cbn; now rewrite H1|]. split; [now constructor|].
    intros [|a0 a] p b Hl; cbn [app] in Hl.
    + injection Hl as <- _. cbn. lia.
    + injection Hl as <- Hl. rewrite (H3 _ _ _ Hl). cbn [characters_in fold_right]. unfold span_len, p_span at 1. cbn [snd].
      unfold characters_in. lia.
Qed.

Lemma of_row_all : forall y l, Forall (fun p => p_row p = y) l -> of_row y l = l.
Proof. intros y l H. induction H as [|p l Hp H IH]; auto. cbn. rewrite (proj2 (Z.eqb_eq _ _) Hp). now f_equal. Qed.
Lemma of_row_none : forall y l, Forall (fun p => p_row p <> y) l -> of_row y l = [].
Proof. intros y l H. induction H as [|p l Hp H IH]; auto. cbn. rewrite (proj2 (Z.eqb_neq _ _) Hp). exact IH. Qed.
Lemma of_row_app : forall y a b, of_row y (a ++ b) = of_row y a ++ of_row y b.
Proof. intros. apply filter_app. Qed.

Lemma svg_rows_layout : forall e rows y i prev l, svg_rows e rows y i prev = Ok l ->
  Forall (fun p => y <= p_row p < y + zlen rows) l /\
  (forall k row, nth_error rows (Z.to_nat k) = Some row -> 0 <= k -> group e row = Ok (map p_span (of_row (y + k) l))) /\
  (forall a p b, l = a ++ p :: b -> p_column p = characters_in (of_row (p_row p) a)).
Proof.
  intros e rows. induction rows as [|row rows IH]; intros y i prev l H; cbn [svg_rows] in H.
  - injection H as <-. split; [constructor|]. split; [intros k row Hk; destruct (Z.to_nat k); discriminate|].
    intros a0 p b H; destruct a0; discriminate.
  - unfold bindr in H. destruct (group e row) as [spans|] eqn:G; [|discriminate].
    destruct (svg_row spans 0 y i prev) as [[l1 i1] p1] eqn:E.
    destruct (svg_rows e rows (y + 1) i1 p1) as [r|] eqn:R; [|discriminate]. injection H as <-.
    destruct (svg_row_layout _ _ _ _ _ _ _ _ E) as [H1 [H2 H3]]. destruct (IH _ _ _ _ R) as [R1 [R2 R3]].
    rewrite zlen_cons. pose proof (zlen_nonneg _ rows) as Hz.
    assert (N1 : Forall (fun p => p_row p <> y) r) by (eapply Forall_impl; [|exact R1]; cbn; intros; lia).
    split; [|split].
    + apply Forall_app. split; [|eapply Forall_impl; [|exact R1]; cbn; intros; lia].
      eapply Forall_impl; [|exact H2]; cbn; intros; lia.
    + intros k row' Hk Hk0. destruct (Z.to_nat k) as [|k'] eqn:Ek; cbn [nth_error] in Hk.
      * injection Hk as <-. replace (y + k) with y by lia.
        rewrite of_row_app, (of_row_all y l1 H2), (of_row_none y r N1), app_nil_r, H1. exact G.
      * specialize (R2 (k - 1) row'). replace (Z.to_nat (k - 1)) with k' in R2 by lia.
        rewrite R2 by (auto; lia). replace (y + 1 + (k - 1)) with (y + k) by lia. f_equal. f_equal.
        rewrite of_row_app, (of_row_none (y + k) l1); [reflexivity|]. eapply Forall_impl; [|exact H2]; cbn; intros; lia.
    + intros a p b Hl. apply app_eq_app in Hl. destruct Hl as [m [[Ha Hb]|[Ha Hb]]].
      * destruct m as [|q m].
        { cbn in Hb. subst. rewrite app_nil_r in *. specialize (R3 [] p b eq_refl).
          rewrite R3. cbn. rewrite of_row_none; [reflexivity|].
          assert (p_row p <> y) by (inversion N1; auto).
          eapply Forall_impl; [|exact H2]; cbn; intros; lia. }
        { cbn in Hb. injection Hb as <- Hb. subst l1.
          rewrite (H3 a p m eq_refl). apply Forall_app in H2. destruct H2 as [H2 H2']. inversion H2'; subst.
          rewrite of_row_all by assumption. lia. }
      * subst a. rewrite (R3 m p b Hb). rewrite of_row_app, (of_row_none _ l1); [reflexivity|].
        assert (p_row p <> y). { rewrite Hb in N1. apply Forall_app in N1. destruct N1 as [_ N1]. inversion N1; auto. }
        eapply Forall_impl; [|exact H2]; cbn; intros; lia.
Qed.

Lemma export_layout : forall e s l, export_svg e s = Ok l ->
  Forall (fun p => 0 <= p_row p < zlen (sc_cells s)) l /\
  (forall y row, nth_error (sc_cells s) (Z.to_nat y) = Some row -> 0 <= y -> group e row = Ok (map p_span (of_row y l))) /\
  (forall a p b, l = a ++ p :: b -> p_column p = characters_in (of_row (p_row p) a)).
Proof. intros e s l H. exact (svg_rows_layout e (sc_cells s) 0 0 None l H). Qed.

(** * Styles *)
Lemma if_same : forall A (b : bool) (d : A), (if b then d else d) = d.
Proof. intros A [|] d; reflexivity. Qed.
Lemma svg_styles_spec : forall s, get_svg_styles s = wanted_css (s_flags s) ++
  match (if fl_invert (s_flags s) then s_bg s else s_fg s) with Some c => [(lit "fill", color_hex c)] | None => [] end.
Proof.
  intros [t fg bg lk [b1 b2 b3 b4 b5 b6 b7 b8 b9 b10] rs]. unfold get_svg_styles, wanted_css.
  cbn [s_flags s_fg s_bg fl_bold fl_dim fl_italic fl_underline fl_invert fold_left all_flags get_flag style_to_css].
  cbn [fl_bold fl_dim fl_italic fl_underline fl_invert fl_blink fl_fast_blink fl_conceal fl_strike fl_opaque]. rewrite !if_same.
  destruct b1, b2, b3, b4, b7, fg, bg; reflexivity.
Qed.
Lemma strike_ignored : forall s v, get_svg_styles (as_flag FStrike s v) = get_svg_styles s.
Proof. intros [t fg bg lk [b1 b2 b3 b4 b5 b6 b7 b8 b9 b10] rs] v. rewrite !svg_styles_spec. reflexivity. Qed.

(** * Markup *)
Lemma hex_inert : forall c, color_ok c -> inert (color_hex c) /\ svg_color (color_hex c).
Proof.
  intros c H. destruct (hex_roundtrip c H) as [d1 [d2 [d3 [d4 [d5 [d6 [-> [F _]]]]]]]].
  repeat match goal with H : Forall _ (_ :: _) |- _ => inversion H; clear H; subst end.
  unfold upper_hex in *. split.
  - unfold inert. cbn [In]. repeat split; intro G; intuition lia.
  - cbn [svg_color]. split; auto. split; [reflexivity|]. cbn [forallb]. unfold hex_digit_char.
    repeat (rewrite andb_true_iff; split); auto; rewrite !orb_true_iff, !andb_true_iff, !Z.leb_le; lia.
Qed.
Lemma escape_inert : forall t, inert_text (escape_html t).
Proof. intro t. split; intro H; apply escape_safe in H; apply H; cbn; auto. Qed.


Lemma inert_app : forall a b, inert a -> inert b -> inert (a ++ b).
Proof. unfold inert. intros a b H G. repeat split; intro I; apply in_app_or in I; tauto. Qed.
Lemma inert_join : forall sep l, inert sep -> Forall inert l -> inert (join sep l).
Proof.
  intros sep l Hs H. induction H as [|a l Ha H IH]; [cbn; unfold inert; cbn; tauto|].
  destruct l as [|b l]; [exact Ha|]. change (join sep (a :: b :: l)) with (a ++ sep ++ join sep (b :: l)).
  apply inert_app; auto. apply inert_app; auto.
Qed.
Lemma inert_by : forall v, forallb (fun c => negb ((c =? 39) || (c =? 60) || (c =? 38))) v = true -> inert v.
Proof.
  intros v H. rewrite forallb_forall in H. unfold inert.
  split; [|split]; intro G; apply H in G; discriminate.
Qed.
Ltac inert_lit := apply inert_by; vm_compute; reflexivity.
Lemma css_inert : forall s, (forall c, s_fg s = Some c -> color_ok c) -> (forall c, s_bg s = Some c -> color_ok c) ->
  inert (css_inline (get_svg_styles s)).
Proof.
  intros s Hf Hb. unfold css_inline. apply inert_join; [inert_lit|]. rewrite svg_styles_spec, map_app. apply Forall_app. split.
  - unfold wanted_css. destruct (fl_bold _), (fl_dim _), (fl_italic _), (fl_underline _); repeat (apply Forall_cons; [inert_lit|]); constructor.
  - assert (H : forall c, (if fl_invert (s_flags s) then s_bg s else s_fg s) = Some c -> color_ok c) by (destruct (fl_invert _); auto).
    destruct (if fl_invert (s_flags s) then s_bg s else s_fg s) as [c|]; [|constructor].
    apply Forall_cons; [|constructor]. cbn [fst snd]. apply inert_app; [inert_lit|]. apply inert_app; [inert_lit|]. apply hex_inert. auto.
Qed.

Lemma svg_markup : forall s n dfg dbg inline cls, color_ok dfg -> color_ok dbg ->
  (forall c, s_fg s = Some c -> color_ok c) -> (forall c, s_bg s = Some c -> color_ok c) ->
  inert (sv_x n) -> inert (sv_yrect n) -> inert (sv_width n) -> inert (sv_height n) -> inert (sv_ytext n) ->
  (forall c, cls = Some c -> inert c) ->
  let shown := match s_fg s with Some c => c | None => dfg end in
  let behind := match s_bg s with Some c => c | None => dbg end in
  let fg := if fl_invert (s_flags s) then behind else shown in
  let bg := if fl_invert (s_flags s) then shown else behind in
  exists rect text, as_svg s n dfg dbg inline cls = rect ++ text /\
    element (lit "rect") [(lit "x", sv_x n); (lit "y", sv_yrect n); (lit "fill", color_hex bg); (lit "width", sv_width n); (lit "height", sv_height n)] [] rect /\
    element (lit "text") (svg_attrs s n fg inline cls) (escape_html (s_text s)) text /\
    svg_color (color_hex bg) /\ svg_color (color_hex fg) /\ inert_text (escape_html (s_text s)) /\
    Forall (fun a => inert (snd a)) (svg_attrs s n fg inline cls).
Proof.
  intros s n dfg dbg inline cls Hdf Hdb Hf Hb Hx Hy Hw Hh Ht Hc shown behind fg bg.
  assert (Os : color_ok shown) by (unfold shown; destruct (s_fg s); auto).
  assert (Ob : color_ok behind) by (unfold behind; destruct (s_bg s); auto).
  assert (Of : color_ok fg) by (unfold fg; destruct (fl_invert _); auto).
  assert (Og : color_ok bg) by (unfold bg; destruct (fl_invert _); auto).
  assert (E : svg_colors s dfg dbg = (fg, bg)) by (unfold svg_colors, fg, bg, shown, behind; destruct (fl_invert _); reflexivity).
  unfold as_svg. rewrite E.
  eexists (lit "<rect" ++ quoted (lit "x") (sv_x n) ++ quoted (lit "y") (sv_yrect n)
    ++ quoted (lit "fill") (color_hex bg) ++ quoted (lit "width") (sv_width n)
    ++ quoted (lit "height") (sv_height n) ++ lit "></rect>"), _.
  split. { rewrite <- !app_assoc. reflexivity. }
  split.
  { pose proof (element_intro (lit "rect") [(lit "x", sv_x n); (lit "y", sv_yrect n); (lit "fill", color_hex bg); (lit "width", sv_width n); (lit "height", sv_height n)]
      (repeat (lit " ") 5) []) as K.
    match type of K with _ -> _ -> element _ _ _ ?a => match goal with |- element _ _ _ ?b => replace b with a end end.
    - apply K; [reflexivity|]. repeat constructor; discriminate.
    - cbn [repeat combine map List.concat fst snd]. unfold attr_text, quoted. cbn [fst snd]. rewrite <- !app_assoc, app_nil_r || rewrite <- !app_assoc. reflexivity. }
  split; [|split; [apply hex_inert; auto|split; [apply hex_inert; auto|split; [apply escape_inert|]]]].
  { pose proof (element_intro (lit "text") (svg_attrs s n fg inline cls)
      (lit "  " :: repeat (lit " ") (List.length (svg_attrs s n fg inline cls) - 1)) (escape_html (s_text s))) as K.
    match type of K with _ -> _ -> element _ _ _ ?a => match goal with |- element _ _ _ ?b => replace b with a end end.
    - apply K.
      + cbn [List.length]. rewrite repeat_length. unfold svg_attrs. cbn. lia.
      + constructor; [split; [discriminate|repeat constructor]|]. apply Forall_forall. intros g Hg. apply repeat_spec in Hg. subst g.
        split; [discriminate|repeat constructor].
    - unfold svg_attrs. destruct inline, cls as [c|]; cbn [app List.length Nat.sub repeat combine map List.concat fst snd]; unfold attr_text, quoted;
        cbn [fst snd]; rewrite <- !app_assoc; rewrite ?app_nil_r; reflexivity. }
  unfold svg_attrs. apply Forall_app. split; [|apply Forall_app; split].
  - repeat (apply Forall_cons; [cbn [snd]; try assumption|]); [inert_lit|now apply hex_inert|constructor].
  - destruct inline; [|constructor]. apply Forall_cons; [|constructor]. cbn [snd]. now apply css_inert.
  - destruct cls as [c|]; [|constructor]. apply Forall_cons; [|constructor]. now apply Hc.
Qed.
Lemma no_style_attribute : forall s n fg inline cls v, ~ In (lit "style", v) (svg_attrs s n fg inline cls).
Proof.
  intros s n fg inline cls v H. unfold svg_attrs in H. destruct inline, cls; cbn [app In] in H;
    repeat (destruct H as [H|H]; [discriminate H|]); exact H.
Qed.

(** the rectangle behind a terminal export *)
Lemma background_fill : forall w h bg, color_ok bg ->
  exists v, element (lit "rect") [(lit "width", w); (lit "height", h); (lit "fill", v); (lit "rx", lit "9px")] [] (svg_background w h bg) /\
    ~ svg_color v.
Proof.
  intros w h bg H. exists (35 :: color_hex bg). split.
  - pose proof (element_intro (lit "rect") [(lit "width", w); (lit "height", h); (lit "fill", 35 :: color_hex bg); (lit "rx", lit "9px")]
      (repeat (lit " ") 4) []) as K.
    match type of K with _ -> _ -> element _ _ _ ?a => match goal with |- element _ _ _ ?b => replace b with a end end.
    + apply K; [reflexivity|]. repeat constructor; discriminate.
    + unfold svg_background, quoted, attr_text. cbn [repeat combine map List.concat fst snd]. rewrite <- !app_assoc. reflexivity.
  - destruct (hex_roundtrip bg H) as [d1 [d2 [d3 [d4 [d5 [d6 [-> _]]]]]]]. intros [_ [L _]]. vm_compute in L. discriminate.
Qed.
