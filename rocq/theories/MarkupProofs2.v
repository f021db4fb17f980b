(** Proofs about experiments/markup.py, part 2: the spans, their styles, what is printed. *)
From Coq Require Import ZArith List Bool String Lia.
From Verif Require KeyProofs.
From Verif Require Import PyBase PyLemmas F64 SpaceModel ColorTab ColorModel ColorSpec SpanModel SpanSpec SpanProofs ShowModel Vt MarkupModel MarkupSpec MarkupProofs.
Import ListNotations.
Open Scope Z_scope.
Open Scope list_scope.

(** * The words of a tag *)
Lemma slashes_start : forall n t, no_slash t -> startswith (lit "/") (repeat 47 n ++ t) = negb (n =? 0)%nat.
Proof.
  intros [|n] t H; [|reflexivity]. cbn [repeat app]. destruct t as [|c t]; [reflexivity|].
  change (startswith (lit "/") (c :: t)) with ((47 =? c) && true). destruct (47 =? c) eqn:E; [|reflexivity].
  apply Z.eqb_eq in E. subst. exfalso. apply (H t). reflexivity.
Qed.
Lemma slashes_strip : forall n t, no_slash t -> lstrip_by (Z.eqb 47) (repeat 47 n ++ t) = t.
Proof.
  intros n t H. apply lstrip_repeat. destruct t as [|c t]; [exact Logic.I|]. intro E. subst. apply (H t). reflexivity.
Qed.
Lemma name_plain : forall k, no_slash (field_name k) /\ ~ color_tag (field_name k) /\ field_name k <> lit "fg" /\ field_name k <> lit "bg".
Proof.
  intro k. repeat split.
  - intros u E. destruct k; discriminate.
  - intro C. apply color_tag_iff in C. destruct k; vm_compute in C; discriminate.
  - destruct k; discriminate.
  - destruct k; discriminate.
Qed.
Lemma style_named_name : forall k, style_named (field_name k) = Some k.
Proof. destruct k; reflexivity. Qed.
Lemma style_named_none : forall t, (forall k, t <> field_name k) -> style_named t = None.
Proof.
  intros t H. unfold style_named. destruct (find _ all_flags) as [k|] eqn:F; [|reflexivity].
  apply find_some in F. destruct F as [_ E]. apply str_eqb_eq in E. exfalso. apply (H k). congruence.
Qed.
Lemma style_named_some : forall t k, style_named t = Some k -> t = field_name k.
Proof. intros t k F. apply find_some in F. destruct F as [_ E]. apply str_eqb_eq in E. congruence. Qed.

(** every word means something *)
Lemma means_exists : forall w, exists k, means w k.
Proof.
  intro w. destruct (lstrip_split 47 w) as [n [E H]]. set (t := lstrip_by (Z.eqb 47) w) in *.
  assert (N : no_slash t). { intros u Q. rewrite Q in H. apply H. reflexivity. }
  rewrite E. destruct (re_color t || in_css (lstrip_by (Z.eqb 64) t)) eqn:C.
  - exists KColor. apply means_color; [exact N|]. apply color_tag_iff, C.
  - assert (C' : ~ color_tag t). { intro X. apply color_tag_iff in X. congruence. }
    destruct (style_named t) as [k|] eqn:S.
    + apply style_named_some in S. rewrite S. eexists. apply means_style.
    + assert (S' : forall k, t <> field_name k). { intros k Q. rewrite Q, style_named_name in S. discriminate. }
      destruct n as [|n].
      * exists (KOther t). apply means_other; try assumption. congruence.
      * destruct (str_eqb t (lit "fg")) eqn:F; [apply str_eqb_eq in F; exists KColor; apply means_uncolor; auto|].
        destruct (str_eqb t (lit "bg")) eqn:B; [apply str_eqb_eq in B; exists KColor; apply means_uncolor; auto|].
        exists (KOther t). apply means_other; try assumption. intros _. split; apply str_eqb_neq; assumption.
Qed.
Lemma words_exist : forall ws, exists ks, Forall2 means ws ks.
Proof.
  induction ws as [|w ws [ks F]]; [exists []; constructor|]. destruct (means_exists w) as [k M]. exists (k :: ks). constructor; assumption.
Qed.
Lemma understood_exists : forall s, exists u, understood s u.
Proof.
  intro s. destruct (words_exist (split_space [] (tag_line s))) as [ks F]. exists (ks, snd s).
  split; [reflexivity|]. eexists. split; [apply separated_exists|exact F].
Qed.
Lemma all_understood : forall l, exists us, Forall2 understood l us.
Proof.
  induction l as [|s l [us F]]; [exists []; constructor|]. destruct (understood_exists s) as [u U]. exists (u :: us). constructor; assumption.
Qed.

(** one thing only *)
Lemma slashes_unique : forall n m t u, no_slash t -> no_slash u -> repeat 47 n ++ t = repeat 47 m ++ u -> n = m /\ t = u.
Proof.
  intros n m t u T U E.
  assert (Q : t = u). { rewrite <- (slashes_strip n t T), <- (slashes_strip m u U), E. reflexivity. }
  split; [|exact Q]. subst u. apply (f_equal (@List.length Z)) in E. rewrite !app_length, !repeat_length in E. lia.
Qed.
Lemma fg_plain : forall t, t = lit "fg" \/ t = lit "bg" -> no_slash t /\ ~ color_tag t /\ forall k, t <> field_name k.
Proof.
  intros t H. repeat split.
  - intros u E. destruct H; subst; discriminate.
  - intro C. apply color_tag_iff in C. destruct H; subst; vm_compute in C; discriminate.
  - intros k E. destruct H; subst; destruct k; discriminate.
Qed.
Lemma field_name_inj : forall k j, field_name k = field_name j -> k = j.
Proof. intros k j E. pose proof (style_named_name k) as A. rewrite E, style_named_name in A. congruence. Qed.
Lemma means_unique : forall w k j, means w k -> means w j -> k = j.
Proof.
  intros w k j A B.
  assert (P : forall w k, means w k -> exists n t, w = repeat 47 n ++ t /\ no_slash t /\
    match k with
    | KStyle f on => t = field_name f /\ on = (n =? 0)%nat
    | KColor => color_tag t \/ ((t = lit "fg" \/ t = lit "bg") /\ n <> O)
    | KOther u => t = u /\ ~ color_tag t /\ (forall f, t <> field_name f) /\ (n <> O -> t <> lit "fg" /\ t <> lit "bg")
    end).
  { clear. intros w k M. destruct M as [n k|n t N C|n t C|n t N C S G].
    - exists n, (field_name k). repeat split. apply name_plain.
    - exists n, t. auto.
    - exists (S n), t. split; [reflexivity|]. split; [apply fg_plain; exact C|]. right. auto.
    - exists n, t. auto 10. }
  apply P in A. apply P in B. destruct A as [n [t [-> [N A]]]]. destruct B as [m [u [E [M B]]]].
  apply slashes_unique in E; [|assumption|assumption]. destruct E as [-> ->].
  destruct k as [k on| |v], j as [j on'| |v'].
  - destruct A as [-> ->], B as [Q ->]. apply field_name_inj in Q. congruence.
  - destruct A as [-> ->]. exfalso. destruct (name_plain k) as [_ [C [F G]]]. destruct B as [B|[[B|B] _]]; tauto.
  - destruct A as [-> ->]. exfalso. destruct B as [_ [_ [B _]]]. apply (B k). reflexivity.
  - destruct B as [-> ->]. exfalso. destruct (name_plain j) as [_ [C [F G]]]. destruct A as [A|[[A|A] _]]; tauto.
  - reflexivity.
  - exfalso. destruct B as [_ [C [_ G]]]. destruct A as [A|[A Z]]; [tauto|]. specialize (G Z). tauto.
  - destruct B as [-> ->]. exfalso. destruct A as [_ [_ [A _]]]. apply (A j). reflexivity.
  - exfalso. destruct A as [_ [C [_ G]]]. destruct B as [B|[B Z]]; [tauto|]. specialize (G Z). tauto.
  - destruct A as [-> _], B as [-> _]. reflexivity.
Qed.
Lemma separated_unique : forall t ws ws', separated t ws -> separated t ws' -> ws = ws'.
Proof. intros t ws ws' A B. apply separated_split in A, B. congruence. Qed.
Lemma understood_unique : forall s u v, understood s u -> understood s v -> u = v.
Proof.
  intros s [ks p] [js q] [A [ws [S F]]] [B [ws' [S' F']]]. cbn [fst snd] in *. subst p q. f_equal.
  rewrite (separated_unique _ _ _ S' S) in F'. clear S S'. revert js F'. induction F as [|w k ws ks M F IH]; intros js F'; inversion F'; subst; [reflexivity|].
  f_equal; [eapply means_unique; eassumption|apply IH; assumption].
Qed.

(** * Styles *)
Definition apply_kind (f : flags) (w : kind) : flags := match w with KStyle k on => set_flag k on f | _ => f end.
Lemma on_after_snoc : forall ws w k, on_after (ws ++ [w]) k = if about k w then match w with KStyle _ on => on | _ => false end else on_after ws k.
Proof.
  intros ws w k. unfold on_after. rewrite rev_app_distr. cbn [rev app find]. destruct (about k w) eqn:A; [|reflexivity].
  destruct w; [reflexivity|discriminate|discriminate].
Qed.
Lemma flags_snoc : forall ws w, flags_after (ws ++ [w]) = apply_kind (flags_after ws) w.
Proof.
  intros ws w. unfold flags_after. rewrite !on_after_snoc. destruct w as [k on| |t]; [|reflexivity|reflexivity].
  destruct k; reflexivity.
Qed.
Lemma flags_app : forall ks ws, flags_after (ws ++ ks) = fold_left apply_kind ks (flags_after ws).
Proof.
  induction ks as [|k ks IH]; intro ws; [rewrite app_nil_r; reflexivity|]. cbn [fold_left].
  replace (ws ++ k :: ks) with ((ws ++ [k]) ++ ks) by (rewrite <- app_assoc; reflexivity). rewrite IH, flags_snoc. reflexivity.
Qed.

Lemma tag_plain : forall ws ks, Forall2 means ws ks -> ~ In KColor ks -> forall f,
  tag_loop ws (mkStack f None None) = (map Unknown (others ks), Ok (mkStack (fold_left apply_kind ks f) None None)).
Proof.
  intros ws ks F. induction F as [|w k ws ks M F IH]; intros N f; [reflexivity|].
  assert (N' : ~ In KColor ks) by (intro I; apply N; right; exact I). specialize (IH N').
  cbn [tag_loop]. destruct M as [n k|n t H C|n t C|n t H C S G].
  - destruct (name_plain k) as [H [C [A B]]]. rewrite slashes_strip, slashes_start by assumption.
    destruct (re_color (field_name k) || in_css (lstrip_by (Z.eqb 64) (field_name k))) eqn:R; [apply color_tag_iff in R; tauto|].
    apply str_eqb_neq in A, B. rewrite A, B, !andb_false_r, style_named_name, negb_involutive.
    unfold set_style. cbn [st_flags st_fg st_bg]. rewrite IH. reflexivity.
  - exfalso. apply N. left. reflexivity.
  - exfalso. apply N. left. reflexivity.
  - rewrite slashes_strip, slashes_start by assumption.
    destruct (re_color t || in_css (lstrip_by (Z.eqb 64) t)) eqn:R; [apply color_tag_iff in R; tauto|].
    assert (A : negb (n =? 0)%nat && str_eqb t (lit "fg") = false /\ negb (n =? 0)%nat && str_eqb t (lit "bg") = false).
    { destruct n as [|n]; [auto|]. destruct (G (Nat.neq_succ_0 n)) as [A B]. apply str_eqb_neq in A, B. rewrite A, B. auto. }
    destruct A as [A B]. rewrite A, B, style_named_none by exact S. cbn [st_fg st_bg is_set]. rewrite !andb_false_r.
    rewrite IH. reflexivity.
Qed.

(** once colored, always colored *)
Definition colored (st : stack) : bool := is_set (st_fg st) || is_set (st_bg st).
Lemma tag_colored : forall ws ks, Forall2 means ws ks -> forall st, exists us r, tag_loop ws st = (map Unknown us, r) /\
  match r with Ok st' => colored st = true \/ In KColor ks -> colored st' = true | Err _ => True end.
Proof.
  intros ws ks F. induction F as [|w k ws ks M F IH]; intro st.
  - exists [], (Ok st). split; [reflexivity|]. intros [H|[]]. exact H.
  - assert (K : forall st', colored st' = true -> exists us r, tag_loop ws st' = (map Unknown us, r) /\
      match r with Ok st'' => colored st = true \/ In KColor (k :: ks) -> colored st'' = true | Err _ => True end).
    { intros st' C. destruct (IH st') as [us [r [E H]]]. exists us, r. split; [exact E|]. destruct r; [|exact Logic.I]. intros _. apply H. left. exact C. }
    assert (K' : k <> KColor -> forall st', colored st' = colored st -> exists us r, tag_loop ws st' = (map Unknown us, r) /\
      match r with Ok st'' => colored st = true \/ In KColor (k :: ks) -> colored st'' = true | Err _ => True end).
    { intros N st' C. destruct (IH st') as [us [r [E H]]]. exists us, r. split; [exact E|]. destruct r; [|exact Logic.I].
      intro X. apply H. rewrite C. destruct X as [X|[X|X]]; [auto|congruence|auto]. }
    assert (FG : forall v, colored (set_fg (Some v) st) = true) by reflexivity.
    assert (BG : forall v, colored (set_bg (Some v) st) = true) by (intro v; unfold colored; cbn; apply orb_true_r).
    cbn [tag_loop].
    destruct (re_color (lstrip_by (Z.eqb 47) w) || in_css (lstrip_by (Z.eqb 64) (lstrip_by (Z.eqb 47) w))) eqn:R.
    + destruct (parse_color _) as [v|x]; [|exists [], (Err x); split; [reflexivity|exact Logic.I]].
      destruct (startswith (lit "@") _); apply K; auto.
    + destruct (startswith (lit "/") w && str_eqb (lstrip_by (Z.eqb 47) w) (lit "fg")) eqn:A; [apply K; auto|].
      destruct (startswith (lit "/") w && str_eqb (lstrip_by (Z.eqb 47) w) (lit "bg")) eqn:B; [apply K; auto|].
      assert (NK : k <> KColor).
      { intro Q. subst k. inversion M as [| n t H C E | n t C E |]; subst w.
        - rewrite slashes_strip in R by assumption. apply color_tag_iff in C. congruence.
        - destruct (fg_plain t C) as [H _]. rewrite slashes_strip in A, B by assumption. cbn [repeat app] in A, B.
          change (startswith (lit "/") (47 :: repeat 47 n ++ t)) with true in A, B. cbn [andb] in A, B.
          apply str_eqb_neq in A, B. tauto. }
      destruct (style_named _) as [j|]; [apply K'; [exact NK|reflexivity]|].
      destruct (str_eqb _ (lit "foreground") && is_set (st_fg st)); [apply K; auto|].
      destruct (str_eqb _ (lit "background") && is_set (st_bg st)); [apply K; auto|].
      destruct (K' NK st eq_refl) as [us [r [E H]]]. rewrite E. exists (lstrip_by (Z.eqb 47) w :: us), r. split; [reflexivity|exact H].
Qed.
Lemma auto_colored : forall e st r, apply_auto_foreground e st = Ok r -> colored st = true -> colored (snd r) = true.
Proof.
  intros e st r E C. unfold apply_auto_foreground in E.
  destruct (if get_flag FInvert (st_flags st) then (st_fg st, st_bg st) else (st_bg st, st_fg st)) as [b f].
  destruct f as [f|]; [injection E as <-; exact C|]. destruct b as [[a|a]|]; [| |injection E as <-; exact C].
  - destruct (contrast_ansi e a) as [x|x]; cbn [bindr] in E; [|discriminate]. injection E as <-. reflexivity.
  - discriminate.
Qed.
Lemma colored_no_span : forall p st, colored st = true -> span_of_stack p st = Err AttributeError.
Proof. intros p [f [v|] [w|]] C; try reflexivity. discriminate. Qed.
Lemma plain_auto : forall e f, apply_auto_foreground e (mkStack f None None) = Ok (false, mkStack f None None).
Proof. intros e f. unfold apply_auto_foreground. cbn [st_flags st_fg st_bg]. destruct (get_flag FInvert f); reflexivity. Qed.

(** * The generator *)
Lemma found_words : forall s u, understood s u ->
  exists ws, split_space [] (match fst (found s) with Some t => t | None => [] end) = ws /\ Forall2 means ws (fst u) /\ snd (found s) = snd u.
Proof.
  intros [ts p] [ks q] [E [ws [S F]]]. exists ws. cbn [found fst snd] in *. split; [|split; assumption].
  destruct ts as [|t ts]; [|apply separated_split; exact S]. apply separated_split in S. exact S.
Qed.
Lemma loop_plain : forall e l us, Forall2 understood l us -> Forall colorless us -> forall before rest,
  markup_loop e (map found l ++ rest) (mkStack (flags_after before) None None) =
    let '(evs, x) := markup_loop e rest (mkStack (flags_after (before ++ flat_map fst us)) None None) in (expected before us ++ evs, x).
Proof.
  intros e l us F. induction F as [|s u l us U F IH]; intros C before rest.
  - cbn [map app flat_map expected]. rewrite app_nil_r. destruct (markup_loop e rest _). reflexivity.
  - inversion C as [|? ? C1 C2]; subst. cbn [map app]. destruct (found_words s u U) as [ws [W [M P]]].
    destruct (found s) as [g p] eqn:Q. cbn [fst snd] in *. cbn [markup_loop]. rewrite W.
    rewrite (tag_plain ws (fst u) M C1). cbn [bindr]. rewrite plain_auto. cbn [bindr]. unfold span_of_stack. cbn [st_fg st_bg st_flags bindr].
    rewrite <- flags_app. rewrite (IH C2 (before ++ fst u) rest). destruct u as [ks q]. cbn [fst snd flat_map expected] in *. subst p.
    rewrite <- app_assoc. destruct (markup_loop e rest _) as [evs x]. rewrite <- app_assoc. reflexivity.
Qed.
Lemma markup_styles : forall e l us, markup_ok l -> Forall2 understood l us -> Forall colorless us ->
  styled_from_markup e (written l) = (expected [] us, None).
Proof.
  intros e l us M U C. unfold styled_from_markup. pose proof (matches_written l [] M Logic.I) as E. rewrite !app_nil_r in E. rewrite E.
  pose proof (loop_plain e l us U C [] []) as L. rewrite app_nil_r in L. change stack0 with (mkStack (flags_after []) None None).
  rewrite L. cbn [markup_loop]. rewrite app_nil_r. reflexivity.
Qed.
Lemma markup_ok_app : forall a b, markup_ok (a ++ b) -> markup_ok a.
Proof.
  intros [|s a] b [F N]; [split; [constructor|exact Logic.I]|]. apply Forall_app in F. destruct F as [F _]. cbn [app] in N.
  apply Forall_app in N. destruct N as [N _]. split; assumption.
Qed.
Lemma markup_color : forall e l us s u r vs, markup_ok (l ++ s :: r) -> Forall2 understood (l ++ s :: r) (us ++ u :: vs) ->
  List.length l = List.length us -> Forall colorless us -> ~ colorless u ->
  exists unknown x, styled_from_markup e (written (l ++ s :: r)) = (expected [] us ++ map Unknown unknown, Some x).
Proof.
  intros e l us s u r vs M U L C D.
  assert (D' : In KColor (fst u)).
  { assert (Q : forall x y : kind, {x = y} + {x <> y}) by (repeat decide equality). destruct (in_dec Q KColor (fst u)); [assumption|]. exfalso. apply D. exact n. }
  assert (U' : Forall2 understood l us /\ understood s u).
  { revert us L C U. clear M. induction l as [|a l IH]; intros [|b us] L C U; try discriminate.
    - inversion U; subst. split; [constructor|assumption].
    - cbn in L. injection L as L. inversion U; subst. inversion C; subst. destruct (IH us) as [X Y]; try assumption. split; [constructor|]; assumption. }
  destruct U' as [U1 U2].
  unfold styled_from_markup. pose proof (matches_written _ [] M Logic.I) as E. rewrite !app_nil_r in E. rewrite E.
  rewrite map_app. change stack0 with (mkStack (flags_after []) None None). rewrite (loop_plain e l us U1 C).
  cbn [map]. destruct (found_words s u U2) as [ws [W [F P]]]. destruct (found s) as [g p]. cbn [fst snd] in *. cbn [markup_loop]. rewrite W.
  set (st := mkStack (flags_after ([] ++ flat_map fst us)) None None).
  destruct (tag_colored ws (fst u) F st) as [un [q [T H]]]. rewrite T. exists un.
  destruct q as [st'|x]; cbn [bindr]; [|exists x; reflexivity].
  assert (K : colored st' = true) by (apply H; right; exact D').
  destruct (apply_auto_foreground e st') as [[d st'']|x] eqn:A; cbn [bindr]; [|exists x; reflexivity].
  apply auto_colored in A; [|exact K]. cbn [snd] in A. rewrite colored_no_span by exact A. exists AttributeError. reflexivity.
Qed.

(** tags at the end, text before a closing bracket *)
Lemma markup_trailing : forall e l ts, markup_ok l -> Forall tag_ok ts ->
  styled_from_markup e (written l ++ flat_map (fun t => [91] ++ t ++ [93]) ts) = styled_from_markup e (written l).
Proof.
  intros e l ts M T. unfold styled_from_markup. f_equal.
  rewrite (matches_written l); [|exact M|destruct ts; [exact Logic.I|reflexivity]]. rewrite matches_tags by exact T.
  pose proof (matches_written l [] M Logic.I) as E. rewrite !app_nil_r in E. rewrite E, app_nil_r. reflexivity.
Qed.
Lemma markup_lost : forall e p s, free p -> styled_from_markup e (p ++ [93] ++ s) = styled_from_markup e s.
Proof. intros e p s F. unfold styled_from_markup. cbn [app]. rewrite matches_lost by exact F. reflexivity. Qed.

(** two tags in a row are one unknown word *)
Lemma css_no_bracket : forallb (fun kv => forallb (fun c => negb (bracket c)) (fst kv)) CSS_COLORS = true.
Proof. vm_compute. reflexivity. Qed.
Lemma adjacent_other : forall k t n, means (repeat 47 n ++ field_name k ++ [93; 91] ++ t) (KOther (field_name k ++ [93; 91] ++ t)).
Proof.
  intros k t n. apply means_other.
  - intros u E. destruct k; discriminate.
  - intro C. apply color_tag_iff in C. apply orb_prop in C. destruct C as [C|C].
    + unfold re_color in C. apply orb_prop in C. destruct C as [C|C]; [apply orb_prop in C; destruct C as [C|C]|].
      * destruct k; discriminate.
      * unfold re_hex in C. apply andb_prop in C. destruct C as [_ C]. destruct k; discriminate.
      * destruct k; discriminate.
    + apply in_css_iff in C. destruct C as [m [name [v [I E]]]]. pose proof css_no_bracket as X. rewrite forallb_forall in X.
      specialize (X _ I). cbn [fst] in X. rewrite forallb_forall in X.
      assert (Y : In 93 (field_name k ++ [93; 91] ++ t)) by (apply in_or_app; right; left; reflexivity).
      rewrite E in Y. apply in_app_or in Y. destruct Y as [Y|Y]; [apply repeat_spec in Y; discriminate|].
      specialize (X _ Y). discriminate.
  - intros j E. assert (Y : In 93 (field_name j)) by (rewrite <- E; apply in_or_app; right; left; reflexivity).
    destruct j; vm_compute in Y; repeat (destruct Y as [Y|Y]; [discriminate|]); exact Y.
  - intros _. split; intro E; destruct k; discriminate.
Qed.
Lemma name_chars : forall k, Forall (fun c => is_space c = false) (field_name k) /\ free (field_name k) /\ ~ In NL (field_name k) /\ field_name k <> [].
Proof.
  intro k. repeat split.
  - destruct k; repeat constructor.
  - destruct k; vm_compute; intuition discriminate.
  - destruct k; vm_compute; intuition discriminate.
  - destruct k; vm_compute; intuition discriminate.
  - destruct k; discriminate.
Qed.
Lemma name_tag_ok : forall k, tag_ok (field_name k).
Proof. intro k. destruct (name_chars k) as [_ [A [B C]]]. repeat split; try assumption; apply A. Qed.
Lemma markup_adjacent : forall e j k p, p <> [] -> free p ->
  styled_from_markup e ([91] ++ field_name j ++ [93; 91] ++ field_name k ++ [93] ++ p) =
    ([Unknown (field_name j ++ [93; 91] ++ field_name k); Yield (plain_span p)], None).
Proof.
  intros e j k p P R. set (l := [([field_name j; field_name k], p)] : list segment).
  assert (M : markup_ok l).
  { split; [|constructor]. constructor; [|constructor]. split; [|auto]. constructor; [apply name_tag_ok|constructor; [apply name_tag_ok|constructor]]. }
  assert (U : Forall2 understood l [([KOther (field_name j ++ [93; 91] ++ field_name k)], p)]).
  { constructor; [|constructor]. split; [reflexivity|]. exists [field_name j ++ [93; 91] ++ field_name k]. split.
    - unfold tag_line, l. cbn [fst]. rewrite join_two. cbn [join].
      replace (field_name j ++ 93 :: 91 :: field_name k) with ([] ++ (field_name j ++ [93; 91] ++ field_name k) ++ []) at 1
        by (rewrite app_nil_r; reflexivity).
      apply sep_word; [constructor| |apply sep_end; constructor|exact Logic.I]. split; [destruct j; discriminate|].
      apply Forall_app. split; [apply name_chars|]. constructor; [reflexivity|]. constructor; [reflexivity|]. apply name_chars.
    - constructor; [|constructor]. exact (adjacent_other j (field_name k) 0). }
  assert (C : Forall colorless [([KOther (field_name j ++ [93; 91] ++ field_name k)], p)]).
  { constructor; [|constructor]. intros [E|[]]. discriminate. }
  pose proof (markup_styles e l _ M U C) as H.
  assert (W : written l = [91] ++ field_name j ++ [93; 91] ++ field_name k ++ [93] ++ p).
  { unfold written, l. cbn [flat_map fst snd]. repeat (rewrite <- ?app_assoc; cbn [app]). rewrite app_nil_r. reflexivity. }
  rewrite <- W, H. reflexivity.
Qed.
