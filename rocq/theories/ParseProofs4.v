(** Lemmas: what follows a reset does not parse. *)
From Coq Require Import ZArith List Bool Lia String.
From Verif Require Import PyBase PyLemmas SplitLemmas F64 SpaceModel SpaceSpec ColorTab ColorModel ColorSpec ColorProofs
  ColorProofs2 AnsiRe SpanModel CoreModel Vt PaletteSpec PaletteProofs KeyProofs SpanSpec SpanProofs SpanProofs2 ParseProofs
  ParseProofs2 ParseProofs3.
Import ListNotations.
Open Scope Z_scope.
Open Scope list_scope.

Lemma finditer_pieces_then : forall l r pos, Forall piece_ok l ->
  finditer_aux (line_of [] l ++ 27 :: r) pos 0 = matches pos l ++ finditer_aux (27 :: r) (pos + zlen (line_of [] l)) 0.
Proof.
  induction l as [|[b t] l IH]; intros r pos H.
  - change (line_of [] []) with (@nil Z). cbn [app matches]. now rewrite zlen_nil, Z.add_0_r.
  - inversion H as [|? ? [Hb Ht] Hl]; subst. cbn [fst snd] in *.
    assert (exists q, line_of [] l ++ 27 :: r = 27 :: q) as [q R].
    { destruct l as [|[b' t'] l]; [cbn; eauto|]. cbn. eauto. }
    rewrite line_cons_len, line_cons.
    replace (([27; 91] ++ b ++ [109] ++ t ++ line_of [] l) ++ 27 :: r) with ([27; 91] ++ b ++ [109] ++ t ++ (line_of [] l ++ 27 :: r))
      by (now rewrite <- !app_assoc).
    rewrite R, finditer_piece by assumption. cbn [matches app]. f_equal. rewrite <- R, IH by assumption.
    f_equal. f_equal. lia.
Qed.

Lemma yield_then : forall l o pos idx b t i ms ss, Forall piece_ok l -> run_pieces o l = (ss, None) ->
  (forall o', exists o'' p, parse_sequence b o' = (o'', Ok (Some p))) ->
  exists j, yield_loop (matches pos l ++ (b, t, i) :: ms) o idx = (ss, j, Some ValueError).
Proof.
  induction l as [|[b1 t1] l IH]; intros o pos idx b t i ms ss H R P.
  - cbn [run_pieces] in R. injection R as <-. cbn [matches app yield_loop]. destruct (P o) as [o'' [p E]]. rewrite E. eauto.
  - inversion H as [|? ? H1 H2]; subst. cbn [matches app yield_loop run_pieces] in *.
    destruct (parse_sequence b1 o) as [o' [[u|]|x]]; try discriminate.
    destruct (span_of_options t1 o') as [s|x]; [|discriminate].
    destruct (run_pieces o' l) as [ss' x] eqn:R'. injection R as <- ->.
    destruct (IH o' (pos + (3 + zlen b1 + zlen t1)) (pos + (3 + zlen b1 + zlen t1)) b t i ms ss' H2 R' P) as [j E].
    rewrite E. eauto.
Qed.

(** a reset, alone or glued to the next sequence, is not understood *)
Lemma reset_part : forall p, In 109 p \/ p = lit "0" -> ~ In 59 p -> starts_color p = Ok false /\
  dict_get SETTERS_TO_STYLES p = None /\ dict_get UNSETTERS_TO_STYLES p = None.
Proof.
  intros p [M| ->] _; [|vm_compute; auto].
  assert (D : isdigit p = false).
  { destruct (isdigit p) eqn:D; [|reflexivity]. exfalso. unfold isdigit in D. destruct p as [|c p]; [destruct M|].
    rewrite forallb_forall in D. specialize (D 109 M). vm_compute in D. discriminate. }
  assert (G : forall V (d : list (str * V)), Forall (fun e => ~ In 109 (fst e)) d -> dict_get d p = None).
  { intros V d F. unfold dict_get. induction F as [|[k v] d F1 F2 IH]; [reflexivity|]. cbn [fold_left fst snd] in *.
    destruct (str_eqb k p) eqn:E; [|exact IH]. apply str_eqb_eq in E. subst. contradiction. }
  split; [unfold starts_color; now rewrite D|].
  split; apply G; repeat constructor; cbn; intuition discriminate.
Qed.

Lemma reset_rejected : forall rest o, (rest = [] \/ exists r, rest = 109 :: r) ->
  exists o' p, parse_sequence (48 :: rest) o = (o', Ok (Some p)).
Proof.
  intros rest o H. unfold parse_sequence.
  assert (S : exists p q, split_on 59 (48 :: rest) = (48 :: p) :: q /\ ~ In 59 p /\ (p = [] \/ exists r, p = 109 :: r)).
  { destruct H as [->|[r ->]]; [exists [], []; repeat split; auto|].
    pose proof (split_on_no_sep 59 r) as N.
    destruct (split_on 59 r) as [|p q] eqn:E; [exfalso; exact (split_on_ne 59 r E)|].
    exists (109 :: p), q. cbn [split_on]. change (48 =? 59) with false. change (109 =? 59) with false. cbv iota.
    rewrite E. split; [reflexivity|]. split; [|eauto]. intros [X|X]; [discriminate|].
    inversion N; subst. contradiction. }
  destruct S as [p [q [E [N P]]]]. rewrite E. cbn [parse_parts].
  destruct (reset_part (48 :: p)) as [A [B C]].
  - destruct P as [->|[r ->]]; [right; reflexivity|left; right; now left].
  - intros [X|X]; [discriminate|contradiction].
  - rewrite A, B, C. cbn [orb]. eauto.
Qed.

(** the match that starts at a reset *)
Lemma reset_match_text : forall t r, text_ok t -> match_style (RESET ++ t ++ 27 :: r) = Some (lit "0", t).
Proof. intros t r T. apply (style_match (lit "0") t r); [|exact T]. unfold body_ok. cbn. intuition discriminate. Qed.
Lemma reset_match_seq : forall b t r, body_ok b -> text_ok t ->
  match_style (RESET ++ csi_m b ++ t ++ 27 :: r) = Some (48 :: 109 :: 27 :: 91 :: b, t).
Proof.
  intros b t r B T. unfold match_style. change (startswith [ESC; 91] (RESET ++ csi_m b ++ t ++ 27 :: r)) with true.
  change (skipn 2 (RESET ++ csi_m b ++ t ++ 27 :: r)) with (48 :: 109 :: 27 :: 91 :: (b ++ [109]) ++ t ++ 27 :: r).
  cbn [match_style_body]. change (is_mH 48) with false. change (is_mH 109) with true. change (is_mH 27) with false.
  change (is_mH 91) with false. cbn [until_esc]. change (27 =? ESC) with true. cbv iota.
  change (48 =? NL) with false. change (109 =? NL) with false. change (27 =? NL) with false. change (91 =? NL) with false.
  cbv iota. rewrite <- app_assoc. cbn [app]. now rewrite body_match.
Qed.

Lemma first_escape : forall s, In 27 s -> exists t r, s = t ++ 27 :: r /\ ~ In 27 t.
Proof.
  induction s as [|c s IH]; intros H; [destruct H|]. destruct (Z.eq_dec c 27) as [->|N].
  - exists [], s. split; [reflexivity|intros []].
  - destruct H as [H|H]; [congruence|]. destruct (IH H) as [t [r [E M]]]. exists (c :: t), r.
    split; [now rewrite E|]. intros [X|X]; [congruence|contradiction].
Qed.

(** Whatever follows a reset, text or a sequence and text, ends the parse *)
Lemma yield_reset : forall l ss x c more, Forall piece_ok l -> run_pieces no_options l = (ss, None) -> c <> 27 ->
  (x = [] \/ exists b, body_ok b /\ x = csi_m b) ->
  yield_from (line_of [] l ++ RESET ++ x ++ c :: more) = (ss, Some ValueError).
Proof.
  intros l ss x c more Hl R Hc Hx. unfold yield_from.
  set (line := line_of [] l ++ RESET ++ x ++ c :: more).
  assert (E : exists m, (if endswith [ESC] line then line else line ++ [ESC]) = line_of [] l ++ RESET ++ x ++ c :: m /\ In 27 m).
  { destruct (endswith [ESC] line) eqn:EE.
    - exists more. split; [reflexivity|]. unfold line in EE.
      destruct more as [|d more'] using rev_ind.
      + exfalso. replace (line_of [] l ++ RESET ++ x ++ [c]) with ((line_of [] l ++ RESET ++ x) ++ [c]) in EE by (now rewrite <- !app_assoc).
        rewrite endswith_char in EE. apply Z.eqb_eq in EE. unfold ESC in EE. congruence.
      + replace (line_of [] l ++ RESET ++ x ++ c :: more' ++ [d]) with ((line_of [] l ++ RESET ++ x ++ c :: more') ++ [d]) in EE
          by (rewrite <- !app_assoc; cbn [app]; reflexivity).
        rewrite endswith_char in EE. apply Z.eqb_eq in EE. subst d. apply in_or_app. right. now left.
    - exists (more ++ [27]). split; [|apply in_or_app; right; now left]. unfold line, ESC. rewrite <- !app_assoc. reflexivity. }
  destruct E as [m [E M]]. cbv zeta. match goal with |- context [finditer ?z] => replace z with (line_of [] l ++ RESET ++ x ++ c :: m) end.
  destruct (first_escape m M) as [t [r [-> T]]].
  assert (TO : text_ok (c :: t)) by (split; [discriminate|intros [X|X]; [congruence|contradiction]]).
  assert (Q : exists q, RESET ++ x ++ c :: t ++ 27 :: r = 27 :: q) by (unfold RESET, csi_m; cbn; eauto).
  assert (MS : exists b, match_style (RESET ++ x ++ c :: t ++ 27 :: r) = Some (48 :: b, c :: t) /\ (b = [] \/ exists z, b = 109 :: z)).
  { destruct Hx as [->|[b [B ->]]].
    - exists []. split; [|now left]. exact (reset_match_text (c :: t) r TO).
    - exists (109 :: 27 :: 91 :: b). split; [|right; eauto]. exact (reset_match_seq b (c :: t) r B TO). }
  destruct Q as [q Q], MS as [b [MS B]].
  unfold finditer. rewrite Q in *. rewrite finditer_pieces_then by assumption. rewrite finditer_step, MS. cbv zeta.
  destruct (yield_then l no_options 0 0 (48 :: b) (c :: t) (0 + zlen (line_of [] l) + Z.of_nat (3 + List.length (48 :: b) + List.length (c :: t)))
    (finditer_aux q (0 + zlen (line_of [] l) + 1) (3 + List.length (48 :: b) + List.length (c :: t) - 1)) ss Hl R) as [j Y].
  { intro o'. now apply reset_rejected. }
  rewrite Y. reflexivity.
Qed.

(** A styled span printed with its reset and followed by anything printed: the first span comes out,
    then the parser raises *)
Lemma parse_after_reset : forall e s fg bg, layer_text e false (s_fg s) fg -> layer_text e true (s_bg s) bg ->
  fl_opaque (s_flags s) = false -> s_link s = [] -> text_ok (s_text s) -> has_style s = true -> s_reset s = true ->
  exists s', s_text s' = s_text s /\ looks_like s' (styled (s_flags s) fg bg rend0) /\
    forall x c more, (x = [] \/ exists b, body_ok b /\ x = csi_m b) -> c <> 27 ->
      yield_from (span_str e s ++ x ++ c :: more) = ([s'], Some ValueError).
Proof.
  intros e s fg bg Hf Hb Ho Hl Ht HS HR.
  pose proof (layer_displayed _ _ _ _ Hf) as Df. pose proof (layer_displayed _ _ _ _ Hb) as Db.
  pose proof (span_sequences_nil e s fg bg Df Db) as SN.
  destruct (total_sgr e s fg bg Hf Hb Ho HS) as [ps [T [S [N G]]]].
  assert (Q : span_sequences e s = csi_m (sgr_text ps)).
  { unfold span_sequences. rewrite T. destruct (sgr_text_params ps) as [_ [_ X]]; [now apply supported_nonneg|exact N|].
    destruct (sgr_text ps); [congruence|reflexivity]. }
  assert (L : span_str e s = line_of [] (sgr_pieces [(ps, s_text s)]) ++ RESET).
  { unfold span_str. rewrite Hl. cbn [str_eqb]. cbv zeta. rewrite SN, HS, HR, Q. cbn [negb andb].
    unfold csi_m, line_of, sgr_pieces. cbn [map flat_map fst snd app]. now rewrite <- !app_assoc. }
  assert (F : Forall (fun p => supported (fst p) /\ fst p <> [] /\ text_ok (snd p)) [(ps, s_text s)])
    by (constructor; [cbn [fst snd]; auto|constructor]).
  destruct (run_supported [(ps, s_text s)] no_options rend0 no_options_like) as [ss [R L2]];
    [constructor; [cbn [fst snd]; auto|constructor]|].
  cbn [pens] in L2. inversion L2 as [|s' ? l' ? [F1 F2] F3]; subst. inversion F3; subst. cbn [fst snd] in *.
  exists s'. split; [exact F1|]. split; [now rewrite <- G|]. intros x c more Hx Hc.
  rewrite L, <- app_assoc. apply yield_reset; try assumption.
  now apply sgr_pieces_ok.
Qed.

(** two printed spans, the first of them styled *)
Lemma parse_two_printed : forall e s t fg bg fg' bg', layer_text e false (s_fg s) fg -> layer_text e true (s_bg s) bg ->
  layer_text e false (s_fg t) fg' -> layer_text e true (s_bg t) bg' ->
  fl_opaque (s_flags s) = false -> fl_opaque (s_flags t) = false -> s_link s = [] -> s_link t = [] ->
  text_ok (s_text s) -> text_ok (s_text t) -> has_style s = true -> s_reset s = true ->
  exists s', s_text s' = s_text s /\ looks_like s' (styled (s_flags s) fg bg rend0) /\
    forall more, yield_from (span_str e s ++ span_str e t ++ more) = ([s'], Some ValueError).
Proof.
  intros e s t fg bg fg' bg' Hf Hb Hf' Hb' Ho Ho' Hl Hl' Ht Ht' HS HR.
  destruct (parse_after_reset e s fg bg Hf Hb Ho Hl Ht HS HR) as [s' [E1 [E2 E3]]].
  exists s'. split; [exact E1|]. split; [exact E2|]. intro more.
  assert (P : exists x c m, span_str e t ++ more = x ++ c :: m /\ c <> 27 /\ (x = [] \/ exists b, body_ok b /\ x = csi_m b)).
  { pose proof (span_sequences_nil e t fg' bg' (layer_displayed _ _ _ _ Hf') (layer_displayed _ _ _ _ Hb')) as SN.
    unfold span_str. rewrite Hl'. cbn [str_eqb]. cbv zeta. rewrite SN. destruct Ht' as [T1 T2].
    destruct (s_text t) as [|c u] eqn:ET; [congruence|].
    assert (C : c <> 27) by (intro; subst; apply T2; now left).
    destruct (has_style t) eqn:HT.
    - destruct (total_sgr e t fg' bg' Hf' Hb' Ho' HT) as [ps [T [S [N G]]]].
      destruct (sgr_text_params ps) as [X1 [X2 X3]]; [now apply supported_nonneg|exact N|].
      assert (Q : span_sequences e t = csi_m (sgr_text ps)).
      { unfold span_sequences. rewrite T. destruct (sgr_text ps); [congruence|reflexivity]. }
      rewrite Q. exists (csi_m (sgr_text ps)), c, (u ++ (if s_reset t && negb false then RESET else []) ++ more).
      split; [|split; [exact C|right; exists (sgr_text ps); split; [now apply params_body_ok|reflexivity]]].
      rewrite <- !app_assoc. reflexivity.
    - assert (Q : span_sequences e t = []) by (destruct (span_sequences e t); [reflexivity|discriminate]).
      rewrite Q. exists [], c, (u ++ (if s_reset t && negb true then RESET else []) ++ more).
      split; [|split; [exact C|now left]]. cbn [app]. rewrite <- !app_assoc. reflexivity. }
  destruct P as [x [c [m [E [C X]]]]]. rewrite E. now apply E3.
Qed.
