(** Lemmas: parsing of styled lines. *)
From Coq Require Import ZArith List Bool Lia String.
From Verif Require Import PyBase PyLemmas SplitLemmas F64 SpaceModel SpaceSpec ColorTab ColorModel ColorSpec ColorProofs
  ColorProofs2 AnsiRe SpanModel CoreModel Vt PaletteSpec PaletteProofs KeyProofs SpanSpec SpanProofs SpanProofs2.
Open Scope Z_scope.

(** * The regular expression *)
Lemma until_esc_text : forall t r, ~ In 27 t -> until_esc (t ++ 27 :: r) = (t, 27 :: r).
Proof.
  induction t as [|c t IH]; intros r H; [reflexivity|]. cbn in H. cbn [app until_esc].
  unfold ESC. destruct (Z.eqb_spec c 27); [exfalso; auto|]. rewrite IH by tauto. reflexivity.
Qed.

Lemma body_match : forall b acc t r, body_ok b -> text_ok t ->
  match_style_body acc (b ++ 109 :: t ++ 27 :: r) = Some (rev acc ++ b, t).
Proof.
  induction b as [|c b IH]; intros acc t r Hb [Ht1 Ht2].
  - cbn [app match_style_body]. change (is_mH 109) with true. cbv iota. rewrite until_esc_text by assumption.
    destruct t; [congruence|]. now rewrite app_nil_r.
  - cbn [app match_style_body]. destruct Hb as [H1 [H2 [H3 H4]]]. cbn in H1, H2, H3, H4.
    unfold is_mH. destruct (Z.eqb_spec c 109); [exfalso; auto|]. destruct (Z.eqb_spec c 72); [exfalso; auto|].
    cbn [orb]. unfold NL. destruct (Z.eqb_spec c 10); [exfalso; auto|].
    rewrite IH; [|unfold body_ok; tauto|now split]. cbn [rev]. now rewrite <- app_assoc.
Qed.

Lemma style_match : forall b t r, body_ok b -> text_ok t ->
  match_style ([27; 91] ++ b ++ [109] ++ t ++ 27 :: r) = Some (b, t).
Proof.
  intros. unfold match_style. cbn [app startswith]. change (ESC =? 27) with true. change (91 =? 91) with true.
  cbn [andb skipn]. now apply (body_match b []).
Qed.

Lemma finditer_skip : forall a s pos, finditer_aux (a ++ s) pos (List.length a) = finditer_aux s (pos + zlen a) 0.
Proof.
  induction a as [|c a IH]; intros s pos.
  - cbn [app List.length]. rewrite zlen_nil, Z.add_0_r. reflexivity.
  - cbn [app List.length finditer_aux]. rewrite IH, zlen_cons. f_equal. lia.
Qed.

Lemma finditer_lead : forall t s pos, ~ In 27 t -> finditer_aux (t ++ s) pos 0 = finditer_aux s (pos + zlen t) 0.
Proof.
  induction t as [|c t IH]; intros s pos H.
  - cbn [app]. now rewrite zlen_nil, Z.add_0_r.
  - cbn in H. cbn [app finditer_aux].
    assert (M : match_style (c :: t ++ s) = None).
    { unfold match_style. cbn [startswith]. unfold ESC. destruct (Z.eqb_spec 27 c); [exfalso; auto|]. reflexivity. }
    rewrite M, IH by tauto. rewrite zlen_cons. f_equal. lia.
Qed.

Lemma finditer_step : forall c t pos, finditer_aux (c :: t) pos 0 =
  match match_style (c :: t) with
  | Some (body, plain) =>
      let n := (3 + List.length body + List.length plain)%nat in
      (body, plain, pos + Z.of_nat n) :: finditer_aux t (pos + 1) (n - 1)%nat
  | None => finditer_aux t (pos + 1) 0
  end.
Proof. reflexivity. Qed.

Lemma finditer_piece : forall b t r pos, body_ok b -> text_ok t ->
  let n := 3 + zlen b + zlen t in
  finditer_aux ([27; 91] ++ b ++ [109] ++ t ++ 27 :: r) pos 0 =
    (b, t, pos + n) :: finditer_aux (27 :: r) (pos + n) 0.
Proof.
  intros b t r pos Hb Ht. cbv zeta. pose proof (style_match b t r Hb Ht) as M.
  change ([27; 91] ++ b ++ [109] ++ t ++ 27 :: r) with (27 :: (91 :: b ++ [109] ++ t ++ 27 :: r)) in *.
  rewrite finditer_step, M. cbv zeta.
  assert (N : (3 + List.length b + List.length t - 1)%nat = List.length (91 :: b ++ [109] ++ t))
    by (cbn; rewrite !app_length; cbn; lia).
  rewrite N. replace (91 :: b ++ [109] ++ t ++ 27 :: r) with ((91 :: b ++ [109] ++ t) ++ 27 :: r)
    by (cbn; now rewrite <- !app_assoc).
  rewrite finditer_skip. f_equal.
  - f_equal. unfold zlen. lia.
  - f_equal. rewrite zlen_cons, !zlen_app. change (zlen [109]) with 1. lia.
Qed.

(** the matches of a line and where the last one ends *)
Fixpoint matches (pos : Z) (l : list piece) : list (str * str * Z) :=
  match l with
  | [] => []
  | (b, t) :: r => let p := pos + (3 + zlen b + zlen t) in (b, t, p) :: matches p r
  end.
Definition ends (t : str) : Prop := exists r, t = 27 :: r /\ forall p, finditer_aux t p 0 = [].

Lemma finditer_pieces : forall l tail pos, Forall piece_ok l -> ends tail ->
  finditer_aux (line_of [] l ++ tail) pos 0 = matches pos l.
Proof.
  induction l as [|[b t] l IH]; intros tail pos H E.
  - destruct E as [r [_ E]]. apply E.
  - inversion H as [|? ? [Hb Ht] Hl]; subst. cbn [fst snd] in *.
    assert (exists r, line_of [] l ++ tail = 27 :: r) as [r R].
    { destruct l as [|[b' t'] l]; [destruct E as [r [-> _]]; cbn; eauto|]. cbn. eauto. }
    assert (A : line_of [] ((b, t) :: l) ++ tail = [27; 91] ++ b ++ [109] ++ t ++ (line_of [] l ++ tail)).
    { unfold line_of. cbn. now rewrite <- !app_assoc. }
    refine (eq_trans (f_equal (fun z => finditer_aux z pos 0) A) _). cbv beta.
    rewrite R. rewrite finditer_piece by assumption. cbn [matches]. f_equal. rewrite <- R. now apply IH.
Qed.

Lemma line_of_lead : forall lead l, line_of lead l = lead ++ line_of [] l. Proof. reflexivity. Qed.
Lemma line_cons : forall b t l, line_of [] ((b, t) :: l) = [27; 91] ++ b ++ [109] ++ t ++ line_of [] l.
Proof. intros. unfold line_of. cbn. now rewrite <- !app_assoc. Qed.
Lemma line_cons_len : forall b t l, zlen (line_of [] ((b, t) :: l)) = 3 + zlen b + zlen t + zlen (line_of [] l).
Proof.
  intros. rewrite line_cons. rewrite !zlen_app. change (zlen [27; 91]) with 2. change (zlen [109]) with 1. lia.
Qed.

(** * Running the parser over the pieces *)
Fixpoint run_pieces (o : options) (l : list piece) : list span * option exn :=
  match l with
  | [] => ([], None)
  | (b, t) :: r =>
      match parse_sequence b o with
      | (_, Err x) => ([], Some x)
      | (_, Ok (Some _)) => ([], Some ValueError)
      | (o', Ok None) =>
          match span_of_options t o' with
          | Err x => ([], Some x)
          | Ok s => let '(ss, x) := run_pieces o' r in (s :: ss, x)
          end
      end
  end.

Lemma yield_matches : forall l o pos idx, Forall piece_ok l ->
  let '(ss, i, x) := yield_loop (matches pos l) o idx in
  (ss, x) = run_pieces o l /\
  (x = None -> i = match l with [] => idx | _ => pos + zlen (line_of [] l) end).
Proof.
  induction l as [|[b t] l IH]; intros o pos idx H; [cbn; auto|].
  inversion H as [|? ? H1 H2]; subst. cbn [matches yield_loop run_pieces].
  destruct (parse_sequence b o) as [o' [[u|]|x]]; try (split; [reflexivity|discriminate]).
  destruct (span_of_options t o') as [s|x]; [|split; [reflexivity|discriminate]].
  specialize (IH o' (pos + (3 + zlen b + zlen t)) (pos + (3 + zlen b + zlen t)) H2).
  destruct (yield_loop _ o' _) as [[ss i] x]. destruct IH as [I1 I2]. rewrite <- I1. split; [reflexivity|].
  intro N. rewrite (I2 N). rewrite line_cons_len. destruct l; [|lia].
  change (line_of [] []) with (@nil Z). rewrite zlen_nil. lia.
Qed.

Lemma rstrip_none : forall f t c, f c = false -> rstrip_by f (t ++ [c]) = t ++ [c].
Proof.
  intros f t c H. unfold rstrip_by. rewrite rev_app_distr. cbn. rewrite H. cbn [rev].
  now rewrite rev_involutive.
Qed.
Lemma rstrip_one : forall f t c d, f c = false -> f d = true -> rstrip_by f ((t ++ [c]) ++ [d]) = t ++ [c].
Proof.
  intros f t c d H D. unfold rstrip_by. rewrite !rev_app_distr. cbn. rewrite D, H. cbn [rev].
  now rewrite rev_involutive.
Qed.

Lemma line_last : forall l, Forall piece_ok l -> l <> [] -> exists t c, line_of [] l = t ++ [c] /\ c <> 27.
Proof.
  induction l as [|[b t] l IH]; intros H N; [congruence|]. inversion H as [|? ? [_ [T1 T2]] H2]; subst. cbn [snd] in *.
  rewrite line_cons. destruct l as [|p l].
  - destruct (@exists_last _ t T1) as [u [c E]]. exists ([27; 91] ++ b ++ [109] ++ u), c.
    rewrite E in *. change (line_of [] []) with (@nil Z). rewrite app_nil_r. split.
    + cbn. now rewrite <- !app_assoc.
    + intro. subst c. apply T2. apply in_or_app. right. now left.
  - destruct (IH H2 ltac:(discriminate)) as [u [c [E C]]]. rewrite E.
    exists ([27; 91] ++ b ++ [109] ++ t ++ u), c. split; [|exact C]. cbn. now rewrite <- !app_assoc; cbn; rewrite <- !app_assoc.
Qed.

Lemma tail_ends : forall t, tail_ok t -> ends (t ++ [27]).
Proof.
  intros t [->| ->].
  - exists []. split; reflexivity.
  - exists [91; 48; 109; 27]. split; reflexivity.
Qed.

Lemma endswith_char : forall t c d, endswith [d] (t ++ [c]) = (d =? c).
Proof. intros. unfold endswith. rewrite rev_app_distr. cbn. now rewrite andb_true_r. Qed.

Lemma slice_tail : forall a b, slice (Some (zlen a)) None (a ++ b) = b.
Proof.
  intros a b. unfold slice. cbv zeta. rewrite zlen_app.
  assert (C : clamp_index (zlen a + zlen b) (zlen a) = zlen a).
  { unfold clamp_index. pose proof (zlen_nonneg _ a). pose proof (zlen_nonneg _ b).
    destruct (Z.ltb_spec (zlen a) 0); [lia|]. cbv zeta.
    destruct (Z.ltb_spec (zlen a) 0); [lia|]. destruct (Z.ltb_spec (zlen a + zlen b) (zlen a)); lia. }
  rewrite C. replace (Z.to_nat (zlen a)) with (List.length a) by (unfold zlen; lia).
  rewrite skipn_app, skipn_all, Nat.sub_diag. cbn [skipn app]. apply firstn_all2. unfold zlen. lia.
Qed.

(** What yield_from makes of a line of pieces: the text before the first sequence is lost, a
    reset at the end becomes a span of its own. *)
Lemma yield_line : forall lead l tail, ~ In 27 lead -> Forall piece_ok l -> l <> [] -> tail_ok tail ->
  yield_from (line_of lead l ++ tail) =
    let '(ss, x) := run_pieces no_options l in
    match x with
    | Some _ => (ss, x)
    | None => (ss ++ (if str_eqb tail [] then [] else [plain_span tail]), None)
    end.
Proof.
  intros lead l tail Hlead Hl Hne Ht.
  assert (E : exists u c, line_of lead l ++ tail = u ++ [c] /\ c <> 27).
  { destruct Ht as [->| ->].
    - rewrite app_nil_r, line_of_lead. destruct (line_last l Hl Hne) as [t [c [E C]]]. rewrite E.
      exists (lead ++ t), c. split; [now rewrite <- app_assoc|exact C].
    - exists (line_of lead l ++ [27; 91; 48]), 109. split; [|discriminate].
      unfold RESET, csi_m. rewrite <- app_assoc. reflexivity. }
  destruct E as [u [c [E C]]].
  unfold yield_from. rewrite E, endswith_char. unfold ESC. destruct (Z.eqb_spec 27 c); [congruence|].
  assert (F : finditer ((u ++ [c]) ++ [27]) = matches (zlen lead) l).
  { rewrite <- E. unfold finditer. rewrite line_of_lead, <- !app_assoc. rewrite finditer_lead by assumption.
    rewrite finditer_pieces; [reflexivity|assumption|now apply tail_ends]. }
  rewrite F. pose proof (yield_matches l no_options (zlen lead) 0 Hl) as Y.
  destruct (yield_loop _ _ _) as [[ss i] x]. destruct Y as [Y1 Y2]. rewrite <- Y1.
  destruct x as [x|]; [reflexivity|]. specialize (Y2 eq_refl).
  rewrite rstrip_one; [|unfold is_esc, ESC; now apply Z.eqb_neq|reflexivity].
  rewrite <- E. rewrite zlen_app.
  assert (I : i = zlen (line_of lead l)). { destruct l; [congruence|]. rewrite line_of_lead, zlen_app. exact Y2. }
  rewrite I. destruct Ht as [->| ->].
  - rewrite zlen_nil, Z.add_0_r, Z.ltb_irrefl. cbn. now rewrite app_nil_r.
  - change (zlen RESET) with 4. destruct (Z.ltb_spec (zlen (line_of lead l)) (zlen (line_of lead l) + 4)); [|lia].
    now rewrite slice_tail.
Qed.

Lemma yield_plain : forall lead, ~ In 27 lead -> lead <> [] -> yield_from lead = ([plain_span lead], None).
Proof.
  intros lead H N. destruct (@exists_last _ lead N) as [u [c E]]. rewrite E in *.
  assert (C : c <> 27). { intro. subst c. apply H. apply in_or_app. right. now left. }
  unfold yield_from. rewrite endswith_char. unfold ESC. destruct (Z.eqb_spec 27 c); [congruence|].
  unfold finditer. rewrite finditer_lead by assumption. cbn [finditer_aux]. change (match_style [27]) with (@None (str * str)).
  cbn [yield_loop].
  rewrite rstrip_one; [|unfold is_esc, ESC; now apply Z.eqb_neq|reflexivity].
  pose proof (zlen_nonneg _ u).
  destruct (Z.ltb_spec 0 (zlen (u ++ [c]))) as [_|Z]; [|rewrite zlen_app in Z; change (zlen [c]) with 1 in Z; lia].
  rewrite <- (app_nil_l (u ++ [c])) at 1. change 0 with (zlen (@nil Z)). now rewrite slice_tail.
Qed.

(** the texts *)
Lemma run_texts : forall l o ss, run_pieces o l = (ss, None) -> map s_text ss = map snd l.
Proof.
  induction l as [|[b t] l IH]; intros o ss H; cbn [run_pieces] in H; [injection H as <-; reflexivity|].
  destruct (parse_sequence b o) as [o' [[u|]|x]]; try discriminate.
  unfold span_of_options in H. destruct (o_bad o'); [discriminate|].
  destruct (run_pieces o' l) as [ss' x] eqn:R. injection H as <- ->. cbn. f_equal. eapply IH. exact R.
Qed.

Lemma parse_texts : forall lead l tail ss, ~ In 27 lead -> Forall piece_ok l -> tail_ok tail ->
  (l = [] -> lead <> [] /\ tail = []) -> parse_line (line_of lead l ++ tail) = Ok ss ->
  map s_text ss = (if match l with [] => true | _ => false end then [lead] else map snd l)
                  ++ (if str_eqb tail [] then [] else [tail]).
Proof.
  intros lead l tail ss Hlead Hl Ht Hn H. unfold parse_line in H. destruct l as [|p l].
  - destruct (Hn eq_refl) as [N ->]. unfold line_of in H. cbn [flat_map] in H. rewrite !app_nil_r in H.
    rewrite yield_plain in H by assumption. injection H as <-. reflexivity.
  - rewrite yield_line in H by (assumption || discriminate).
    destruct (run_pieces no_options (p :: l)) as [ss' [x|]] eqn:R; [discriminate|].
    injection H as <-. rewrite map_app. rewrite (run_texts _ _ _ R). f_equal. now destruct (str_eqb tail []).
Qed.
