(** Proofs about experiments/markup.py, part 3: what is printed; the colors. *)
From Coq Require Import ZArith List Bool String Lia.
From Verif Require KeyProofs.
From Verif Require Import PyBase PyLemmas F64 SpaceModel ColorTab ColorModel ColorSpec ColorProofs SpanModel SpanSpec SpanProofs DrawProofs ShowModel Vt MarkupModel MarkupSpec MarkupProofs MarkupProofs2.
Import ListNotations.
Open Scope Z_scope.
Open Scope list_scope.

Lemma set_rend_same : forall m r, e_rend m = r -> set_rend r m = m.
Proof. intros [w h g x y wr r l p mo ti tl] q E. cbn in E. subst. reflexivity. Qed.
Lemma yielded_app : forall a b, yielded (a ++ b) = yielded a ++ yielded b.
Proof. intros a b. apply flat_map_app. Qed.
Lemma yielded_unknown : forall l, yielded (map Unknown l) = [].
Proof. induction l as [|t l IH]; [reflexivity|exact IH]. Qed.
Lemma no_style_flags : forall p f, has_style (mkSpan p None None [] f true) = false -> styled f None None rend0 = rend0.
Proof.
  intros p [a b c d e g h i j o] H. unfold has_style in H. cbn [s_flags s_fg s_bg existsb all_flags get_flag fl_bold fl_dim fl_italic fl_underline fl_blink
    fl_fast_blink fl_invert fl_conceal fl_strike fl_opaque] in H.
  repeat (apply orb_false_iff in H; destruct H as [? H] || (apply orb_false_iff in H; destruct H as [H ?])).
  destruct a, b, c, d, e, g, h, i, j, o; try discriminate; reflexivity.
Qed.
Lemma span_typed : forall e p f m, printable p -> e_parse m = PGround -> e_rend m = rend0 ->
  vt (span_str e (mkSpan p None None [] f true)) m = set_rend rend0 (type_text p (set_rend (styled f None None rend0) m)).
Proof.
  intros e p f m P G R. rewrite (span_printed e _ None None); try assumption; try exact Logic.I.
  - cbn [s_link s_text s_flags s_reset]. change (negb (str_eqb [] [])) with false. cbn iota zeta. rewrite R.
    cbn [andb]. destruct (has_style _) eqn:H; [reflexivity|]. symmetry. apply set_rend_same. rewrite type_text_rend. cbn.
    eapply no_style_flags. exact H.
  - repeat split; intros [].
Qed.
Lemma typed_spans : forall e us before m, Forall (fun u => printable (snd u)) us -> e_parse m = PGround -> e_rend m = rend0 ->
  vt (flat_map (span_str e) (yielded (expected before us))) m = typed before us m.
Proof.
  induction us as [|[ks p] us IH]; intros before m P G R; [reflexivity|]. inversion P as [|? ? P1 P2]; subst.
  cbn [expected typed]. rewrite yielded_app, yielded_unknown. cbn [app yielded flat_map]. unfold vt. rewrite fold_left_app. fold (vt).
  change (fold_left feed1 (span_str e (mkSpan p None None [] (flags_after (before ++ ks)) true)) m) with (vt (span_str e (mkSpan p None None [] (flags_after (before ++ ks)) true)) m).
  rewrite span_typed by assumption. apply IH; [exact P2| |reflexivity].
  cbn [set_rend e_parse]. rewrite type_text_parse. exact G.
Qed.
Lemma markup_printed : forall e l us m, markup_ok l -> Forall2 understood l us -> Forall colorless us ->
  Forall (fun u => printable (snd u)) us -> e_parse m = PGround -> e_rend m = rend0 ->
  exists out, mprint e (written l) = Ok out /\ vt out m = vt [NL] (typed [] us m).
Proof.
  intros e l us m M U C P G R. unfold mprint. rewrite (markup_styles e l us M U C). eexists. split; [reflexivity|].
  unfold vt at 1. rewrite fold_left_app. fold (vt [NL]).
  match goal with |- context [fold_left feed1 ?s m] => change (fold_left feed1 s m) with (vt s m) end.
  rewrite typed_spans by assumption. reflexivity.
Qed.
Lemma markup_unprinted : forall e s x evs, styled_from_markup e s = (evs, Some x) -> mprint e s = Err x.
Proof. intros e s x evs E. unfold mprint. rewrite E. reflexivity. Qed.

(** * Colors *)
Definition at_if (bg : bool) : str := if bg then [64] else [].
Lemma dec_head : forall n, 0 <= n -> match dec n with [] => False | c :: _ => 48 <= c <= 57 end.
Proof.
  intros n H. pose proof (dec_digits n H) as D. pose proof (dec_isdigit n H) as E. destruct (dec n) as [|c t]; [discriminate|].
  cbn [forallb] in D. apply andb_prop in D. destruct D as [D _]. unfold is_digit in D. apply andb_prop in D. rewrite !Z.leb_le in D. exact D.
Qed.
Lemma strip_at : forall (bg : bool) t, match t with [] => False | c :: _ => c <> 64 end ->
  lstrip_by (Z.eqb 64) (at_if bg ++ t) = t /\ (if startswith (lit "@") (at_if bg ++ t) then 10 else 0) = (if bg then 10 else 0).
Proof.
  intros bg t H. destruct t as [|c t]; [tauto|]. split.
  - destruct bg; [exact (lstrip_repeat 64 1 (c :: t) H)|exact (lstrip_repeat 64 0 (c :: t) H)].
  - destruct bg; [reflexivity|]. cbn [at_if app]. change (startswith (lit "@") (c :: t)) with ((64 =? c) && true).
    destruct (Z.eqb_spec 64 c); [congruence|reflexivity].
Qed.
Lemma selects_one : forall n bg x, 0 <= n -> n <> 38 -> n <> 48 -> (forall pen, sgr1 n pen = paint bg x pen) -> selects (dec n) bg x.
Proof.
  intros n bg x H A B E. destruct (dec_params n H) as [P Q]. split; [exact P|]. intros more pen. rewrite Q. cbn [app sgr].
  apply Z.eqb_neq in A, B. rewrite A, B. cbn [orb]. rewrite E. reflexivity.
Qed.
Lemma sgr_index : forall (bg : bool) n pen, 0 <= n < 8 -> sgr1 (30 + (if bg then 10 else 0) + n) pen = paint bg (EIdx n) pen.
Proof.
  intros bg n pen H. assert (C : n = 0 \/ n = 1 \/ n = 2 \/ n = 3 \/ n = 4 \/ n = 5 \/ n = 6 \/ n = 7) by lia.
  repeat (destruct C as [->|C]; [destruct bg; reflexivity|]). subst. destruct bg; reflexivity.
Qed.
Lemma sgr_bright : forall (bg : bool) n pen, 8 <= n < 16 -> sgr1 (80 + (if bg then 10 else 0) + (n + 2)) pen = paint bg (EIdx n) pen.
Proof.
  intros bg n pen H. assert (C : n = 8 \/ n = 9 \/ n = 10 \/ n = 11 \/ n = 12 \/ n = 13 \/ n = 14 \/ n = 15) by lia.
  repeat (destruct C as [->|C]; [destruct bg; reflexivity|]). subst. destruct bg; reflexivity.
Qed.
Lemma parse_index : forall (bg : bool) n, 0 <= n < 256 -> exists body, parse_color (at_if bg ++ dec n) = Ok body /\ selects body bg (EIdx n).
Proof.
  intros bg n H. unfold parse_color. pose proof (dec_head n (proj1 H)) as D.
  destruct (strip_at bg (dec n)) as [E F]; [destruct (dec n); [exact D|lia]|]. rewrite E, F.
  rewrite dec_isdigit, py_int_dec by lia. cbn [bindr].
  destruct (Z.ltb_spec n 8).
  { rewrite (proj2 (Z.leb_le 0 n)) by lia. cbn [andb]. eexists. split; [reflexivity|].
    apply selects_one; [destruct bg; lia|destruct bg; lia|destruct bg; lia|]. intro pen. apply sgr_index. lia. }
  rewrite andb_false_r. destruct (Z.ltb_spec n 16).
  { rewrite (proj2 (Z.leb_le 8 n)) by lia. cbn [andb]. eexists. split; [reflexivity|].
    apply selects_one; [destruct bg; lia|destruct bg; lia|destruct bg; lia|]. intro pen. apply sgr_bright. lia. }
  rewrite andb_false_r. rewrite (proj2 (Z.ltb_lt n 256)) by lia. eexists. split; [reflexivity|].
  assert (P : dec (38 + (if bg then 10 else 0)) = if bg then lit "48" else lit "38") by (destruct bg; reflexivity). rewrite P.
  destruct (dec_params n (proj1 H)) as [A B]. split.
  - rewrite !forallb_app, A. destruct bg; reflexivity.
  - intros more pen. assert (Q : forall a, params (a ++ lit ";5;" ++ dec n) = params a ++ [5; n]).
    { intro a. change (lit ";5;" ++ dec n) with (59 :: (lit "5" ++ 59 :: dec n)). rewrite !params_semi, B. reflexivity. }
    rewrite Q. destruct bg; reflexivity.
Qed.
Lemma parse_beyond : forall (bg : bool) n, 256 <= n -> parse_color (at_if bg ++ dec n) = Err ValueError.
Proof.
  intros bg n H. unfold parse_color. assert (N : 0 <= n) by lia. pose proof (dec_head n N) as D.
  destruct (strip_at bg (dec n)) as [E F]; [destruct (dec n); [exact D|lia]|]. rewrite E, F.
  rewrite dec_isdigit, py_int_dec by lia. cbn [bindr].
  destruct (Z.ltb_spec n 8); [lia|]. destruct (Z.ltb_spec n 16); [lia|]. destruct (Z.ltb_spec n 256); [lia|]. rewrite !andb_false_r. reflexivity.
Qed.
Lemma selects_rgb : forall (bg : bool) r g b, 0 <= r -> 0 <= g -> 0 <= b ->
  selects (dec (38 + (if bg then 10 else 0)) ++ lit ";2;" ++ join (lit ";") [dec r; dec g; dec b]) bg (ERgb r g b).
Proof.
  intros bg r g b R G B.
  assert (P : dec (38 + (if bg then 10 else 0)) ++ lit ";2;" ++ join (lit ";") [dec r; dec g; dec b] = rgb_seq bg r g b)
    by (unfold rgb_seq; destruct bg; reflexivity).
  rewrite P. split.
  - unfold rgb_seq. cbn [join]. rewrite !forallb_app. destruct (dec_params r R) as [-> _], (dec_params g G) as [-> _], (dec_params b B) as [-> _].
    destruct bg; reflexivity.
  - intros more pen. rewrite params_rgb_seq by assumption. destruct bg; reflexivity.
Qed.
Lemma css_not_hash : forallb (fun kv => match fst kv with c :: _ => negb (c =? 35) && negb (is_digit_char c) | [] => false end) CSS_COLORS = true.
Proof. vm_compute. reflexivity. Qed.
Lemma css_head : forall c t, (c = 35 \/ is_digit_char c = true) -> dict_get CSS_COLORS (c :: t) = None.
Proof.
  intros c t H. apply KeyProofs.dict_get_none. intro I. apply in_map_iff in I. destruct I as [[k v] [E I]]. cbn [fst] in E. subst k.
  pose proof css_not_hash as X. rewrite forallb_forall in X. specialize (X _ I). cbn [fst] in X. apply andb_prop in X. destruct X as [X Y].
  apply negb_true_iff in X, Y. apply Z.eqb_neq in X. destruct H; [tauto|congruence].
Qed.
Definition six (a b c d e f : Z) : str := [a; b; c; d; e; f].
Lemma hex_body : forall a b c d e f x1 x2 x3 x4 x5 x6, hex_value a x1 -> hex_value b x2 -> hex_value c x3 -> hex_value d x4 ->
  hex_value e x5 -> hex_value f x6 ->
  (if startswith (lit "#") (35 :: six a b c d e f) then
     let color := lstrip_by (Z.eqb 35) (35 :: six a b c d e f) in
     let* r := py_int16 (slice None (Some 2) color) in
     let* g := py_int16 (slice (Some 2) (Some 4) color) in
     let* bl := py_int16 (slice (Some 4) None color) in
     Ok (join (lit ";") [dec r; dec g; dec bl])
   else Ok (35 :: six a b c d e f)) = Ok (join (lit ";") [dec (16 * x1 + x2); dec (16 * x3 + x4); dec (16 * x5 + x6)]).
Proof.
  intros a b c d e f x1 x2 x3 x4 x5 x6 A B C D E F. change (startswith (lit "#") (35 :: six a b c d e f)) with true. cbn iota.
  assert (S : lstrip_by (Z.eqb 35) (35 :: six a b c d e f) = six a b c d e f).
  { apply (lstrip_repeat 35 1 (six a b c d e f)). cbn. unfold hex_value in A. lia. }
  rewrite S. cbn zeta. unfold six.
  change (slice None (Some 2) [a; b; c; d; e; f]) with [a; b].
  change (slice (Some 2) (Some 4) [a; b; c; d; e; f]) with [c; d].
  change (slice (Some 4) None [a; b; c; d; e; f]) with [e; f].
  rewrite (py_int16_pair a b x1 x2), (py_int16_pair c d x3 x4), (py_int16_pair e f x5 x6) by assumption. reflexivity.
Qed.
Ltac with_body HB :=
  match goal with |- context [@bindr str (list Z) ?x _] =>
    match type of HB with _ = ?y => replace x with (y : res str) by (symmetry; exact HB) end end.
Lemma hex_nonneg : forall c x, hex_value c x -> 0 <= x < 16.
Proof. intros c x H. unfold hex_value in H. lia. Qed.
Lemma parse_hex : forall (bg : bool) a b c d e f x1 x2 x3 x4 x5 x6, hex_value a x1 -> hex_value b x2 -> hex_value c x3 -> hex_value d x4 ->
  hex_value e x5 -> hex_value f x6 ->
  exists body, parse_color (at_if bg ++ 35 :: [a; b; c; d; e; f]) = Ok body /\
    selects body bg (ERgb (16 * x1 + x2) (16 * x3 + x4) (16 * x5 + x6)).
Proof.
  intros bg a b c d e f x1 x2 x3 x4 x5 x6 A B C D E F. change (35 :: [a; b; c; d; e; f]) with (35 :: six a b c d e f).
  unfold parse_color. destruct (strip_at bg (35 :: six a b c d e f)) as [S T]; [lia|]. rewrite S, T.
  change (isdigit (35 :: six a b c d e f)) with false. cbv iota zeta. rewrite css_head by auto.
  pose proof (hex_body a b c d e f x1 x2 x3 x4 x5 x6 A B C D E F) as HB. cbv zeta in HB. with_body HB. cbn [bindr]. eexists. split; [reflexivity|].
  repeat match goal with H : hex_value _ _ |- _ => apply hex_nonneg in H end. apply selects_rgb; lia.
Qed.
(** every named color has six hexadecimal digits *)
Definition unhex (c : Z) : Z := if c <=? 57 then c - 48 else if c <=? 70 then c - 55 else c - 87.
Lemma unhex_value : forall c, hex_char c = true -> hex_value c (unhex c).
Proof.
  intros c H. apply hex_char_iff in H. destruct H as [v H]. unfold unhex, hex_value in *.
  destruct (Z.leb_spec c 57); [lia|]. destruct (Z.leb_spec c 70); lia.
Qed.
Lemma css_hex : forallb (fun kv => (List.length (snd kv) =? 7)%nat && match snd kv with h :: t => (h =? 35) && forallb hex_char t | [] => false end
    && str_eqb (match dict_get CSS_COLORS (fst kv) with Some v => v | None => [] end) (snd kv) && negb (isdigit (fst kv))) CSS_COLORS = true.
Proof. vm_compute. reflexivity. Qed.
Lemma parse_css : forall n name v, In (name, v) CSS_COLORS -> exists a b c d e f x1 x2 x3 x4 x5 x6 body,
  v = [35; a; b; c; d; e; f] /\ hex_value a x1 /\ hex_value b x2 /\ hex_value c x3 /\ hex_value d x4 /\ hex_value e x5 /\ hex_value f x6 /\
  parse_color (repeat 64 n ++ name) = Ok body /\
  selects body (negb (n =? 0)%nat) (ERgb (16 * x1 + x2) (16 * x3 + x4) (16 * x5 + x6)).
Proof.
  intros n name v I. pose proof css_hex as X. rewrite forallb_forall in X. specialize (X _ I). cbn [fst snd] in X.
  pose proof css_no_at as Y. rewrite forallb_forall in Y. specialize (Y _ I). cbn [fst] in Y.
  apply andb_prop in X. destruct X as [X N]. apply andb_prop in X. destruct X as [X G]. apply andb_prop in X. destruct X as [L X].
  apply Nat.eqb_eq in L. destruct v as [|h v]; [discriminate|]. cbn in L. injection L as L. apply andb_prop in X. destruct X as [X1 X].
  apply Z.eqb_eq in X1. subst h. apply negb_true_iff in N. apply str_eqb_eq in G.
  destruct v as [|a [|b [|c [|d [|e [|f [|? ?]]]]]]]; try discriminate. cbn [forallb] in X. rewrite !andb_true_iff in X.
  destruct X as [A [B [C [D [E [F _]]]]]]. apply unhex_value in A, B, C, D, E, F.
  exists a, b, c, d, e, f, (unhex a), (unhex b), (unhex c), (unhex d), (unhex e), (unhex f).
  assert (Q : dict_get CSS_COLORS name = Some (35 :: six a b c d e f)).
  { destruct (dict_get CSS_COLORS name) as [w|]; [|discriminate]. rewrite G. reflexivity. }
  destruct name as [|c0 name]; [discriminate|]. apply andb_prop in Y. destruct Y as [Y _]. apply negb_true_iff, Z.eqb_neq in Y.
  eexists. repeat (split; [first [reflexivity|assumption]|]). split.
  - unfold parse_color. rewrite lstrip_repeat by exact Y.
    assert (W : (if startswith (lit "@") (repeat 64 n ++ c0 :: name) then 10 else 0) = if negb (n =? 0)%nat then 10 else 0).
    { destruct n as [|n]; [|reflexivity]. cbn [repeat app]. change (startswith (lit "@") (c0 :: name)) with ((64 =? c0) && true).
      destruct (Z.eqb_spec 64 c0); [congruence|reflexivity]. }
    cbv zeta. rewrite W, N, Q.
    pose proof (hex_body a b c d e f _ _ _ _ _ _ A B C D E F) as HB. cbv zeta in HB. with_body HB. cbn [bindr]. reflexivity.
  - repeat match goal with H : hex_value _ _ |- _ => apply hex_nonneg in H end. apply selects_rgb; lia.
Qed.
Lemma parse_rgb : forall (bg : bool) r g b, 0 <= r -> 0 <= g -> 0 <= b ->
  exists body, parse_color (at_if bg ++ dec r ++ [59] ++ dec g ++ [59] ++ dec b) = Ok body /\ selects body bg (ERgb r g b).
Proof.
  intros bg r g b R G B. set (t := dec r ++ [59] ++ dec g ++ [59] ++ dec b). pose proof (dec_head r R) as D.
  assert (H : exists c u, t = c :: u /\ 48 <= c <= 57). { unfold t. destruct (dec r) as [|c u]; [tauto|]. eexists _, _. split; [reflexivity|exact D]. }
  unfold parse_color. destruct (strip_at bg t) as [S T]; [destruct H as [c [u [-> H]]]; lia|]. rewrite S, T.
  assert (N : isdigit t = false).
  { unfold isdigit. destruct H as [c [u [E H]]]. destruct t as [|x y] eqn:Q; [discriminate|]. rewrite <- Q. unfold t in Q.
    apply not_true_iff_false. intro X. rewrite forallb_forall in X. specialize (X 59). unfold t in X.
    assert (Z : is_digit_char 59 = true) by (apply X; apply in_or_app; right; left; reflexivity). vm_compute in Z. discriminate. }
  rewrite N. destruct H as [c [u [E H]]]. rewrite E.
  assert (DC : is_digit_char c = true).
  { unfold is_digit_char. rewrite is_decimal_digit; [reflexivity|]. unfold is_digit. apply andb_true_iff. rewrite !Z.leb_le. exact H. }
  rewrite css_head by auto. change (startswith (lit "#") (c :: u)) with ((35 =? c) && true). destruct (Z.eqb_spec 35 c); [lia|]. cbn [andb bindr].
  rewrite <- E. eexists. split; [reflexivity|]. exact (selects_rgb bg r g b R G B).
Qed.
(** hexadecimal digits without the # are taken over as they are *)
Lemma css_no_hex : forallb (fun kv => negb (re_hex (fst kv))) CSS_COLORS = true.
Proof. vm_compute. reflexivity. Qed.
Lemma parse_bare_hex : forall (bg : bool) x, hex_six x -> (exists c, In c x /\ is_digit c = false) ->
  exists body, parse_color (at_if bg ++ x) = Ok body /\ forallb param_char body = false.
Proof.
  intros bg x X [c [I N]]. unfold parse_color. pose proof X as [L V].
  destruct x as [|h x]; [discriminate|]. inversion V as [|? ? [v Hh] V']; subst.
  destruct (strip_at bg (h :: x)) as [S T]; [unfold hex_value in Hh; lia|]. rewrite S, T.
  assert (NC : is_digit_char c = false).
  { rewrite Forall_forall in V. destruct (V _ I) as [w W]. unfold is_digit in N. unfold hex_value in W.
    assert (K : In c (map Z.of_nat (seq 97 6)) \/ In c (map Z.of_nat (seq 65 6))).
    { apply andb_false_iff in N. rewrite !Z.leb_gt in N. destruct (Z_le_gt_dec 97 c); [left|right]; apply in_map_iff; exists (Z.to_nat c); (split; [lia|apply in_seq; lia]). }
    assert (AL : forall l, forallb (fun z => negb (is_digit_char z)) l = true -> In c l -> is_digit_char c = false).
    { intros l A J. rewrite forallb_forall in A. apply negb_true_iff, A, J. }
    destruct K as [K|K]; (eapply AL; [|exact K]; vm_compute; reflexivity). }
  assert (D : isdigit (h :: x) = false).
  { apply not_true_iff_false. intro Q. unfold isdigit in Q. rewrite forallb_forall in Q. rewrite (Q _ I) in NC. discriminate. }
  rewrite D.
  assert (K : dict_get CSS_COLORS (h :: x) = None).
  { apply KeyProofs.dict_get_none. intro J. apply in_map_iff in J. destruct J as [[k u] [E J]]. cbn [fst] in E. subst k.
    pose proof css_no_hex as A. rewrite forallb_forall in A. specialize (A _ J). cbn [fst] in A. apply negb_true_iff in A.
    assert (Q : re_hex (h :: x) = true).
    { unfold re_hex. pose proof Hh as Hh'. unfold hex_value in Hh'. unfold optional. destruct (Z.eqb_spec h 64); [lia|]. destruct (Z.eqb_spec h 35); [lia|].
      rewrite L. rewrite firstn_all2 by lia. cbn [andb Nat.leb]. apply forallb_forall. intros y Y. rewrite Forall_forall in V. apply hex_char_iff, V, Y. }
    congruence. }
  rewrite K. change (startswith (lit "#") (h :: x)) with ((35 =? h) && true). destruct (Z.eqb_spec 35 h); [unfold hex_value in Hh; lia|]. cbn [andb bindr].
  eexists. split; [reflexivity|]. rewrite !forallb_app. apply andb_false_iff. right. apply andb_false_iff. right.
  apply not_true_iff_false. intro Q. rewrite forallb_forall in Q. specialize (Q _ I). unfold param_char in Q. rewrite N in Q.
  rewrite Forall_forall in V. destruct (V _ I) as [w W]. unfold hex_value in W. cbn [orb] in Q. apply Z.eqb_eq in Q. lia.
Qed.

Lemma css_names : forall name v, In (name, v) CSS_COLORS <->
  In (name, v) NAMED_COLORS /\ ~ In name [lit "slate"; lit "zenith"; lit "celadon"; lit "carmine"].
Proof.
  set (own := [lit "slate"; lit "zenith"; lit "celadon"; lit "carmine"]).
  assert (E : CSS_COLORS = filter (fun kv => negb (existsb (str_eqb (fst kv)) own)) NAMED_COLORS) by (vm_compute; reflexivity).
  intros name v. rewrite E, filter_In. cbn [fst]. split; intros [A B]; split; try exact A.
  - intro X. apply negb_true_iff in B.
    assert (Z : existsb (str_eqb name) own = true) by (apply existsb_exists; exists name; split; [exact X|apply str_eqb_refl]). congruence.
  - apply negb_true_iff, not_true_iff_false. intro X. apply existsb_exists in X. destruct X as [n [X Y]]. apply str_eqb_eq in Y. subst n. contradiction.
Qed.
