(** Lemmas: SGR parameters as the parser reads them, round trips, exceptions. *)
From Coq Require Import ZArith List Bool Lia String.
From Verif Require Import PyBase PyLemmas SplitLemmas F64 SpaceModel SpaceSpec ColorTab ColorModel ColorSpec ColorProofs
  ColorProofs2 AnsiRe SpanModel CoreModel Vt PaletteSpec PaletteProofs KeyProofs SpanSpec SpanProofs SpanProofs2 ParseProofs.
Open Scope Z_scope.

(** * One color selection *)
Lemma starts_color_dec : forall n, 0 <= n -> exists b, starts_color (dec n) = Ok b /\
  (b = true <-> ((30 <= n < 49 \/ 90 <= n < 108) /\ n <> 39)).
Proof.
  intros n H. unfold starts_color. rewrite dec_isdigit by assumption. rewrite py_int_dec by assumption. cbn [bindr].
  eexists. split; [reflexivity|].
  assert (S : str_in (dec n) [lit "39"; lit "49"] = true <-> n = 39 \/ n = 49).
  { rewrite str_in_In. cbn [In].
    assert (A : forall k, 0 <= k -> dec k = dec n <-> n = k) by (intros k K; split; [intro E; apply dec_inj in E; auto|congruence]).
    change (lit "39") with (dec 39). change (lit "49") with (dec 49). rewrite !A by lia. tauto. }
  destruct (str_in (dec n) _).
  - rewrite andb_false_r. split; [discriminate|]. destruct S as [S _]. specialize (S eq_refl). lia.
  - rewrite andb_true_r, orb_true_iff, !andb_true_iff, !Z.leb_le, !Z.ltb_lt.
    assert (n <> 39 /\ n <> 49) by (split; intro; destruct S as [_ S]; discriminate S; auto). lia.
Qed.

Definition put_color (bg : bool) (c : color) (o : options) : options :=
  if bg then mkOptions (o_fg o) (Some c) (o_flags o) (o_bad o)
  else mkOptions (Some c) (o_bg o) (o_flags o) (o_bad o).

Lemma split_dec2 : forall a b, split_on 59 (a ++ 59 :: b) = split_on 59 a ++ split_on 59 b.
Proof. intros. apply split_on_semi. Qed.
Lemma split_dec1 : forall n, split_on 59 (dec n) = [dec n].
Proof. intros. apply split_on_single. intro H. apply dec_chars in H. lia. Qed.

Lemma isdigit_semi : forall a b, isdigit (a ++ 59 :: b) = false.
Proof.
  intros. unfold isdigit. destruct (a ++ 59 :: b) eqn:E; [reflexivity|]. rewrite <- E.
  rewrite forallb_app. cbn [forallb]. change (is_digit_char 59) with false. now rewrite andb_false_r.
Qed.

Lemma step_more : forall n rest buf inc o, 0 <= n ->
  (inc = true \/ starts_color (dec n) = Ok true) -> is_valid_color (buf ++ dec n) = Ok false ->
  parse_parts (dec n :: rest) inc buf o = parse_parts rest true ((buf ++ dec n) ++ lit ";") o.
Proof.
  intros n rest buf inc o Hn Hi Hv. cbn [parse_parts].
  destruct (starts_color_dec n Hn) as [b [E _]]. rewrite E.
  assert (inc || b = true) as -> by (destruct Hi as [->|Hi]; [reflexivity|]; rewrite Hi in E; injection E as <-; apply orb_true_r).
  now rewrite Hv.
Qed.
Lemma step_done : forall n rest buf inc o c, 0 <= n ->
  (inc = true \/ starts_color (dec n) = Ok true) -> is_valid_color (buf ++ dec n) = Ok true ->
  from_ansi (buf ++ dec n) fone = Ok c ->
  parse_parts (dec n :: rest) inc buf o = parse_parts rest false [] (put_color (is_background_color (buf ++ dec n)) c o).
Proof.
  intros n rest buf inc o c Hn Hi Hv Hf. cbn [parse_parts].
  destruct (starts_color_dec n Hn) as [b [E _]]. rewrite E.
  assert (inc || b = true) as -> by (destruct Hi as [->|Hi]; [reflexivity|]; rewrite Hi in E; injection E as <-; apply orb_true_r).
  rewrite Hv, Hf. unfold put_color. now destruct (is_background_color _).
Qed.

Lemma valid_parts : forall a p rest, isdigit (a ++ 59 :: rest) = false -> ~ In 59 a -> ~ In 59 p ->
  (rest = p \/ exists r, rest = p ++ 59 :: r) ->
  is_valid_color (a ++ 59 :: rest) =
    (if str_eqb p (lit "2") then Ok ((zlen (split_on 59 (a ++ 59 :: rest)) =? 5) || (zlen (split_on 59 (a ++ 59 :: rest)) =? 6))
     else if str_eqb p (lit "5") then Ok ((zlen (split_on 59 (a ++ 59 :: rest)) =? 3) || (zlen (split_on 59 (a ++ 59 :: rest)) =? 4))
     else Ok false).
Proof.
  intros a p rest Hd Ha Hp Hr. unfold is_valid_color. rewrite Hd. cbv zeta.
  rewrite split_on_app by assumption.
  destruct Hr as [->|[r ->]].
  - rewrite split_on_single by assumption. reflexivity.
  - rewrite split_on_app by assumption. reflexivity.
Qed.

Lemma lead_text : forall bg : bool, dec (38 + (if bg then 10 else 0)) = if bg then lit "48" else lit "38".
Proof. intros []; reflexivity. Qed.

Lemma parse_color : forall bg x ps rest o, color_params bg x ps ->
  exists c, parse_parts (map dec ps ++ rest) false [] o = parse_parts rest false [] (put_color bg c o) /\
    color_for bg (Some c) x.
Proof.
  intros bg x ps rest o H. destruct (from_ansi_text bg x ps fone H) as [c [F [T A]]].
  assert (CF : color_for bg (Some c) x).
  { destruct T as [T1 [T2 [T3 T4]]]. unfold color_for. split; [exact T1|]. split; [exact A|].
    split; [exists (sgr_text ps); split; [exact T2|exists ps; auto]|].
    destruct x as [|n|r g b]; [contradiction| |tauto].
    assert (R : 0 <= n < 256) by (cbn in H; destruct H as [[H _]|[[H _]|[H _]]]; lia).
    destruct (table_entry n R) as [t Et]. rewrite Et. f_equal. destruct T4 as [T4 _]. rewrite T4.
    pose proof (table_nth n R) as TN. rewrite <- TN. symmetry. apply nth_error_nth. exact Et. }
  exists c. split; [|exact CF]. clear CF T A.
  unfold color_params in H. cbv zeta in H.
  assert (S38 : starts_color (dec (38 + (if bg then 10 else 0))) = Ok true) by (destruct bg; reflexivity).
  destruct x as [|n|r g b]; [contradiction| |].
  - destruct H as [[R ->]|[[R ->]|[R ->]]].
    + cbn [map app]. rewrite (step_more _ _ []); [|destruct bg; lia|auto|destruct bg; reflexivity].
      rewrite step_more; [|lia|auto|destruct bg; reflexivity].
      set (buf := _ ++ lit ";").
      assert (EB : buf ++ dec n = sgr_text [38 + (if bg then 10 else 0); 5; n]) by (unfold buf; destruct bg; reflexivity).
      rewrite (step_done n rest buf true o c); [|lia|auto| |now rewrite EB].
      * rewrite EB. do 2 f_equal. destruct bg; reflexivity.
      * rewrite EB. assert (EI : sgr_text [38 + (if bg then 10 else 0); 5; n] = idx_seq bg n) by (destruct bg; reflexivity).
        pose proof (split_idx_seq bg n) as SP. rewrite <- EI in SP.
        unfold is_valid_color. rewrite SP. cbv zeta. cbn [nth_error].
        assert (isdigit (sgr_text [38 + (if bg then 10 else 0); 5; n]) = false) as ->.
        { unfold sgr_text. cbn [map]. rewrite join_cons. apply isdigit_semi. }
        reflexivity.
    + cbn [map app]. rewrite (step_done _ rest [] false o c); [|destruct bg; lia| | |exact F].
      * cbn [app]. f_equal. f_equal. clear F. destruct bg; cases16 n; try lia; reflexivity.
      * right. clear F. destruct bg; cases16 n; try lia; reflexivity.
      * clear F. destruct bg; cases16 n; try lia; reflexivity.
    + cbn [map app]. rewrite (step_done _ rest [] false o c); [|destruct bg; lia| | |exact F].
      * cbn [app]. f_equal. f_equal. clear F. destruct bg; cases16 n; try lia; reflexivity.
      * right. clear F. destruct bg; cases16 n; try lia; reflexivity.
      * clear F. destruct bg; cases16 n; try lia; reflexivity.
  - destruct H as [[R1 [R2 R3]] ->]. cbn [map app].
    rewrite (step_more _ _ []); [|destruct bg; lia|auto|destruct bg; reflexivity].
    rewrite step_more; [|lia|auto|destruct bg; reflexivity].
    set (b1 := _ ++ lit ";").
    assert (E1 : b1 = (if bg then lit "48" else lit "38") ++ 59 :: lit "2" ++ [59]) by (unfold b1; destruct bg; reflexivity).
    clearbody b1. subst b1.
    set (ld := if bg then lit "48" else lit "38") in *.
    assert (Hld : ~ In 59 ld) by (unfold ld; destruct bg; cbn; intuition lia).
    assert (H2 : ~ In 59 (lit "2")) by (cbn; intuition lia).
    assert (V : forall r, is_valid_color (ld ++ 59 :: lit "2" ++ 59 :: r) =
        Ok ((zlen (split_on 59 r) =? 3) || (zlen (split_on 59 r) =? 4))).
    { intro r0. rewrite (valid_parts ld (lit "2")); [|apply isdigit_semi|exact Hld|exact H2|right; eauto].
      rewrite split_on_app by exact Hld. rewrite split_on_app by exact H2. rewrite !zlen_cons.
      change (str_eqb (lit "2") (lit "2")) with true. cbv iota. f_equal.
      pose proof (zlen_nonneg _ (split_on 59 r0)).
      apply eq_true_iff_eq. rewrite !orb_true_iff, !Z.eqb_eq. unfold str. lia. }
    rewrite step_more; [|lia|auto|].
    2:{ transitivity (is_valid_color (ld ++ 59 :: lit "2" ++ 59 :: dec r));
          [f_equal; unfold ld; rewrite <- app_assoc; reflexivity|].
        rewrite V, split_dec1. reflexivity. }
    rewrite step_more; [|lia|auto|].
    2:{ transitivity (is_valid_color (ld ++ 59 :: lit "2" ++ 59 :: (dec r ++ 59 :: dec g)));
          [f_equal; unfold ld; rewrite <- !app_assoc; reflexivity|].
        rewrite V, split_dec2, !split_dec1. reflexivity. }
    set (buf := _ ++ lit ";").
    assert (EB : buf ++ dec b = sgr_text [38 + (if bg then 10 else 0); 2; r; g; b]).
    { unfold buf, ld, sgr_text. cbn [map]. rewrite !join_cons. cbn [join]. rewrite <- !app_assoc. destruct bg; reflexivity. }
    assert (EV : buf ++ dec b = ld ++ 59 :: lit "2" ++ 59 :: (dec r ++ 59 :: dec g ++ 59 :: dec b)).
    { rewrite EB. unfold ld, sgr_text. cbn [map]. rewrite !join_cons. cbn [join]. destruct bg; reflexivity. }
    rewrite (step_done b rest buf true o c); [|lia|auto| |now rewrite EB].
    + rewrite EV. do 2 f_equal. unfold ld. destruct bg; reflexivity.
    + rewrite EV, V, !split_dec2, !split_dec1. reflexivity.
Qed.

(** * Simple codes *)
Definition opt_like (o : options) (pen : rend) : Prop :=
  color_for false (o_fg o) (r_fg pen) /\ color_for true (o_bg o) (r_bg pen) /\
  let f := o_flags o in
  fl_bold f = r_bold pen /\ fl_dim f = r_dim pen /\ fl_italic f = r_italic pen /\
  fl_underline f = r_underline pen /\ fl_blink f = r_blink pen /\ fl_fast_blink f = r_rapid pen /\
  fl_invert f = r_inverse pen /\ fl_conceal f = r_conceal pen /\ fl_strike f = r_strike pen /\
  fl_opaque f = false /\ o_bad o = false.

Lemma parse_code : forall n rest o pen, In n simple_codes -> opt_like o pen ->
  exists o', parse_parts (dec n :: rest) false [] o = parse_parts rest false [] o' /\
    opt_like o' (sgr [n] pen).
Proof.
  intros n rest o pen H L. destruct o as [fg bg f bad]. destruct f as [f1 f2 f3 f4 f5 f6 f7 f8 f9 f10].
  destruct pen as [q1 q2 b1 b2 b3 b4 b5 b6 b7 b8 b9].
  unfold opt_like in *. cbn [o_fg o_bg o_flags o_bad fl_bold fl_dim fl_italic fl_underline fl_blink fl_fast_blink fl_invert fl_conceal fl_strike fl_opaque
    r_fg r_bg r_bold r_dim r_italic r_underline r_blink r_rapid r_inverse r_conceal r_strike] in L.
  destruct L as [L1 [L2 [L3 [L4 [L5 [L6 [L7 [L8 [L9 [L10 [L11 [L12 L13]]]]]]]]]]]]. subst.
  cbn [In simple_codes] in H.
  repeat (destruct H as [H|H]); try contradiction; subst n;
    (eexists; split; [reflexivity|]; cbn; repeat split; assumption || reflexivity).
Qed.

Lemma sgr_cons_simple : forall n ps pen, In n simple_codes -> sgr (n :: ps) pen = sgr ps (sgr [n] pen).
Proof.
  intros n ps pen H. cbn [In simple_codes] in H. repeat (destruct H as [H|H]); try contradiction; subst n; reflexivity.
Qed.

Lemma parse_supported : forall ps, supported ps -> forall rest o pen, opt_like o pen ->
  exists o', parse_parts (map dec ps ++ rest) false [] o = parse_parts rest false [] o' /\
    opt_like o' (sgr ps pen).
Proof.
  induction 1 as [|n ps Hn Hs IH|bg x c ps Hc Hs IH]; intros rest o pen L.
  - exists o. auto.
  - cbn [map app]. destruct (parse_code n (map dec ps ++ rest) o pen Hn L) as [o1 [E1 L1]].
    destruct (IH rest o1 _ L1) as [o2 [E2 L2]]. exists o2. split; [congruence|].
    now rewrite sgr_cons_simple.
  - rewrite map_app, <- app_assoc.
    destruct (parse_color bg x c (map dec ps ++ rest) o Hc) as [k [E1 K]].
    assert (L1 : opt_like (put_color bg k o) (paint bg x pen)).
    { unfold opt_like, put_color, paint in *. destruct bg; cbn in *; tauto. }
    destruct (IH rest _ _ L1) as [o2 [E2 L2]]. exists o2. split; [congruence|].
    now rewrite (color_params_sgr bg x).
Qed.

Lemma supported_nonneg : forall ps, supported ps -> Forall (fun n => 0 <= n) ps.
Proof.
  induction 1 as [|n ps Hn Hs IH|bg x c ps Hc Hs IH]; [constructor| |].
  - constructor; [|exact IH]. cbn [In simple_codes] in Hn. lia.
  - apply Forall_app. split; [|exact IH]. now apply (color_params_nonneg bg x).
Qed.

Lemma split_sgr_text : forall ps, ps <> [] -> Forall (fun n => 0 <= n) ps -> split_on 59 (sgr_text ps) = map dec ps.
Proof.
  intros ps N H. unfold sgr_text. apply split_on_join; [destruct ps; [congruence|discriminate]|].
  rewrite Forall_map. revert H. apply Forall_impl. intros a Ha. now apply dec_no_semi.
Qed.

Lemma parse_sequence_supported : forall ps o pen, supported ps -> ps <> [] -> opt_like o pen ->
  exists o', parse_sequence (sgr_text ps) o = (o', Ok None) /\ opt_like o' (sgr ps pen).
Proof.
  intros ps o pen Hs Hn L. unfold parse_sequence. rewrite split_sgr_text; [|assumption|now apply supported_nonneg].
  destruct (parse_supported ps Hs [] o pen L) as [o' [E L']]. rewrite app_nil_r in E. exists o'. split; [|exact L'].
  rewrite E. reflexivity.
Qed.

Lemma opt_like_span : forall o pen t, opt_like o pen ->
  exists s, span_of_options t o = Ok s /\ s_text s = t /\ looks_like s pen.
Proof.
  intros o pen t L. unfold span_of_options. unfold opt_like in L. cbv zeta in L.
  destruct L as [L1 [L2 [L3 [L4 [L5 [L6 [L7 [L8 [L9 [L10 [L11 [L12 L13]]]]]]]]]]]]. rewrite L13.
  eexists. split; [reflexivity|]. split; [reflexivity|]. unfold looks_like. cbn. repeat split; assumption.
Qed.


Lemma run_supported : forall l o pen, opt_like o pen ->
  Forall (fun p => supported (fst p) /\ fst p <> []) l ->
  exists ss, run_pieces o (sgr_pieces l) = (ss, None) /\
    Forall2 (fun s tp => s_text s = fst tp /\ looks_like s (snd tp)) ss (pens pen l).
Proof.
  induction l as [|[ps t] l IH]; intros o pen L H; [exists []; split; [reflexivity|constructor]|].
  inversion H as [|? ? [H1 H2] H3]; subst. cbn [fst snd] in *. cbn [sgr_pieces map run_pieces fst snd pens].
  destruct (parse_sequence_supported ps o pen H1 H2 L) as [o' [E L']]. rewrite E.
  destruct (opt_like_span o' _ t L') as [s [S1 [S2 S3]]]. rewrite S1.
  destruct (IH o' _ L' H3) as [ss [R F]]. fold (sgr_pieces l). rewrite R.
  exists (s :: ss). split; [reflexivity|]. constructor; auto.
Qed.

Lemma no_options_like : opt_like no_options rend0.
Proof. repeat split. Qed.

Lemma params_body_ok : forall b, forallb param_char b = true -> body_ok b.
Proof. intros b H. rewrite forallb_forall in H. repeat split; intro I; apply H in I; discriminate. Qed.

Lemma sgr_pieces_ok : forall l,
  Forall (fun p => supported (fst p) /\ fst p <> [] /\ text_ok (snd p)) l -> Forall piece_ok (sgr_pieces l).
Proof.
  intros l H. unfold sgr_pieces. rewrite Forall_map. revert H. apply Forall_impl. intros [ps t] [H1 [H2 H3]].
  split; [|exact H3]. cbn [fst snd] in *. apply params_body_ok. apply sgr_text_params; [now apply supported_nonneg|exact H2].
Qed.

Lemma parse_sgr_line : forall lead l tail, ~ In 27 lead -> l <> [] -> tail_ok tail ->
  Forall (fun p => supported (fst p) /\ fst p <> [] /\ text_ok (snd p)) l ->
  exists ss, yield_from (line_of lead (sgr_pieces l) ++ tail)
             = (ss ++ (if str_eqb tail [] then [] else [plain_span tail]), None) /\
    Forall2 (fun s tp => s_text s = fst tp /\ looks_like s (snd tp)) ss (pens rend0 l).
Proof.
  intros lead l tail Hlead Hn Ht H.
  destruct (run_supported l no_options rend0 no_options_like) as [ss [R F]].
  { revert H. apply Forall_impl. tauto. }
  exists ss. split; [|exact F]. rewrite yield_line; auto.
  - now rewrite R.
  - now apply sgr_pieces_ok.
  - destruct l; [congruence|discriminate].
Qed.

(** the terminal fed with the same line *)
Lemma vt_sgr_line : forall l m, e_parse m = PGround ->
  Forall (fun p => supported (fst p) /\ fst p <> [] /\ printable (snd p)) l ->
  vt (line_of [] (sgr_pieces l)) m =
  fold_left (fun m tp => type_text (fst tp) (set_rend (snd tp) m)) (pens (e_rend m) l) m.
Proof.
  induction l as [|[ps t] l IH]; intros m Hm H; [reflexivity|].
  inversion H as [|? ? [H1 [H2 H3]] H4]; subst. cbn [fst snd] in *.
  cbn [sgr_pieces map fst snd pens fold_left]. fold (sgr_pieces l). rewrite line_cons.
  replace ([27; 91] ++ sgr_text ps ++ [109] ++ t ++ line_of [] (sgr_pieces l))
     with (csi_m (sgr_text ps) ++ t ++ line_of [] (sgr_pieces l)) by (unfold csi_m; cbn; now rewrite <- app_assoc).
  destruct (sgr_text_params ps (supported_nonneg ps H1) H2) as [P1 [P2 _]].
  rewrite !vt_app. rewrite vt_csi_m by assumption. rewrite P1. rewrite (vt_text t) by assumption.
  rewrite IH; [|rewrite type_text_parse; exact Hm|assumption].
  rewrite type_text_rend. reflexivity.
Qed.
