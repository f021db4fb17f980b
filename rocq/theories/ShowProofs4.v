(** Lemmas: which printed forms evaluate to equal objects and which do not. *)
From Coq Require Import ZArith List Bool String Lia Reals Lra.
From Flocq Require Import Core IEEE754.BinarySingleNaN.
From Verif Require Import PyBase PyLemmas F64 FloatLemmas SpaceModel ColorModel SpanModel BlendProofs DecSpec DecProofs ReprModel ReprSpec
  SvgGeoProofs ReprProofs KeyUseModel KeyUseSpec KeyUseProofs SpanProofs MainProofs PaletteSpec PaletteProofs BlendSpec ColorSpec ShowModel ShowSpec ShowProofs ShowProofs2 ShowProofs3.
Import ListNotations.
Open Scope Z_scope.
Open Scope list_scope.

Lemma feqb_of_value : forall a b : f64, is_finite a = true -> is_finite b = true -> B2R a = B2R b -> feqb a b = true.
Proof. intros a b Fa Fb E. unfold feqb. rewrite Beqb_correct by assumption. now apply Req_bool_true. Qed.
Lemma plain_equal : forall c c', is_finite (c_alpha c) = true -> plain_again c c' -> color_eqb c' c = true.
Proof.
  intros c c' F [E1 [E2 [E3 _]]]. unfold color_eqb. rewrite (feqb_of_value _ _ E3 F E2), E1. destruct (c_rgb c) as [[r g] b]. cbn [triple_eqb].
  now rewrite !Z.eqb_refl.
Qed.
Lemma color_reads : forall read c, reader read -> printable c ->
  exists c', evaluates read (color_repr c) (VColor c') /\ plain_again c c' /\ color_eqb c' c = true.
Proof.
  intros read c R P. destruct (item_color read c R P) as [c' [I A]]. exists c'. split; [now apply closed_evaluates|]. split; [exact A|].
  apply plain_equal; [apply P|exact A].
Qed.

(** * Texts that do not evaluate *)
Lemma tokens_sym : forall n c r, In c [40; 41; 44; 61; 45] -> tokens (S n) (c :: r) = option_map (cons (TSym c)) (tokens n r).
Proof. intros n c r I. cbn [In] in I. destruct I as [<-|[<-|[<-|[<-|[<-|[]]]]]]; reflexivity. Qed.
Lemma tokens_space : forall n r, tokens (S n) (32 :: r) = tokens n r. Proof. reflexivity. Qed.
Lemma tokens_name : forall n m r, forallb name_char m = true -> match m with c :: _ => letter_char c = true | [] => False end ->
  match r with c :: _ => name_char c = false | [] => True end -> tokens (S n) (m ++ r) = option_map (cons (TName m)) (tokens n r).
Proof.
  intros n m r H1 H2 D. destruct m as [|c m]; [contradiction|]. destruct (letter_not c H2) as [A B].
  change ((c :: m) ++ r) with (c :: m ++ r). cbn [tokens]. rewrite A, B, H2. change (c :: m ++ r) with ((c :: m) ++ r).
  rewrite (name_token_app _ _ H1 D). reflexivity.
Qed.
Lemma tokens_string : forall n pr s r, Forall character s -> tokens (S n) (repr_str pr s ++ r) = option_map (cons (TStr s)) (tokens n r).
Proof.
  intros n pr s r H. unfold repr_str. pose proof (repr_quote_is s) as Q. set (q := repr_quote s) in *. clearbody q.
  change ((q :: flat_map (repr_char pr q) s ++ [q]) ++ r) with (q :: (flat_map (repr_char pr q) s ++ [q]) ++ r).
  rewrite <- app_assoc. change ([q] ++ r) with (q :: r). cbn [tokens].
  replace (q =? 32) with false by (destruct Q as [-> | ->]; reflexivity).
  replace ((q =? 39) || (q =? 34)) with true by (destruct Q as [-> | ->]; reflexivity).
  rewrite token_string by assumption. reflexivity.
Qed.
Lemma option_cons : forall (k : token) o ts, option_map (cons k) o = Some ts -> exists u, o = Some u /\ ts = k :: u.
Proof. intros k [u|] ts H; [|discriminate]. injection H as <-. eauto. Qed.
Lemma two_commas_fail : forall read s r pr, Forall character s ->
  fails read (lit "Span(" ++ repr_str pr s ++ lit ", " ++ lit ", " ++ r).
Proof.
  intros read s r pr Cs v [n [ts [x [T [P _]]]]].
  change (lit "Span(" ++ repr_str pr s ++ lit ", " ++ lit ", " ++ r) with (lit "Span" ++ 40 :: repr_str pr s ++ 44 :: 32 :: 44 :: 32 :: r) in T.
  destruct n as [|n1]; [discriminate|]. rewrite tokens_name in T by reflexivity. apply option_cons in T. destruct T as [u1 [T ->]].
  destruct n1 as [|n2]; [discriminate|]. rewrite tokens_sym in T by (cbn; tauto). apply option_cons in T. destruct T as [u2 [T ->]].
  destruct n2 as [|n3]; [discriminate|]. rewrite tokens_string in T by exact Cs. apply option_cons in T. destruct T as [u3 [T ->]].
  destruct n3 as [|n4]; [discriminate|]. rewrite tokens_sym in T by (cbn; tauto). apply option_cons in T. destruct T as [u4 [T ->]].
  destruct n4 as [|n5]; [discriminate|]. rewrite tokens_space in T.
  destruct n5 as [|n6]; [discriminate|]. rewrite tokens_sym in T by (cbn; tauto). apply option_cons in T. destruct T as [u6 [T ->]].
  revert P. clear. generalize (S (S (S n6))). intros m P. destruct m as [|[|[|m]]]; cbn in P; discriminate.
Qed.
Lemma no_truthy : forall s, (forall k, get_flag k (s_flags s) = false) -> s_reset s = false -> truthy_fields s = [].
Proof.
  intros s A R. unfold truthy_fields. rewrite R, app_nil_r. generalize all_flags. induction l as [|k l IH]; [reflexivity|]. cbn [filter]. now rewrite A.
Qed.
Lemma comma_fails : forall read pr s, Forall character (s_text s) -> comma_twice s -> fails read (span_repr pr s).
Proof.
  intros read pr s Cs [A [R B]].
  assert (X : exists r, span_repr pr s = lit "Span(" ++ repr_str pr (s_text s) ++ lit ", " ++ lit ", " ++ r).
  { unfold span_repr. rewrite (no_truthy s A R). cbn [map join].
    destruct (s_fg s) as [c|].
    - destruct (s_bg s); destruct (str_eqb (s_link s) []); eexists; rewrite <- !app_assoc; cbn; reflexivity.
    - destruct (s_bg s) as [c|].
      + destruct (str_eqb (s_link s) []); eexists; rewrite <- !app_assoc; cbn; reflexivity.
      + destruct (s_link s) as [|y u] eqn:El; [destruct B as [B|[B|B]]; congruence|]. eexists. cbn [str_eqb]. rewrite <- !app_assoc. cbn. reflexivity. }
  destruct X as [r ->]. now apply two_commas_fail.
Qed.
(** nan and infinities are names Python does not know *)
Lemma unreadable_alpha : forall read c, valid_rgb (c_rgb c) = true -> is_finite (c_alpha c) = false -> fails read (color_repr c).
Proof.
  intros read c V F v E. apply evaluates_iff in E. destruct E as [ts [x [L [P E]]]].
  destruct c as [[[r g] b] bg a o k]. cbn [c_rgb c_alpha] in *. destruct (valid_nonneg r g b V) as [R0 [G0 B0]].
  assert (Hrepr : exists sg nm, (sg = [] \/ sg = [45]) /\ (nm = lit "nan" \/ nm = lit "inf") /\ float_repr a = sg ++ nm).
  { unfold float_repr, f_nan, f_finite. rewrite F. destruct (is_nan a); [exists [], (lit "nan"); auto|]. cbn [negb]. destruct (fsign a); [exists [45]|exists []]; exists (lit "inf"); auto. }
  destruct Hrepr as [sg [nm [Hs [Hn Er]]]].
  assert (A1 : feqb a fone = false) by (destruct a as [|[]| |]; try discriminate; reflexivity).
  set (tt := lit "(" ++ join (lit ", ") [dec r; dec g; dec b] ++ lit ")").
  set (tk := [TSym 40; TNum (dec r); TSym 44; TNum (dec g); TSym 44; TNum (dec b); TSym 41]).
  assert (Lx : lexes (color_repr (mkColor (r, g, b) bg a o k))
    (TName (lit "Color") :: TSym 40 :: TName (lit "rgb") :: TSym 61 :: tk ++ TSym 44 :: TName (lit "alpha") :: TSym 61 :: map TSym sg ++ [TName nm; TSym 41])).
  { unfold color_repr. cbn [c_rgb c_alpha]. rewrite A1, Er.
    change (lit "Color(rgb=") with (lit "Color" ++ [40] ++ lit "rgb" ++ [61]). rewrite <- !app_assoc.
    apply lexes_name; [reflexivity|reflexivity|reflexivity|]. apply (lexes_sym 40); [cbn; tauto|].
    apply lexes_name; [reflexivity|reflexivity|reflexivity|]. apply (lexes_sym 61); [cbn; tauto|].
    unfold tk. cbn [app]. apply (lexes_sym 40); [cbn; tauto|]. rewrite !join_cons. change (join (lit ", ") [dec b]) with (dec b). rewrite <- !app_assoc. cbn [app].
    apply lexes_dec; [exact R0|now right|]. apply (lexes_sym 44); [cbn; tauto|]. apply lexes_space.
    apply lexes_dec; [exact G0|now right|]. apply (lexes_sym 44); [cbn; tauto|]. apply lexes_space.
    apply lexes_dec; [exact B0|now left|]. apply (lexes_sym 41); [cbn; tauto|].
    apply (lexes_sym 44); [cbn; tauto|]. apply lexes_space. apply (lexes_name (lit "alpha")); [reflexivity|reflexivity|reflexivity|]. apply (lexes_sym 61); [cbn; tauto|].
    assert (Q : lexes (nm ++ lit ")") [TName nm; TSym 41]).
    { apply lexes_name; [destruct Hn as [-> | ->]; reflexivity|destruct Hn as [-> | ->]; reflexivity|reflexivity|]. apply (lexes_sym 41); [cbn; tauto|]. apply lexes_nil. }
    destruct Hs as [-> | ->]; [exact Q|]. cbn [app map]. apply (lexes_sym 45); [cbn; tauto|exact Q]. }
  rewrite (lexes_unique _ _ _ L Lx) in P. clear L Lx ts.
  assert (Tk : forall u, parses (tk ++ u) (ETuple [ENum (dec r); ENum (dec g); ENum (dec b)]) u) by (intro u; exists 5%nat; reflexivity).
  destruct Hs as [-> | ->].
  - assert (Q : parses (TName (lit "Color") :: TSym 40 :: TName (lit "rgb") :: TSym 61 :: tk ++ TSym 44 :: TName (lit "alpha") :: TSym 61 :: [TName nm] ++ [TSym 41])
      (ECall (lit "Color") [(Some (lit "rgb"), ETuple [ENum (dec r); ENum (dec g); ENum (dec b)]); (Some (lit "alpha"), EName nm)]) []).
    { apply parses_call. apply args_cons; [apply Tk|]. apply args_last. exists 1%nat. reflexivity. }
    destruct (parses_unique _ _ _ _ _ P Q) as [-> _].
    cbn [eval map snd] in E. destruct Hn as [-> | ->].
    + change (str_eqb (lit "nan") (lit "True")) with false in E. change (str_eqb (lit "nan") (lit "False")) with false in E. change (str_eqb (lit "nan") (lit "None")) with false in E.
      cbv iota in E. cbn [option_map all_some] in E. destruct (option_map _ _) in E; discriminate.
    + change (str_eqb (lit "inf") (lit "True")) with false in E. change (str_eqb (lit "inf") (lit "False")) with false in E. change (str_eqb (lit "inf") (lit "None")) with false in E.
      cbv iota in E. cbn [option_map all_some] in E. destruct (option_map _ _) in E; discriminate.
  - destruct P as [[|n] P]; [discriminate|].
    assert (No : forall m, parse_args m (TName (lit "rgb") :: TSym 61 :: tk ++ TSym 44 :: TName (lit "alpha") :: TSym 61 :: TSym 45 :: [TName nm; TSym 41]) = None).
    { intros [|m]; [reflexivity|]. rewrite args_step. destruct (parse m (tk ++ _)) as [[y u]|] eqn:Ep; [|reflexivity].
      destruct (parses_unique _ _ _ _ _ (ex_intro _ m Ep) (Tk _)) as [-> ->].
      change (is_sym 41 (TSym 44)) with false. change (is_sym 44 (TSym 44)) with true. cbv iota.
      destruct m as [|m]; [reflexivity|]. rewrite args_step. destruct m as [|m]; reflexivity. }
    change (match parse_args n (TName (lit "rgb") :: TSym 61 :: tk ++ TSym 44 :: TName (lit "alpha") :: TSym 61 :: TSym 45 :: [TName nm; TSym 41]) with
      | Some (l, r2) => Some (ECall (lit "Color") l, r2) | None => None end = Some (x, [])) in P.
    rewrite No in P. discriminate.
Qed.

(** * Spans *)
Lemma again_opt : forall read (o : option color), reader read -> (forall c, o = Some c -> printable c) ->
  exists o', same_opt o o' /\ plain_again_opt o o' /\ forall c c', o = Some c -> o' = Some c' -> item read (color_repr c) (VColor c').
Proof.
  intros read [c|] R P.
  - destruct (item_color read c R (P c eq_refl)) as [c' [I A]]. exists (Some c'). split; [split; discriminate|]. split; [exact A|].
    intros a b E1 E2. injection E1 as <-. injection E2 as <-. now apply closed_is_item.
  - exists None. split; [split; reflexivity|]. split; [exact I|]. discriminate.
Qed.
Lemma span_reads : forall read pr s, reader read -> Forall character (s_text s) -> Forall character (s_link s) -> each_color printable s ->
  ~ comma_twice s -> exists s', evaluates read (span_repr pr s) (VSpan s') /\
    s_text s' = s_text s /\ s_flags s' = s_flags s /\ s_link s' = s_link s /\ s_reset s' = true /\
    plain_again_opt (s_fg s) (s_fg s') /\ plain_again_opt (s_bg s) (s_bg s').
Proof.
  intros read pr s R Ct Cl [Pf Pb] NC.
  destruct (again_opt read (s_fg s) R Pf) as [fg [Sf [Af If]]]. destruct (again_opt read (s_bg s) R Pb) as [bg [Sb [Ab Ib]]].
  exists (mkSpan (s_text s) fg bg (s_link s) (s_flags s) true). split.
  - apply closed_evaluates. now apply span_closed.
  - cbn [s_text s_flags s_link s_reset s_fg s_bg]. tauto.
Qed.
Lemma same_ansi : forall e c c', made_plainly c -> plain_again c c' -> color_ansi e c' = color_ansi e c.
Proof.
  intros e c c' [A [B C]] [E1 [_ [_ [E2 [E3 E4]]]]]. destruct c as [rgb bg a o k]; destruct c' as [rgb' bg' a' o' k'].
  cbn [c_rgb c_bg c_origin c_ctor] in *. subst. unfold color_ansi, lead. cbn [c_rgb c_bg c_origin c_ctor]. reflexivity.
Qed.
Lemma span_equal : forall e read pr s, reader read -> Forall character (s_text s) -> Forall character (s_link s) -> each_color printable s ->
  each_color made_plainly s -> s_reset s = true ->
  exists s', evaluates read (span_repr pr s) (VSpan s') /\ span_eqb e s' s = true.
Proof.
  intros e read pr s R Ct Cl P [Mf Mb] Rs.
  destruct (span_reads read pr s R Ct Cl P) as [s' [E [E1 [E2 [E3 [E4 [E5 E6]]]]]]].
  { intros [_ [H _]]. congruence. }
  exists s'. split; [exact E|].
  assert (O : forall o o', (forall c, o = Some c -> printable c) -> (forall c, o = Some c -> made_plainly c) -> plain_again_opt o o' ->
    opt_color_eqb o' o = true /\ map (color_ansi e) (opt_list o') = map (color_ansi e) (opt_list o)).
  { intros [c|] [c'|] Hp Hm A; try contradiction; [|split; reflexivity]. split.
    - cbn [opt_color_eqb]. apply plain_equal; [apply (Hp c eq_refl)|exact A].
    - cbn [opt_list map]. now rewrite (same_ansi e c c' (Hm c eq_refl) A). }
  destruct P as [Pf Pb]. destruct (O _ _ Pf Mf E5) as [O1 O2]. destruct (O _ _ Pb Mb E6) as [O3 O4].
  assert (T : total_body e s' = total_body e s) by (unfold total_body; now rewrite O2, O4, E2).
  assert (Sq : span_sequences e s' = span_sequences e s) by (unfold span_sequences; now rewrite T).
  assert (St : span_str e s' = span_str e s) by (unfold span_str; now rewrite Sq, E1, E3, E4, Rs).
  assert (Cl' : span_colorless s' = span_colorless s) by (unfold span_colorless; now rewrite E2).
  unfold span_eqb. rewrite O1, O3, St, Sq, Cl', E1, E2, E3, E4, Rs. rewrite !(proj2 (str_eqb_eq _ _) eq_refl).
  unfold flags_eqb. replace (forallb _ all_flags) with true; [reflexivity|]. symmetry. apply forallb_forall. intros k _. apply eqb_reflx.
Qed.
Lemma reset_lost : forall e read pr s, reader read -> Forall character (s_text s) -> Forall character (s_link s) -> each_color printable s ->
  s_reset s = false -> forall s', evaluates read (span_repr pr s) (VSpan s') -> span_eqb e s' s = false.
Proof.
  intros e read pr s R Ct Cl P Rs s' E.
  assert (NC : ~ comma_twice s) by (intro C; now apply (comma_fails read pr s Ct C (VSpan s'))).
  destruct (span_reads read pr s R Ct Cl P NC) as [s2 [E2 [_ [_ [_ [R2 _]]]]]].
  pose proof (evaluates_unique _ _ _ _ E E2) as Q. injection Q as ->. unfold span_eqb. rewrite R2, Rs. cbn [Bool.eqb]. rewrite !andb_false_r. reflexivity.
Qed.
Lemma valid_triple : forall t, valid_rgb t = true -> triple_ok t.
Proof.
  intros [[r g] b] H. unfold valid_rgb, in_channel in H. apply andb_prop in H. destruct H as [H H3]. apply andb_prop in H. destruct H as [H1 H2].
  apply andb_prop in H1, H2, H3. rewrite !Z.leb_le, !Z.ltb_lt in *. unfold triple_ok, channel_ok. lia.
Qed.
Lemma lead_differs : forall e rgb a a' o, valid_rgb rgb = true ->
  hd 0 (color_ansi e (mkColor rgb false a' TRUE_COLOR None)) <> hd 0 (color_ansi e (mkColor rgb true a o None)) /\
  color_ansi e (mkColor rgb false a' TRUE_COLOR None) <> [] /\ color_ansi e (mkColor rgb true a o None) <> [].
Proof.
  intros e rgb a a' o V. unfold color_ansi. cbn [c_ctor c_rgb c_bg c_origin].
  assert (U : forall sp, match cs_ge (env_cs e) sp with Ok true => false | _ => false end = false) by (intro sp; destruct (cs_ge (env_cs e) sp) as [[|]|]; reflexivity).
  rewrite !U. clear U. change (dec (lead (mkColor rgb false a' TRUE_COLOR None))) with (lit "38"). change (dec (lead (mkColor rgb true a o None))) with (lit "48").
  assert (H : forall x y : str, hd 0 (lit "38" ++ x) <> hd 0 (lit "48" ++ y) /\ lit "38" ++ x <> [] /\ lit "48" ++ y <> []) by (intros x y; cbn; repeat split; discriminate).
  destruct (env_cs e).
  - apply H.
  - assert (B : 0 <= nearest_standard rgb < 16).
    { apply (nearest_spec rgb). now apply valid_triple. }
    set (i := nearest_standard rgb) in *. clearbody i.
    assert (K : In i [0; 1; 2; 3; 4; 5; 6; 7; 8; 9; 10; 11; 12; 13; 14; 15]) by (cbn; lia).
    cbn [In] in K. repeat (destruct K as [<-|K]; [cbn; repeat split; discriminate|]). contradiction.
  - apply H.
  - destruct rgb as [[r g] b]. apply H.
Qed.
(** a background color, written as it should be (flagged), comes back as a foreground color *)
Lemma background_lost : forall e read pr t c, reader read -> Forall character t -> printable c -> c_bg c = true -> c_ctor c = None ->
  let s := mkSpan t None (Some c) [] no_flags true in
  exists s', evaluates read (span_repr pr s) (VSpan s') /\ span_eqb e s' s = false /\ span_str e s' <> span_str e s.
Proof.
  intros e read pr t c R Ct P Bg K s. destruct (span_reads read pr s R Ct (Forall_nil _)) as [s' [E [E1 [E2 [E3 [E4 [E5 E6]]]]]]].
  { split; [discriminate|]. intros c0 H. injection H as <-. exact P. }
  { intros [_ [H _]]. discriminate. }
  exists s'. split; [exact E|].
  assert (N : span_str e s' <> span_str e s).
  { destruct s' as [t' fg' bg' l' f' r']. cbn [s_text s_flags s_link s_reset s_fg s_bg s] in *. subst t' f' l' r'.
    destruct fg' as [x|]; [contradiction|]. destruct bg' as [c'|]; [|contradiction].
    destruct c as [rgb bg a o k]; destruct c' as [rgb' bg' a' o' k']. cbn [plain_again_opt] in E6. destruct E6 as [Q1 [_ [_ [Q4 [Q5 Q6]]]]].
    cbn [c_rgb c_bg c_origin c_ctor] in *. subst.
    assert (D : hd 0 (color_ansi e (mkColor rgb false a' TRUE_COLOR None)) <> hd 0 (color_ansi e (mkColor rgb true a o None)) /\
      color_ansi e (mkColor rgb false a' TRUE_COLOR None) <> [] /\ color_ansi e (mkColor rgb true a o None) <> []).
    { destruct P as [Vr _]. cbn [c_rgb] in Vr. now apply lead_differs. }
    destruct D as [D1 [D2 D3]]. intro X. unfold s in X.
    assert (Tb : forall c1, total_body e (mkSpan t None (Some c1) [] no_flags true) = color_ansi e c1) by (intro c1; reflexivity).
    unfold span_str, span_sequences in X. rewrite !Tb in X. cbn [s_text s_link s_reset] in X. change (str_eqb [] []) with true in X. cbv iota in X.
    destruct (color_ansi e (mkColor rgb false a' TRUE_COLOR None)) as [|h1 u1]; [congruence|].
    destruct (color_ansi e (mkColor rgb true a o None)) as [|h2 u2]; [congruence|]. cbn in X. cbn [hd] in D1. congruence. }
  split; [|exact N]. unfold span_eqb. replace (str_eqb (span_str e s') (span_str e s)) with false; [now rewrite !andb_false_r|].
  symmetry. apply not_true_iff_false. intro H. apply str_eqb_eq in H. contradiction.
Qed.

(** * There is a reader *)
Definition read_decimal (t : str) : f64 :=
  match numeral_of t with
  | Some (m, e) => if m <? 0 then Bopp (float_of_decimal (- m) (- e)) else float_of_decimal m (- e)
  | None => fzero
  end.
Lemma read_decimal_reader : reader read_decimal.
Proof.
  intros t v [m [e [E V]]] B. unfold read_decimal. rewrite E. pose proof (p10_pos e) as Pp.
  destruct (Z.ltb_spec m 0) as [L|L].
  - assert (V2 : (- v = IZR (- m) * powerRZ 10 (- - e))%R) by (rewrite V, opp_IZR, Z.opp_involutive; ring).
    assert (Bd : (IZR (- m) * powerRZ 10 (- - e) <= big)%R).
    { rewrite <- V2. apply Rle_trans with (Rabs v); [rewrite <- Rabs_Ropp; apply Rle_abs|exact B]. }
    destruct (decimal_float (- m) (- e) ltac:(lia) Bd) as [F X]. split; [rewrite is_finite_Bopp; exact F|].
    rewrite B2R_Bopp, X, <- V2, rnd_opp, Ropp_involutive. reflexivity.
  - assert (V2 : (v = IZR m * powerRZ 10 (- - e))%R) by (rewrite Z.opp_involutive; exact V).
    assert (Bd : (IZR m * powerRZ 10 (- - e) <= big)%R) by (rewrite <- V2; apply Rle_trans with (Rabs v); [apply Rle_abs|exact B]).
    destruct (decimal_float m (- e) L Bd) as [F X]. split; [exact F|]. rewrite X, <- V2. reflexivity.
Qed.
