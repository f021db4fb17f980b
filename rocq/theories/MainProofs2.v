(** Proofs about the report of [slate debug]: the whole report. *)
From Coq Require Import ZArith List Bool Lia String.
From Verif Require Import PyBase PyLemmas F64 SpaceModel ColorTab ColorModel ColorSpec ColorProofs ColorProofs2 AnsiRe SpanModel CoreModel SpanSpec SpanProofs SpanProofs2
  KeyProofs MainModel MainSpec MainProofs.
Import ListNotations.
Open Scope Z_scope.
Open Scope list_scope.

Lemma left_30 : forall e v, max_left (debug_rows e v) = 30.
Proof. intros. unfold debug_rows, max_left. cbn [map fst]. vm_compute. reflexivity. Qed.
Lemma fold_max : forall l a, 0 <= a -> fold_left Z.max l a = Z.max a (fold_right Z.max 0 l).
Proof. induction l as [|x l IH]; intros a H; cbn [fold_left fold_right]; [lia|]. rewrite IH by lia. lia. Qed.
Lemma fold_max_pos : forall l, 0 <= fold_right Z.max 0 l.
Proof. induction l; cbn [fold_right]; lia. Qed.
Lemma widest_fold : forall l, widest l = fold_right Z.max 0 (map (fun f => zlen (snd f)) l).
Proof. induction l as [|f l IH]; cbn [widest map fold_right]; [reflexivity|now rewrite IH]. Qed.
Lemma right_widest : forall e v, max_right (debug_rows e v) = widest (env_facts v ++ state_facts e v) + 3.
Proof.
  intros. unfold max_right, max_of. rewrite widest_fold, fold_max, Z.max_r by (lia || apply fold_max_pos). f_equal.
  unfold debug_rows, env_facts, state_facts. cbn [map snd app]. change (zlen (@nil Z)) with 0.
  assert (Z0 : forall l, fold_right Z.max 0 (0 :: l) = fold_right Z.max 0 l) by (intro l; cbn [fold_right]; apply Z.max_r, fold_max_pos).
  assert (Zc : forall x l l', fold_right Z.max 0 l = fold_right Z.max 0 l' -> fold_right Z.max 0 (x :: l) = fold_right Z.max 0 (x :: l')) by (intros x l l' H; cbn [fold_right]; now rewrite H).
  rewrite Z0. do 4 apply Zc. rewrite Z0. reflexivity.
Qed.
Lemma widest_ge : forall l f, In f l -> zlen (snd f) <= widest l.
Proof. induction l as [|g l IH]; intros f H; [destruct H|]. destruct H as [->|H]; cbn [widest]; [apply Z.le_max_l|]. etransitivity; [exact (IH f H)|apply Z.le_max_r]. Qed.
Lemma zlen_repeat : forall (c : Z) n, zlen (repeat c n) = Z.of_nat n.
Proof. intros. unfold zlen. now rewrite repeat_length. Qed.

Definition the_line (ml mr : Z) (f : str * str) : str := ljust (fst f) ml ++ rjust (snd f) mr.
Lemma the_line_fact : forall ml mr f, zlen (fst f) + 3 <= ml -> zlen (snd f) + 3 <= mr -> fact_line (ml + mr) f (the_line ml mr f).
Proof.
  intros ml mr [a b] H1 H2. cbn [fst snd] in *. unfold fact_line, the_line, ljust, rjust, spaces. cbn [fst snd]. split.
  - rewrite !zlen_app, !zlen_repeat, !Z2Nat.id by lia. lia.
  - exists (Z.to_nat (ml - zlen a) + Z.to_nat (mr - zlen b))%nat. split; [lia|]. rewrite repeat_app, <- !app_assoc. reflexivity.
Qed.
Lemma Forall2_map_r : forall A B (P : A -> B -> Prop) f l, Forall (fun x => P x (f x)) l -> Forall2 P l (map f l).
Proof. intros A B P f l H. induction H; cbn; constructor; auto. Qed.

Section Report.
Variables (e : env) (v : view).
Hypothesis Hfg : color_ok (v_fg v).
Hypothesis Hbg : color_ok (v_bg v).
Hypothesis H1 : plain_value (v_term v).
Hypothesis H2 : plain_value (v_colorterm v).
Hypothesis H3 : plain_value (v_no_color v).
Hypothesis H4 : plain_value (v_colorsys v).
Definition plain_text (t : str) : Prop := ~ In ESC t /\ ~ In NL t.
Lemma check_plain : forall t, forallb (fun c => negb (c =? ESC) && negb (c =? NL)) t = true -> plain_text t.
Proof.
  intros t H. split; intro I; apply (proj1 (forallb_forall _ _) H) in I; cbn in I; discriminate.
Qed.
Lemma plain_app : forall a b, plain_text a -> plain_text b -> plain_text (a ++ b).
Proof. intros a b [A1 A2] [B1 B2]. split; rewrite in_app_iff; tauto. Qed.
Lemma plain_repeat : forall n, plain_text (repeat 32 n).
Proof. intro n. split; intro H; apply repeat_spec in H; discriminate. Qed.
Lemma plain_dash : forall o, plain_value o -> plain_text (or_dash o).
Proof. intros [[|c t]|] H; [now apply check_plain|exact H|now apply check_plain]. Qed.
Lemma plain_dec : forall n, plain_text (dec n).
Proof. intro n. split; intro H; apply dec_chars in H; unfold ESC, NL in H; lia. Qed.
Lemma plain_hex : forall c, color_ok c -> plain_text (color_hex c).
Proof.
  intros c Hc. destruct (hex_roundtrip c Hc) as [d1 [d2 [d3 [d4 [d5 [d6 [-> [U _]]]]]]]].
  assert (P : forall d, upper_hex d -> d <> ESC /\ d <> NL) by (unfold upper_hex, ESC, NL; intros; lia).
  split; intros [H|H]; try discriminate; apply (proj1 (Forall_forall _ _) U) in H; apply P in H; tauto.
Qed.
Lemma facts_plain : Forall (fun f => plain_text (fst f) /\ plain_text (snd f) /\ zlen (fst f) <= 27) (env_facts v ++ state_facts e v).
Proof.
  unfold env_facts, state_facts. cbn [app].
  assert (L : forall t, (zlen t <=? 27) && forallb (fun c => negb (c =? ESC) && negb (c =? NL)) t = true -> plain_text t /\ zlen t <= 27).
  { intros t H. apply andb_prop in H. destruct H as [A B]. apply Z.leb_le in A. split; [now apply check_plain|exact A]. }
  assert (Q : forall f, plain_text (snd f) -> plain_text (fst f) /\ zlen (fst f) <= 27 -> plain_text (fst f) /\ plain_text (snd f) /\ zlen (fst f) <= 27) by tauto.
  repeat (apply Forall_cons; [apply Q; cbn [fst snd]; [|apply L; reflexivity]|]); [| | | | | | | | |apply Forall_nil].
  - now apply plain_dash.
  - now apply plain_dash.
  - now apply plain_dash.
  - now apply plain_dash.
  - apply plain_app; [apply plain_dec|]. apply plain_app; [now apply check_plain|apply plain_dec].
  - destruct (env_cs e); now apply check_plain.
  - destruct (v_sync v); now apply check_plain.
  - now apply plain_hex.
  - now apply plain_hex.
Qed.
Let W := report_width e v.
Let mr := widest (env_facts v ++ state_facts e v) + 3.
Lemma W_eq : W = 30 + mr.
Proof. reflexivity. Qed.
Lemma mr_pos : 4 <= mr.
Proof.
  unfold mr. pose proof (widest_ge (env_facts v ++ state_facts e v) (lit "$TERM", shown_value (v_term v)) ltac:(left; reflexivity)) as H. cbn [snd] in H.
  assert (0 < zlen (shown_value (v_term v))); [|lia]. destruct (v_term v) as [[|c t]|]; reflexivity.
Qed.
Lemma fact_ok : forall f, In f (env_facts v ++ state_facts e v) -> fact_line W f (the_line 30 mr f) /\ plain_text (the_line 30 mr f).
Proof.
  intros f H. pose proof (proj1 (Forall_forall _ _) facts_plain f H) as [P1 [P2 P3]]. pose proof (widest_ge _ _ H) as P4. destruct f as [a b]. cbn [fst snd] in P1, P2, P3, P4. split.
  - rewrite W_eq. apply the_line_fact; cbn [fst snd]; [|unfold mr]; lia.
  - unfold the_line, ljust, rjust, spaces. repeat apply plain_app; auto using plain_repeat.
Qed.
Lemma uncolored_quiet : forall t f, ~ In ESC t -> quiet_span e (mkSpan t None None [] f true).
Proof.
  intros t f H. unfold quiet_span. cbn [s_text s_link s_fg s_bg]. split; [exact H|]. split; [intros []|]. split; [intros []|]. intros c [X|X]; discriminate X.
Qed.
Lemma plain_quiet : forall t, plain_text t -> quiet_span e (plain_span t).
Proof. intros t [H _]. now apply uncolored_quiet. Qed.
Lemma styled_quiet : forall t k, plain_text t -> quiet_span e (styled_span t k).
Proof. intros t k [H _]. now apply uncolored_quiet. Qed.
Lemma nl_quiet : quiet_span e (plain_span [NL]).
Proof. apply uncolored_quiet. intros [H|[]]; discriminate H. Qed.
Lemma fact_quiet : forall f, In f (env_facts v ++ state_facts e v) -> Forall (quiet_span e) (fact_spans 30 mr f).
Proof.
  intros f H. pose proof (proj1 (Forall_forall _ _) facts_plain f H) as [P1 [P2 P3]].
  unfold fact_spans, ljust, rjust, spaces. apply Forall_cons; [|apply Forall_cons; [|apply Forall_nil]].
  - apply styled_quiet. apply plain_app; auto using plain_repeat.
  - apply plain_quiet. apply plain_app; auto using plain_repeat.
Qed.
Lemma swatch_quiet : forall label c, plain_text label -> color_ok c -> Forall (quiet_span e) (swatch_spans e 30 mr label c).
Proof.
  intros label c Hl Hc. unfold swatch_spans, ljust, spaces. apply Forall_cons; [|apply Forall_cons; [|apply Forall_cons; [|apply Forall_nil]]].
  - apply styled_quiet. apply plain_app; auto using plain_repeat.
  - apply plain_quiet, plain_repeat.
  - unfold quiet_span. cbn [s_text s_link s_fg s_bg]. split; [apply (plain_hex c Hc)|]. split; [auto|]. split; [auto|].
    intros k [H|H]; injection H as <-; apply color_calm; cbn [c_ctor]; [|discriminate].
    intros t H N. injection H as <-. exfalso. revert N. unfold color_hex. destruct (c_rgb c) as [[? ?] ?]. discriminate.
Qed.
Lemma quiet_flat : forall l, (forall f, In f l -> In f (env_facts v ++ state_facts e v)) ->
  Forall (quiet_span e) (flat_map (fun f => fact_spans 30 mr f ++ [plain_span [NL]]) l).
Proof.
  intros l H. induction l as [|f l IH]; [constructor|]. cbn [flat_map]. apply Forall_app. split; [|apply IH; intros; apply H; now right].
  apply Forall_app. split; [apply fact_quiet, H; now left|]. constructor; [apply nl_quiet|constructor].
Qed.
Lemma table_quiet : Forall (quiet_span e) (table_spans e v 30 mr).
Proof.
  unfold table_spans. cbv zeta. apply Forall_cons; [apply styled_quiet; now apply check_plain|]. apply Forall_cons; [apply nl_quiet|].
  apply Forall_app. split; [apply quiet_flat; intros; apply in_or_app; now left|]. apply Forall_cons; [apply nl_quiet|].
  apply Forall_cons; [apply styled_quiet; now apply check_plain|]. apply Forall_cons; [apply nl_quiet|].
  apply Forall_app. split; [apply quiet_flat; intros f H; apply in_or_app; right; rewrite <- (firstn_skipn 3); apply in_or_app; now left|].
  apply Forall_app. split; [apply swatch_quiet; auto; now apply check_plain|]. apply Forall_cons; [apply nl_quiet|].
  apply swatch_quiet; auto; now apply check_plain.
Qed.

Definition env_lines := map (the_line 30 mr) (env_facts v).
Definition state_lines := map (the_line 30 mr) (state_facts e v).
Definition table_lines : list str := [lit "Environment:"] ++ env_lines ++ [[]; lit "Terminal state:"] ++ state_lines.
Lemma fact_text : forall f, concat (map s_text (fact_spans 30 mr f)) = the_line 30 mr f.
Proof. intro f. unfold fact_spans. cbn [map concat s_text styled_span plain_span]. now rewrite app_nil_r. Qed.
Lemma swatch_text : forall label c, concat (map s_text (swatch_spans e 30 mr label c)) = the_line 30 mr (label, color_hex c).
Proof. intros. unfold swatch_spans. cbn [map concat s_text styled_span plain_span]. unfold the_line, rjust. cbn [fst snd]. now rewrite app_nil_r. Qed.
Lemma flat_text : forall l, concat (map s_text (flat_map (fun f => fact_spans 30 mr f ++ [plain_span [NL]]) l)) = flat_map (fun f => the_line 30 mr f ++ [NL]) l.
Proof.
  induction l as [|f l IH]; [reflexivity|]. cbn [flat_map]. rewrite !map_app, !concat_app, fact_text, IH. reflexivity.
Qed.
Lemma table_text : concat (map s_text (table_spans e v 30 mr)) = join [NL] table_lines.
Proof.
  unfold table_spans. cbv zeta. cbn [map concat]. rewrite map_app, concat_app, flat_text. cbn [map concat].
  rewrite map_app, concat_app, flat_text, map_app, concat_app, swatch_text. cbn [map concat]. rewrite swatch_text.
  unfold table_lines, env_lines, state_lines, env_facts, state_facts. cbn [firstn flat_map map app join s_text styled_span plain_span].
  repeat (cbn [app]; rewrite <- ?app_assoc). reflexivity.
Qed.
(** no line break inside a line *)
Lemma table_lines_nl : Forall (fun l => ~ In NL l) table_lines.
Proof.
  assert (L : forall l, (forall f, In f l -> In f (env_facts v ++ state_facts e v)) -> Forall (fun l => ~ In NL l) (map (the_line 30 mr) l)).
  { intros l H. apply Forall_forall. intros x I. apply in_map_iff in I. destruct I as [f [<- I]]. apply (fact_ok f (H f I)). }
  unfold table_lines. apply Forall_app. split; [constructor; [apply (check_plain (lit "Environment:")); reflexivity|constructor]|].
  apply Forall_app. split; [apply L; intros; apply in_or_app; now left|]. apply Forall_app.
  split; [constructor; [intros []|constructor; [apply (check_plain (lit "Terminal state:")); reflexivity|constructor]]|].
  apply L; intros; apply in_or_app; now right.
Qed.

Lemma names_eq : map s_text debug_styles = map fst style_names.
Proof. reflexivity. Qed.
Lemma styles_ok : Forall (word_ok W) debug_styles.
Proof.
  pose proof mr_pos as M. unfold debug_styles, word_ok. rewrite W_eq.
  assert (L : forall t : str, (0 <? zlen t) && (zlen t <=? 30) = true -> 0 < zlen t <= 30 + mr).
  { intros t H. apply andb_prop in H. destruct H as [A B]. apply Z.ltb_lt in A. apply Z.leb_le in B. lia. }
  repeat (apply Forall_cons; [apply L; reflexivity|]). apply Forall_nil.
Qed.
Lemma styles_quiet : Forall (quiet_span e) debug_styles.
Proof.
  unfold debug_styles. repeat (apply Forall_cons; [apply uncolored_quiet; apply check_plain; reflexivity|]). apply Forall_nil.
Qed.
Lemma join_app_nl : forall a b, a <> [] -> b <> [] -> join [NL] (a ++ b) = join [NL] a ++ NL :: join [NL] b.
Proof.
  intros a b. induction a as [|x [|y a] IH]; intros Ha Hb; [congruence| |].
  - destruct b; [congruence|reflexivity].
  - change ((x :: y :: a) ++ b) with (x :: (y :: a) ++ b). change (join [NL] (x :: (y :: a) ++ b)) with (x ++ [NL] ++ join [NL] ((y :: a) ++ b)).
    rewrite IH by (congruence || discriminate). rewrite join_two. now rewrite <- !app_assoc.
Qed.
Lemma in_join : forall sep l c, In c (join sep l) -> In c sep \/ exists w, In w l /\ In c w.
Proof.
  intros sep l c. induction l as [|x [|y l] IH]; intro H; [destruct H|right; exists x; split; [now left|exact H]|].
  rewrite join_two in H. apply in_app_or in H. destruct H as [H|H]; [right; exists x; split; [now left|exact H]|].
  apply in_app_or in H. destruct H as [H|H]; [now left|]. destruct (IH H) as [S|[w [I J]]]; [now left|right; exists w; split; [now right|exact J]].
Qed.

Lemma debug_spec : exists l lines, run_debug e v = Ok (flat_map (span_str e) l) /\ Forall (quiet_span e) l /\
  split_on NL (concat (map s_text l)) = lines ++ [[]] /\ report e v lines /\
  (forall n f, In (n, f) style_names -> In (mkSpan n None None [] f true) l) /\ swatch (v_fg v) l /\ swatch (v_bg v) l.
Proof.
  destruct (color_line_spec e W (Z.to_nat W) 0) as [cl [C1 [C2 C3]]].
  destruct (styles_all e W (plain_span (lit "std")) (tl debug_styles)) as [chunks [sl [S1 [S2 [S3 [S4 [S5 [S6 [S7 S8]]]]]]]]].
  { exact (Forall_inv styles_ok). } { exact (Forall_inv_tail styles_ok). }
  change (plain_span (lit "std") :: tl debug_styles) with debug_styles in *.
  set (nl := plain_span [NL]).
  exists (cl ++ nl :: nl :: table_spans e v 30 mr ++ nl :: nl :: sl ++ [nl]).
  exists (repeat 32 (Z.to_nat W) :: [] :: table_lines ++ [] :: map (join [32]) chunks).
  assert (CN : chunks <> []) by (intro N; rewrite N in S4; discriminate).
  split.
  { unfold run_debug. rewrite left_30, right_widest. fold mr. rewrite table_spec by assumption. cbn [bindr]. rewrite slice_init.
    change (30 + mr) with W. rewrite C1. cbn [bindr]. rewrite S1. f_equal. cbn [join]. rewrite !flat_map_app. cbn [flat_map]. rewrite !flat_map_app. cbn [flat_map].
    rewrite !flat_map_app. cbn [flat_map]. unfold nl. rewrite !plain_str. repeat (cbn [app]; rewrite <- ?app_assoc). reflexivity. }
  split.
  { apply Forall_app. split; [eapply Forall_impl; [|exact C2]; intros s Hs; now apply hue_quiet|].
    apply Forall_cons; [apply nl_quiet|]. apply Forall_cons; [apply nl_quiet|]. apply Forall_app. split; [apply table_quiet|].
    apply Forall_cons; [apply nl_quiet|]. apply Forall_cons; [apply nl_quiet|]. apply Forall_app. split; [|apply Forall_cons; [apply nl_quiet|apply Forall_nil]].
    eapply Forall_impl; [|exact S2]. intros s [H|[->| ->]]; [exact (proj1 (Forall_forall _ _) styles_quiet s H)|apply nl_quiet|].
    apply uncolored_quiet. intros [H|[]]; discriminate H. }
  split.
  { rewrite map_app, concat_app. cbn [map concat]. rewrite map_app, concat_app. cbn [map concat]. rewrite map_app, concat_app. cbn [map concat].
    unfold nl. cbn [s_text plain_span]. rewrite C3, table_text, <- S5.
    match goal with |- split_on NL ?t = _ => replace t with (join [NL] ((repeat 32 (Z.to_nat W) :: [] :: table_lines ++ [] :: map (join [32]) chunks) ++ [[]])) end.
    - apply split_on_join; [destruct (repeat 32 (Z.to_nat W)); discriminate|].
      apply Forall_app. split; [|constructor; [intros []|constructor]]. apply Forall_cons; [apply plain_repeat|]. apply Forall_cons; [intros []|].
      apply Forall_app. split; [apply table_lines_nl|]. apply Forall_cons; [intros []|].
      apply Forall_forall. intros x I N. apply in_map_iff in I. destruct I as [k [<- I]]. apply in_join in N. destruct N as [N|[w [N1 N2]]]; [destruct N as [N|[]]; discriminate N|].
      assert (In w (map s_text debug_styles)) as Iw by (rewrite <- S4; apply in_concat; exists k; auto).
      apply in_map_iff in Iw. destruct Iw as [s [<- Is]].
      assert (P : Forall (fun s => ~ In NL (s_text s)) debug_styles) by (unfold debug_styles; repeat (apply Forall_cons; [apply check_plain; reflexivity|]); apply Forall_nil).
      exact (proj1 (Forall_forall _ _) P s Is N2).
    - assert (T : table_lines <> []) by discriminate.
      assert (M : map (join [32]) chunks <> []) by (destruct chunks; [congruence|discriminate]).
      rewrite join_app_nl by discriminate. change (repeat 32 (Z.to_nat W) :: [] :: table_lines ++ [] :: map (join [32]) chunks) with ([repeat 32 (Z.to_nat W); []] ++ table_lines ++ [[]] ++ map (join [32]) chunks).
      rewrite join_app_nl by (discriminate || (destruct table_lines; [congruence|discriminate])).
      rewrite (join_app_nl table_lines) by (assumption || discriminate). rewrite (join_app_nl [[]]) by (assumption || discriminate).
      cbn [join]. repeat (cbn [app]; rewrite <- ?app_assoc). reflexivity. }
  split.
  { exists (repeat 32 (Z.to_nat W)), env_lines, state_lines, (map (join [32]) chunks).
    split; [split; [rewrite zlen_repeat, Z2Nat.id; [reflexivity|pose proof mr_pos; rewrite W_eq; lia]|]; apply Forall_forall; intros x H; apply repeat_spec in H; now symmetry|].
    split; [apply Forall2_map_r, Forall_forall; intros f H; apply fact_ok; apply in_or_app; now left|].
    split; [apply Forall2_map_r, Forall_forall; intros f H; apply fact_ok; apply in_or_app; now right|].
    split.
    { exists chunks. rewrite S4, names_eq. split; [reflexivity|]. split; [reflexivity|]. split; [exact S6|]. split; [|exact S8].
      apply Forall_forall. intros x H. apply in_map_iff in H. destruct H as [k [<- H]]. exact (proj1 (Forall_forall _ _) S7 k H). }
    unfold table_lines. repeat (cbn [app]; rewrite <- ?app_assoc). reflexivity. }
  split.
  { intros n f H. apply in_or_app. right. right. right. apply in_or_app. right. right. right. apply in_or_app. left. apply S3.
    unfold style_names in H. unfold debug_styles. repeat (destruct H as [H|H]; [injection H as <- <-; cbn [In]; tauto|]). destruct H. }
  assert (Sw : forall label c, incl (swatch_spans e 30 mr label c) (table_spans e v 30 mr) -> swatch c (cl ++ nl :: nl :: table_spans e v 30 mr ++ nl :: nl :: sl ++ [nl])).
  { intros label c I. eexists. eexists. split; [apply in_or_app; right; right; right; apply in_or_app; left; apply I; right; right; left; reflexivity|].
    split; [reflexivity|]. split; [reflexivity|]. split; [reflexivity|]. cbn [c_rgb]. unfold contrast_of. destruct (fltb _ _); [left|right]; reflexivity. }
  split.
  - apply (Sw (lit "foreground color")). intros x H. unfold table_spans. cbv zeta. right. right. apply in_or_app. right. right. right. right. apply in_or_app. right. apply in_or_app. now left.
  - apply (Sw (lit "background color")). intros x H. unfold table_spans. cbv zeta. right. right. apply in_or_app. right. right. right. right. apply in_or_app. right. apply in_or_app. right. now right.
Qed.
End Report.

Lemma debug_shown : forall e v, color_ok (v_fg v) -> color_ok (v_bg v) ->
  plain_value (v_term v) -> plain_value (v_colorterm v) -> plain_value (v_no_color v) -> plain_value (v_colorsys v) ->
  exists out lines, run_debug e v = Ok out /\ split_on NL (strip_ansi out) = lines ++ [[]] /\ report e v lines.
Proof.
  intros e v Hf Hb H1 H2 H3 H4. destruct (debug_spec e v Hf Hb H1 H2 H3 H4) as [l [lines [R [Q [S [P _]]]]]].
  exists (flat_map (span_str e) l), lines. split; [exact R|]. split; [|exact P]. rewrite <- S. f_equal.
  clear - Q. induction Q as [|s l Hs Hl IH]; [reflexivity|]. cbn [flat_map map concat]. rewrite (span_strip e s _ Hs), IH. reflexivity.
Qed.
