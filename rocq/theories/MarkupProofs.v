(** Proofs about experiments/markup.py, part 1: the texts, the words of the tags. *)
From Coq Require Import ZArith List Bool String Lia.
From Verif Require KeyProofs.
From Verif Require Import PyBase PyLemmas F64 SpaceModel ColorTab ColorModel ColorSpec SpanModel SpanSpec ShowModel Vt MarkupModel MarkupSpec.
Import ListNotations.
Open Scope Z_scope.
Open Scope list_scope.

(** * The pattern *)
Lemma bracket_not : forall c, c <> 91 -> c <> 93 -> bracket c = false.
Proof. intros c A B. unfold bracket. apply orb_false_iff. split; apply Z.eqb_neq; assumption. Qed.
Lemma free_cons : forall c p, free (c :: p) -> bracket c = false /\ free p.
Proof.
  intros c p [A B]. split.
  - apply bracket_not; intro E; subst; [apply A|apply B]; left; reflexivity.
  - split; intro I; [apply A|apply B]; right; exact I.
Qed.
Definition stops (rest : str) : Prop := match rest with [] => True | c :: _ => bracket c = true end.
Lemma run_free : forall p rest, free p -> stops rest -> run (p ++ rest) = (p, rest).
Proof.
  induction p as [|c p IH]; intros rest F S.
  - cbn [app]. destruct rest as [|c r]; [reflexivity|]. cbn [stops] in S. cbn [run]. rewrite S. reflexivity.
  - apply free_cons in F. destruct F as [B F]. cbn [app run]. rewrite B, IH by assumption. reflexivity.
Qed.
Definition opens (rest : str) : Prop := match rest with [] => True | c :: _ => c = 91 end.
Lemma opens_stops : forall rest, opens rest -> stops rest.
Proof. intros [|c r] O; cbn in *; [exact Logic.I|]. subst. reflexivity. Qed.
Lemma plain_ok : forall p rest, p <> [] -> free p -> opens rest -> plain_here (p ++ rest) = Some (p, rest).
Proof.
  intros p rest N F O. unfold plain_here. rewrite run_free by auto using opens_stops.
  destruct p as [|c p]; [congruence|]. destruct rest as [|d r]; [reflexivity|]. cbn in O. subst. reflexivity.
Qed.
Lemma plain_closed : forall p s, free p -> plain_here (p ++ 93 :: s) = None.
Proof.
  intros p s F. unfold plain_here. rewrite run_free by (auto; reflexivity). destruct p; reflexivity.
Qed.
Lemma plain_open : forall s, plain_here (91 :: s) = None.
Proof. reflexivity. Qed.

Lemma lazy_free : forall t acc s, free t -> ~ In NL t -> lazy_tags acc (t ++ s) = lazy_tags (acc ++ t) s.
Proof.
  induction t as [|c t IH]; intros acc s F N; [cbn [app]; rewrite app_nil_r; reflexivity|].
  apply free_cons in F. destruct F as [B F]. cbn [app lazy_tags].
  assert (C : (c =? 93) = false) by (unfold bracket in B; apply orb_false_iff in B; tauto).
  assert (D : (c =? NL) = false) by (apply Z.eqb_neq; intro E; apply N; left; exact E).
  rewrite C, D. cbn [andb]. rewrite IH; [rewrite <- app_assoc; reflexivity|assumption|intro I; apply N; right; exact I].
Qed.
Lemma lazy_close : forall acc s p rest, acc <> [] -> plain_here s = Some (p, rest) -> lazy_tags acc (93 :: s) = Some (acc, p, rest).
Proof.
  intros acc s p rest N H. cbn [lazy_tags]. destruct acc as [|a acc]; [congruence|].
  change ((93 =? 93) && negb (str_eqb (a :: acc) [])) with true. cbn iota. rewrite H. reflexivity.
Qed.
Lemma lazy_skip : forall acc s, plain_here s = None -> lazy_tags acc (93 :: s) = lazy_tags (acc ++ [93]) s.
Proof.
  intros acc s H. cbn [lazy_tags]. rewrite H. destruct ((93 =? 93) && negb (str_eqb acc [])); reflexivity.
Qed.
Lemma join_two : forall a b l, join (lit "][") (a :: b :: l) = a ++ 93 :: 91 :: join (lit "][") (b :: l).
Proof. reflexivity. Qed.
Lemma app_ne : forall (a b : str), b <> [] -> a ++ b <> [].
Proof. intros [|x a] b H; [exact H|discriminate]. Qed.
Lemma lazy_join : forall ts acc s, ts <> [] -> Forall tag_ok ts ->
  lazy_tags acc (join (lit "][") ts ++ 93 :: s) = lazy_tags (acc ++ join (lit "][") ts) (93 :: s) /\ join (lit "][") ts <> [].
Proof.
  induction ts as [|t ts IH]; intros acc s N F; [congruence|]. inversion F as [|? ? [T [R L]] F']; subst.
  destruct ts as [|u ts].
  - cbn [join]. split; [|exact T]. apply lazy_free; assumption.
  - rewrite join_two. split; [|destruct t; discriminate].
    rewrite <- app_assoc. cbn [app]. rewrite lazy_free by assumption. rewrite lazy_skip by reflexivity.
    rewrite <- (app_assoc acc t [93]).
    assert (E : forall a r, lazy_tags a (91 :: r) = lazy_tags (a ++ [91]) r) by reflexivity.
    rewrite E. destruct (IH (((acc ++ t ++ [93]) ++ [91])) s) as [-> _]; [discriminate|assumption|].
    repeat (rewrite <- ?app_assoc; cbn [app]). reflexivity.
Qed.

Lemma written_tags : forall ts s, ts <> [] -> flat_map (fun t => [91] ++ t ++ [93]) ts ++ s = 91 :: join (lit "][") ts ++ 93 :: s.
Proof.
  induction ts as [|t ts IH]; intros s N; [congruence|]. destruct ts as [|u ts].
  - cbn [flat_map join]. repeat (rewrite <- ?app_assoc; cbn [app]). reflexivity.
  - rewrite join_two. cbn [flat_map] in *. rewrite <- app_assoc. rewrite IH by discriminate.
    repeat (rewrite <- ?app_assoc; cbn [app]). reflexivity.
Qed.

(** the fuel of [finditer] *)
Lemma run_length : forall s p rest, run s = (p, rest) -> (List.length p + List.length rest = List.length s)%nat.
Proof.
  induction s as [|c s IH]; intros p rest E; [injection E as <- <-; reflexivity|].
  cbn [run] in E. destruct (bracket c); [injection E as <- <-; reflexivity|].
  destruct (run s) as [q r]. injection E as <- <-. specialize (IH _ _ eq_refl). cbn. lia.
Qed.
Lemma plain_length : forall s p rest, plain_here s = Some (p, rest) -> (List.length rest < List.length s)%nat.
Proof.
  intros s p rest E. unfold plain_here in E. destruct (run s) as [q r] eqn:R. apply run_length in R.
  destruct q as [|c q]; [discriminate|]. cbn in R. destruct r as [|d r]; [|destruct (d =? 91); [|discriminate]];
  injection E as <- <-; cbn in *; lia.
Qed.
Lemma lazy_length : forall s acc g p rest, lazy_tags acc s = Some (g, p, rest) -> (List.length rest < List.length s)%nat.
Proof.
  induction s as [|c s IH]; intros acc g p rest E; [discriminate|]. cbn [lazy_tags] in E.
  destruct (if (c =? 93) && negb (str_eqb acc []) then plain_here s else None) as [[q r]|] eqn:Q.
  - injection E as <- <- <-. destruct ((c =? 93) && negb (str_eqb acc [])); [|discriminate]. apply plain_length in Q. cbn. lia.
  - destruct (c =? NL); [discriminate|]. apply IH in E. cbn. lia.
Qed.
Lemma match_length : forall s g p rest, match_at s = Some (g, p, rest) -> (List.length rest < List.length s)%nat.
Proof.
  intros [|c s] g p rest E; [discriminate|]. unfold match_at in E. destruct (c =? 91).
  - destruct (lazy_tags [] s) as [[[g' p'] r]|] eqn:L; [|discriminate]. injection E as <- <- <-. apply lazy_length in L. cbn. lia.
  - destruct (plain_here (c :: s)) as [[p' r]|] eqn:L; [|discriminate]. injection E as <- <- <-. apply plain_length in L. exact L.
Qed.
Lemma finditer_fuel : forall f f' s, (List.length s <= f)%nat -> (List.length s <= f')%nat -> finditer f s = finditer f' s.
Proof.
  induction f as [|f IH]; intros f' s A B.
  - destruct s; [|cbn in A; lia]. destruct f'; reflexivity.
  - destruct s as [|c s]; [destruct f'; reflexivity|]. destruct f' as [|f']; [cbn in B; lia|].
    cbn [finditer]. destruct (match_at (c :: s)) as [[[g p] r]|] eqn:E.
    + apply match_length in E. cbn in *. f_equal. apply IH; lia.
    + cbn in *. apply IH; lia.
Qed.
Lemma matches_cons : forall c s, matches (c :: s) =
  match match_at (c :: s) with Some (g, p, rest) => (g, p) :: matches rest | None => matches s end.
Proof.
  intros c s. unfold matches. cbn [List.length finditer]. destruct (match_at (c :: s)) as [[[g p] r]|] eqn:E.
  - apply match_length in E. cbn in E. f_equal. apply finditer_fuel; lia.
  - reflexivity.
Qed.

(** a text before a closing bracket is lost *)
Lemma matches_lost : forall p s, free p -> matches (p ++ 93 :: s) = matches s.
Proof.
  induction p as [|c p IH]; intros s F; [cbn [app]; rewrite matches_cons; reflexivity|].
  pose proof F as F0. apply free_cons in F. destruct F as [B F]. change ((c :: p) ++ 93 :: s) with (c :: (p ++ 93 :: s)).
  rewrite matches_cons. unfold match_at.
  assert (C : (c =? 91) = false) by (unfold bracket in B; apply orb_false_iff in B; tauto). rewrite C.
  change (c :: p ++ 93 :: s) with ((c :: p) ++ 93 :: s). rewrite plain_closed by assumption. apply IH, F.
Qed.
(** tags without a text after them are passed over *)
Lemma matches_tags : forall ts, Forall tag_ok ts -> matches (flat_map (fun t => [91] ++ t ++ [93]) ts) = [].
Proof.
  induction ts as [|t ts IH]; intro F; [reflexivity|].
  rewrite <- (app_nil_r (flat_map _ (t :: ts))). rewrite written_tags by discriminate. rewrite matches_cons.
  unfold match_at. change (91 =? 91) with true. cbn iota.
  destruct (lazy_join (t :: ts) [] []) as [-> N]; [discriminate|assumption|]. cbn [app].
  rewrite lazy_skip by reflexivity. cbn [lazy_tags].
  inversion F as [|? ? [T [R L]] F']; subst. destruct ts as [|u ts].
  - cbn [join]. rewrite matches_lost by assumption. reflexivity.
  - rewrite join_two. rewrite <- app_assoc. cbn [app]. rewrite matches_lost by assumption.
    specialize (IH F'). rewrite <- (app_nil_r (flat_map _ (u :: ts))) in IH. rewrite written_tags in IH by discriminate. exact IH.
Qed.

(** what is found in a well-formed text *)
Definition found (s : segment) : option str * str := (match fst s with [] => None | _ => Some (tag_line s) end, snd s).
Lemma written_opens : forall l tail, Forall segment_ok l -> Forall (fun s : segment => fst s <> []) l -> opens tail -> opens (written l ++ tail).
Proof.
  intros [|s l] tail F N O; [exact O|]. inversion N as [|? ? N1 N2]; subst. unfold written. cbn [flat_map].
  rewrite <- !app_assoc. rewrite written_tags by assumption. reflexivity.
Qed.
Lemma matches_written : forall l tail, markup_ok l -> opens tail -> matches (written l ++ tail) = map found l ++ matches tail.
Proof.
  induction l as [|s l IH]; intros tail [F N] O; [reflexivity|]. inversion F as [|? ? [T [P R]] F']; subst.
  assert (O' : opens (written l ++ tail)) by (apply written_opens; assumption).
  assert (M : markup_ok l) by (split; [exact F'|destruct l; [exact Logic.I|inversion N; assumption]]).
  specialize (IH tail M O). destruct s as [ts p]. cbn [fst snd] in *. cbn [map]. unfold found at 1. cbn [fst snd].
  unfold written. cbn [flat_map fst snd]. rewrite <- !app_assoc. fold (written l).
  destruct ts as [|t ts].
  - cbn [flat_map app]. destruct p as [|c p]; [congruence|]. pose proof R as R0. apply free_cons in R. destruct R as [B R].
    change ((c :: p) ++ written l ++ tail) with (c :: (p ++ written l ++ tail)). rewrite matches_cons. unfold match_at.
    assert (C : (c =? 91) = false) by (unfold bracket in B; apply orb_false_iff in B; tauto). rewrite C.
    change (c :: p ++ written l ++ tail) with ((c :: p) ++ written l ++ tail). rewrite plain_ok by assumption. rewrite IH. reflexivity.
  - rewrite written_tags by discriminate. rewrite matches_cons. unfold match_at. change (91 =? 91) with true. cbn iota.
    destruct (lazy_join (t :: ts) [] (p ++ written l ++ tail)) as [-> N']; [discriminate|assumption|]. cbn [app].
    erewrite lazy_close; [|exact N'|apply plain_ok; assumption]. rewrite IH. reflexivity.
Qed.

(** * Words *)
Lemma split_word : forall w cur t, Forall (fun c => is_space c = false) w -> split_space cur (w ++ t) = split_space (cur ++ w) t.
Proof.
  induction w as [|c w IH]; intros cur t F; [cbn [app]; rewrite app_nil_r; reflexivity|].
  inversion F as [|? ? C F']; subst. cbn [app split_space]. rewrite C, IH by assumption. rewrite <- app_assoc. reflexivity.
Qed.
Lemma split_blank : forall g t, blank_text g -> split_space [] (g ++ t) = split_space [] t.
Proof.
  induction g as [|c g IH]; intros t F; [reflexivity|]. inversion F as [|? ? C F']; subst. cbn [app split_space]. rewrite C. apply IH, F'.
Qed.
Lemma separated_split : forall t ws, separated t ws -> split_space [] t = ws.
Proof.
  intros t ws S. induction S as [g B|g w t ws B [N W] S IH E].
  - rewrite <- (app_nil_r g). rewrite split_blank by assumption. reflexivity.
  - rewrite split_blank, split_word by assumption. cbn [app]. destruct w as [|a w]; [congruence|].
    destruct t as [|c t]; [cbn [split_space] in *; rewrite IH; reflexivity|].
    cbn [split_space] in *. rewrite E in *. rewrite IH. reflexivity.
Qed.
Lemma separated_cur : forall t cur, Forall (fun c => is_space c = false) cur ->
  match cur with [] => separated t (split_space [] t) | _ => separated (cur ++ t) (split_space cur t) end.
Proof.
  induction t as [|c t IH]; intros cur F.
  - destruct cur as [|a cur]; [apply sep_end; constructor|]. cbn [split_space].
    apply (sep_word [] (a :: cur) [] []); [constructor|split; [discriminate|exact F]|apply sep_end; constructor|exact Logic.I].
  - destruct (is_space c) eqn:C.
    + pose proof (IH [] (Forall_nil _)) as S. cbn [split_space] in *. rewrite C.
      assert (S' : separated (c :: t) (split_space [] t)).
      { remember (split_space [] t) as ws. inversion S as [g B|g w u ws' B W S'' E]; subst.
        - apply sep_end. constructor; assumption.
        - change (c :: g ++ w ++ u) with ((c :: g) ++ w ++ u). apply sep_word; try assumption. constructor; assumption. }
      destruct cur as [|a cur]; [exact S'|].
      apply (sep_word [] (a :: cur) (c :: t)); [constructor|split; [discriminate|exact F]|exact S'|exact C].
    + assert (F' : Forall (fun c => is_space c = false) (cur ++ [c])) by (apply Forall_app; split; [exact F|repeat constructor; exact C]).
      specialize (IH (cur ++ [c]) F'). cbn [split_space]. rewrite C.
      destruct (cur ++ [c]) as [|x l] eqn:E; [destruct cur; discriminate|]. rewrite <- E in *.
      rewrite <- app_assoc in IH. cbn [app] in IH. destruct cur; exact IH.
Qed.
Lemma separated_exists : forall t, separated t (split_space [] t).
Proof. intro t. exact (separated_cur t [] (Forall_nil _)). Qed.

(** ** Words that look like colors *)
Lemma decimals_spec : forall s n rest, decimals s = (n, rest) ->
  exists d, s = d ++ rest /\ List.length d = n /\ Forall (fun c => is_decimal c = true) d /\
    match rest with [] => True | c :: _ => is_decimal c = false end.
Proof.
  induction s as [|c s IH]; intros n rest E; [injection E as <- <-; exists []; auto|]. cbn [decimals] in E.
  destruct (is_decimal c) eqn:D.
  - destruct (decimals s) as [m r]. injection E as <- <-. destruct (IH _ _ eq_refl) as [d [-> [L [F R]]]].
    exists (c :: d). cbn. rewrite L. auto.
  - injection E as <- <-. exists []. auto.
Qed.
Lemma decimals_app : forall d rest, Forall (fun c => is_decimal c = true) d ->
  match rest with [] => True | c :: _ => is_decimal c = false end -> decimals (d ++ rest) = (List.length d, rest).
Proof.
  induction d as [|c d IH]; intros rest F R.
  - cbn [app]. destruct rest as [|c r]; [reflexivity|]. cbn [decimals]. rewrite R. reflexivity.
  - inversion F as [|? ? C F']; subst. cbn [app decimals]. rewrite C, IH by assumption. reflexivity.
Qed.
Lemma hex_char_iff : forall c, hex_char c = true <-> exists v, hex_value c v.
Proof.
  intro c. unfold hex_char, is_digit, hex_value. split.
  - intro H. apply orb_prop in H. destruct H as [H|H]; [apply orb_prop in H; destruct H as [H|H]|];
    apply andb_prop in H; destruct H as [A B]; apply Z.leb_le in A, B; eexists; (repeat first [left; split; [lia|reflexivity]|right]); split; [lia|reflexivity].
  - intros [v H]. apply orb_true_iff. rewrite orb_true_iff, !andb_true_iff, !Z.leb_le. lia.
Qed.
Lemma optional_at : forall a s, at_sign a -> match s with [] => True | c :: _ => c <> 64 end -> optional 64 (a ++ s) = s.
Proof.
  intros a s [->| ->] N; [|reflexivity]. cbn [app]. destruct s as [|c s]; [reflexivity|]. unfold optional.
  apply Z.eqb_neq in N. rewrite N. reflexivity.
Qed.
Lemma optional_split : forall c s, exists a, (a = [] \/ a = [c]) /\ s = a ++ optional c s.
Proof.
  intros c [|x s]; [exists []; auto|]. unfold optional. destruct (x =? c) eqn:E.
  - apply Z.eqb_eq in E. subst. exists [c]. auto.
  - exists []. auto.
Qed.
Lemma decimal_not : forall c d, is_decimal d = false -> is_decimal c = true -> c <> d.
Proof. intros c d N D E. subst. congruence. Qed.
Lemma number_head : forall d r, number d -> match d ++ r with [] => True | c :: _ => c <> 64 end.
Proof.
  intros [|c d] r [[L _] F]; [cbn in L; lia|]. inversion F; subst. cbn. apply decimal_not; [reflexivity|assumption].
Qed.
Lemma le3 : forall n, (1 <=? n)%nat && (n <=? 3)%nat = true <-> (1 <= n <= 3)%nat.
Proof. intro n. rewrite andb_true_iff, !Nat.leb_le. tauto. Qed.
Lemma channel_app : forall d s, number d -> re_channel (d ++ 59 :: s) = Some s.
Proof.
  intros d s [L F]. unfold re_channel. rewrite decimals_app by (auto; reflexivity). apply le3 in L.
  change ((59 =? 59) && (1 <=? List.length d)%nat) with (1 <=? List.length d)%nat. rewrite L. reflexivity.
Qed.
Lemma channel_some : forall s t, re_channel s = Some t -> exists d, number d /\ s = d ++ 59 :: t.
Proof.
  intros s t E. unfold re_channel in E. destruct (decimals s) as [n rest] eqn:D.
  apply decimals_spec in D. destruct D as [d [-> [L [F R]]]]. destruct rest as [|c r]; [discriminate|].
  destruct ((c =? 59) && (1 <=? n)%nat && (n <=? 3)%nat) eqn:B; [|discriminate]. injection E as <-.
  rewrite <- andb_assoc in B. apply andb_prop in B. destruct B as [C B]. apply Z.eqb_eq in C. subst c.
  apply le3 in B. exists d. split; [split; [lia|exact F]|reflexivity].
Qed.
Lemma firstn_number : forall d, (1 <= List.length d)%nat -> Forall (fun c => is_decimal c = true) d ->
  exists z r, d = z ++ r /\ number z.
Proof.
  intros [|c d] L F; [cbn in L; lia|]. inversion F; subst. exists [c], d. split; [reflexivity|]. split; [cbn; lia|].
  constructor; [assumption|constructor].
Qed.
Lemma re_color_iff : forall s, re_color s = true <->
  (exists a d, at_sign a /\ number d /\ s = a ++ d) \/
  (exists a h x r, at_sign a /\ (h = [] \/ h = [35]) /\ hex_six x /\ s = a ++ h ++ x ++ r) \/
  (exists a x y z r, at_sign a /\ number x /\ number y /\ number z /\ s = a ++ x ++ [59] ++ y ++ [59] ++ z ++ r).
Proof.
  intro s. unfold re_color. rewrite !orb_true_iff. split.
  - intros [[H|H]|H].
    + left. unfold re_256 in H. destruct (optional_split 64 s) as [a [A E]]. destruct (decimals (optional 64 s)) as [n rest] eqn:D.
      apply decimals_spec in D. destruct D as [d [D [L [F R]]]]. destruct rest; [|discriminate]. apply le3 in H.
      rewrite app_nil_r in D. rewrite D in E. exists a, d. split; [exact A|]. split; [split; [lia|exact F]|exact E].
    + right. left. unfold re_hex in H. destruct (optional_split 64 s) as [a [A E]].
      destruct (optional_split 35 (optional 64 s)) as [h [B E']]. apply andb_prop in H. destruct H as [L X].
      apply Nat.leb_le in L. set (t := optional 35 (optional 64 s)) in *.
      exists a, h, (firstn 6 t), (skipn 6 t). rewrite firstn_skipn, <- E'. split; [exact A|]. split; [exact B|]. split; [|exact E].
      split; [rewrite firstn_length; lia|]. apply Forall_forall. intros c I. rewrite forallb_forall in X. apply hex_char_iff, X, I.
    + right. right. unfold re_rgb in H. destruct (optional_split 64 s) as [a [A E]].
      destruct (re_channel (optional 64 s)) as [t|] eqn:C1; [|discriminate]. apply channel_some in C1. destruct C1 as [x [X E1]].
      destruct (re_channel t) as [u|] eqn:C2; [|discriminate]. apply channel_some in C2. destruct C2 as [y [Y E2]].
      apply Nat.leb_le in H. destruct (decimals u) as [n rest] eqn:D. apply decimals_spec in D. destruct D as [d [-> [L [F R]]]].
      cbn [fst] in H. destruct (firstn_number d) as [z [r [-> Z]]]; [lia|exact F|].
      exists a, x, y, z, (r ++ rest). repeat split; try assumption; try apply X; try apply Y; try apply Z.
      rewrite E, E1, E2. repeat (rewrite <- ?app_assoc; cbn [app]). reflexivity.
  - intros [[a [d [A [D ->]]]]|[[a [h [x [r [A [B [[L X] ->]]]]]]]|[a [x [y [z [r [A [X [Y [Z ->]]]]]]]]]]].
    + left. left. unfold re_256. pose proof (number_head d [] D) as H. rewrite app_nil_r in H. rewrite optional_at by assumption.
      rewrite <- (app_nil_r d). destruct D as [L F]. rewrite decimals_app by (auto; exact Logic.I). apply le3. exact L.
    + left. right. unfold re_hex. destruct x as [|c x]; [discriminate|].
      assert (N : c <> 64 /\ c <> 35).
      { inversion X as [|? ? [v V] _]; subst. unfold hex_value in V. lia. }
      rewrite optional_at; [|exact A|destruct B as [->| ->]; cbn; [tauto|lia]].
      assert (E : optional 35 (h ++ (c :: x) ++ r) = (c :: x) ++ r).
      { destruct B as [->| ->]; [|reflexivity]. cbn [app]. unfold optional. destruct N as [_ N]. apply Z.eqb_neq in N. rewrite N. reflexivity. }
      rewrite E. rewrite firstn_app. rewrite L. replace (6 - 6)%nat with O by lia. rewrite firstn_O, app_nil_r.
      rewrite firstn_all2 by lia. apply andb_true_iff. split; [apply Nat.leb_le; rewrite app_length; lia|].
      apply forallb_forall. intros y I. rewrite Forall_forall in X. apply hex_char_iff, X, I.
    + right. unfold re_rgb. rewrite optional_at; [|exact A|apply number_head; exact X]. cbn [app]. rewrite channel_app by exact X.
      rewrite channel_app by exact Y. destruct Z as [L F]. destruct z as [|c z]; [cbn in L; lia|]. inversion F; subst.
      cbn [app decimals]. match goal with H : is_decimal c = true |- _ => rewrite H end. destruct (decimals (z ++ r)). reflexivity.
Qed.

Lemma css_no_at : forallb (fun kv => match fst kv with [] => false | c :: _ => negb (c =? 64) && negb (c =? 47) end) CSS_COLORS = true.
Proof. vm_compute. reflexivity. Qed.
Lemma lstrip_repeat : forall c n t, match t with [] => True | x :: _ => x <> c end -> lstrip_by (Z.eqb c) (repeat c n ++ t) = t.
Proof.
  induction n as [|n IH]; intros t H.
  - cbn [repeat app]. destruct t as [|x t]; [reflexivity|]. cbn [lstrip_by]. destruct (c =? x) eqn:E; [apply Z.eqb_eq in E; congruence|reflexivity].
  - cbn [repeat app lstrip_by]. rewrite Z.eqb_refl. apply IH, H.
Qed.
Lemma lstrip_split : forall c t, exists n, t = repeat c n ++ lstrip_by (Z.eqb c) t /\
  match lstrip_by (Z.eqb c) t with [] => True | x :: _ => x <> c end.
Proof.
  induction t as [|x t [n [E H]]]; [exists O; split; [reflexivity|exact Logic.I]|]. cbn [lstrip_by]. destruct (c =? x) eqn:C.
  - apply Z.eqb_eq in C. subst x. exists (S n). cbn [repeat app]. rewrite <- E. split; [reflexivity|exact H].
  - exists O. split; [reflexivity|]. apply Z.eqb_neq in C. congruence.
Qed.
Lemma in_css_iff : forall t, in_css (lstrip_by (Z.eqb 64) t) = true <-> exists n name v, In (name, v) CSS_COLORS /\ t = repeat 64 n ++ name.
Proof.
  intro t. unfold in_css. split.
  - intro H. destruct (dict_get CSS_COLORS (lstrip_by (Z.eqb 64) t)) as [v|] eqn:D; [|discriminate].
    destruct (lstrip_split 64 t) as [n [E _]]. exists n, (lstrip_by (Z.eqb 64) t), v. split; [|exact E].
    apply KeyProofs.dict_get_in in D. exact D.
  - intros [n [name [v [I ->]]]]. pose proof css_no_at as C. rewrite forallb_forall in C. specialize (C _ I). cbn [fst] in C.
    rewrite lstrip_repeat.
    + destruct (dict_get CSS_COLORS name) eqn:D; [reflexivity|]. apply KeyProofs.dict_get_none in D. exfalso. apply D.
      change name with (fst (name, v)). apply in_map, I.
    + destruct name as [|c name]; [exact Logic.I|]. apply andb_prop in C. destruct C as [C _]. apply negb_true_iff, Z.eqb_neq in C. exact C.
Qed.
Lemma color_tag_iff : forall t, re_color t || in_css (lstrip_by (Z.eqb 64) t) = true <-> color_tag t.
Proof.
  intro t. rewrite orb_true_iff, re_color_iff, in_css_iff. split.
  - intros [[[a [d [A [D ->]]]]|[[a [h [x [r [A [B [X ->]]]]]]]|[a [x [y [z [r [A [X [Y [Z ->]]]]]]]]]]]|[n [name [v [I ->]]]]].
    + apply tag_index; assumption.
    + apply tag_hex; assumption.
    + apply tag_rgb; assumption.
    + eapply tag_css; eassumption.
  - intro C. destruct C as [a d A D|a h x r A B X|a x y z r A X Y Z|n name v I].
    + left. left. eauto.
    + left. right. left. exists a, h, x, r. auto.
    + left. right. right. exists a, x, y, z, r. auto 10.
    + right. eauto.
Qed.
