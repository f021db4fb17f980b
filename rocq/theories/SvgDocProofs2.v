(** The grammar of SvgDocSpec is unambiguous; characters XML forbids. *)
From Coq Require Import ZArith List Bool Lia String.
From Verif Require Import PyBase PyLemmas F64 ColorModel ColorSpec SpanModel SpanSpec SpanProofs2 ScreenModel TermModel SvgSpec SvgProofs SvgDocModel SvgDocSpec SvgDocProofs.
Import ListNotations.
Open Scope Z_scope.
Open Scope list_scope.

(** * Unambiguity *)
Definition ends (P : Z -> Prop) (k : str) : Prop := match k with [] => True | c :: _ => ~ P c end.
Lemma run_unique : forall P (a a' k k' : str), Forall P a -> Forall P a' -> ends P k -> ends P k' -> a ++ k = a' ++ k' -> a = a' /\ k = k'.
Proof.
  intros P a. induction a as [|x a IH]; intros [|y a'] k k' F F' E E' H; cbn [app] in H.
  - auto.
  - subst k. inversion F'; subst. contradiction.
  - subst k'. inversion F; subst. contradiction.
  - injection H as -> H. inversion F; subst. inversion F'; subst. destruct (IH a' k k') as [-> ->]; auto.
Qed.

Lemma reference_shape : forall n c, In (n, c) references -> exists m, n = 38 :: m ++ [59] /\ Forall (fun x => x <> 59 /\ x <> 34 /\ x <> 39 /\ x <> 60 /\ xml_char x = true) m.
Proof.
  intros n c H. cbn in H.
  repeat (destruct H as [H|H]; [injection H as <- <-;
    match goal with |- exists m, 38 :: ?l = _ /\ _ => exists (removelast l); split; [reflexivity|]; cbn; repeat (apply Forall_cons; [repeat split; discriminate|]); constructor end|]).
  contradiction.
Qed.
Lemma ends_no : forall (a : Z) k, ends (fun x => x <> a) (a :: k).
Proof. intros a k H. now apply H. Qed.
Lemma reference_unique : forall n c n' c' k k', In (n, c) references -> In (n', c') references -> n ++ k = n' ++ k' -> n = n' /\ c = c' /\ k = k'.
Proof.
  intros n c n' c' k k' H H' E.
  destruct (reference_shape _ _ H) as [m [-> F]]. destruct (reference_shape _ _ H') as [m' [-> F']].
  cbn [app] in E. injection E as E. rewrite <- !app_assoc in E. cbn [app] in E.
  destruct (run_unique (fun x => x <> 59) m m' (59 :: k) (59 :: k')) as [Em Ek]; auto using ends_no.
  - eapply Forall_impl; [|exact F]; cbn; tauto.
  - eapply Forall_impl; [|exact F']; cbn; tauto.
  - subst m'. injection Ek as ->. split; auto. split; auto.
    clear F F'. cbn [references In] in H, H'.
    repeat (destruct H as [H|H]; [injection H as Hm <-; rewrite <- Hm in H'; clear -H'; cbn in H';
      repeat (destruct H' as [H'|H']; [first [discriminate H' | now injection H']|]); contradiction|]).
    contradiction.
Qed.

Lemma chardata_unique : forall t r, chardata t r -> forall t' r' k k', chardata t' r' -> ends (fun c => c <> 60) k -> ends (fun c => c <> 60) k' ->
  r ++ k = r' ++ k' -> t = t' /\ r = r' /\ k = k'.
Proof.
  intros t r H. induction H as [|c t r Hc Hn H IH|n c t r Hi H IH]; intros t' r' k k' H' Hk Hk' E.
  - destruct H' as [|c' t' r' Hc' Hn' H'|n' c' t' r' Hi' H'].
    + auto.
    + cbn [app] in E. subst k. cbn [ends] in Hk. exfalso. apply Hk. intros ->. apply Hn'. cbn. auto.
    + destruct (reference_shape _ _ Hi') as [m [-> _]]. cbn [app] in E. subst k. exfalso. apply Hk. discriminate.
  - destruct H' as [|c' t' r' Hc' Hn' H'|n' c' t' r' Hi' H'].
    + cbn [app] in E. subst k'. cbn [ends] in Hk'. exfalso. apply Hk'. intros ->. apply Hn. cbn. auto.
    + cbn [app] in E. injection E as -> E. destruct (IH _ _ _ _ H' Hk Hk' E) as [-> [-> ->]]. auto.
    + destruct (reference_shape _ _ Hi') as [m [-> _]]. cbn [app] in E. injection E as -> E. exfalso. apply Hn. cbn. auto.
  - destruct H' as [|c' t' r' Hc' Hn' H'|n' c' t' r' Hi' H'].
    + destruct (reference_shape _ _ Hi) as [m [-> _]]. cbn [app] in E. subst k'. exfalso. apply Hk'. discriminate.
    + destruct (reference_shape _ _ Hi) as [m [-> _]]. cbn [app] in E. injection E as <- E. exfalso. apply Hn'. cbn. auto.
    + rewrite <- !app_assoc in E. destruct (reference_unique _ _ _ _ _ _ Hi Hi' E) as [-> [-> E2]].
      destruct (IH _ _ _ _ H' Hk Hk' E2) as [-> [-> ->]]. auto.
Qed.
Lemma value_unique : forall q v r, value q v r -> q = 34 \/ q = 39 -> forall v' r' k k', value q v' r' -> r ++ q :: k = r' ++ q :: k' ->
  v = v' /\ r = r' /\ k = k'.
Proof.
  intros q v r H Q. assert (Q' : q <> 38) by (destruct Q; subst; discriminate).
  induction H as [|c t r Hc Hn H IH|n c t r Hi H IH]; intros t' r' k k' H' E.
  - destruct H' as [|c' t' r' Hc' Hn' H'|n' c' t' r' Hi' H'].
    + injection E as ->. auto.
    + injection E as -> E. exfalso. apply Hn'. cbn. tauto.
    + destruct (reference_shape _ _ Hi') as [m [-> _]]. injection E as E _. congruence.
  - destruct H' as [|c' t' r' Hc' Hn' H'|n' c' t' r' Hi' H'].
    + injection E as -> E. exfalso. apply Hn. cbn. tauto.
    + injection E as -> E. destruct (IH _ _ _ _ H' E) as [-> [-> ->]]. auto.
    + destruct (reference_shape _ _ Hi') as [m [-> _]]. injection E as -> E. exfalso. apply Hn. cbn. tauto.
  - destruct H' as [|c' t' r' Hc' Hn' H'|n' c' t' r' Hi' H'].
    + destruct (reference_shape _ _ Hi) as [m [-> _]]. injection E as E _. congruence.
    + destruct (reference_shape _ _ Hi) as [m [-> _]]. injection E as <- E. exfalso. apply Hn'. cbn. tauto.
    + rewrite <- !app_assoc in E. destruct (reference_unique _ _ _ _ _ _ Hi Hi' E) as [-> [-> E2]].
      destruct (IH _ _ _ _ H' E2) as [-> [-> ->]]. auto.
Qed.

Lemma name_range : forall c, name_char c = true -> 65 <= c <= 122.
Proof. intros c H. unfold name_char in H. apply orb_prop in H. destruct H as [H|H]; apply andb_prop in H; destruct H as [A B]; apply Z.leb_le in A, B; lia. Qed.
Lemma name_Forall : forall n, xml_name n -> Forall (fun c => name_char c = true) n.
Proof. intros n [_ H]. now apply forallb_Forall in H || (apply Forall_forall; apply forallb_forall; exact H). Qed.
Lemma name_head : forall n k, xml_name n -> exists c m, n ++ k = c :: m /\ 65 <= c <= 122.
Proof. intros [|c n] k [H1 H2]; [congruence|]. exists c, (n ++ k). split; auto. apply name_range. cbn in H2. now apply andb_prop in H2. Qed.
Lemma name_ends : forall c k, c < 65 -> ends (fun c => name_char c = true) (c :: k).
Proof. intros c k H G. apply name_range in G. lia. Qed.
Lemma white_ends : forall n k, xml_name n -> ends white (n ++ k).
Proof. intros n k H. destruct (name_head n k H) as [c [m [-> R]]]. intros [->| ->]; lia. Qed.

Lemma attributes_head : forall l a k, attributes l a -> ends (fun c => name_char c = true) (a ++ 62 :: k).
Proof.
  intros l a k H. destruct H as [|gap n v q r l rs Hg Hw Hn Hq Hv H].
  - apply name_ends. lia.
  - destruct gap as [|g gap]; [congruence|]. cbn [app]. inversion Hw as [|? ? W _]; subst. apply name_ends. destruct W; subst; lia.
Qed.
Lemma attributes_unique : forall l a, attributes l a -> forall l' a' k k', attributes l' a' -> a ++ 62 :: k = a' ++ 62 :: k' ->
  l = l' /\ a = a' /\ k = k'.
Proof.
  intros l a H. induction H as [|gap n v q r l rs Hg Hw Hn Hq Hv H IH]; intros l' a' k k' H' E.
  - destruct H' as [|gap' n' v' q' r' l' rs' Hg' Hw' Hn' Hq' Hv' H'].
    + injection E as ->. auto.
    + destruct gap' as [|g gap']; [congruence|]. injection E as E _. inversion Hw' as [|? ? W _]; subst. destruct W; discriminate.
  - destruct H' as [|gap' n' v' q' r' l' rs' Hg' Hw' Hn' Hq' Hv' H'].
    + destruct gap as [|g gap]; [congruence|]. injection E as E _. inversion Hw as [|? ? W _]; subst. destruct W; discriminate.
    + rewrite <- !app_assoc in E. apply (run_unique white) in E; auto using white_ends. destruct E as [-> E].
      cbn [app] in E. apply (run_unique (fun c => name_char c = true)) in E; auto using name_Forall; try (apply name_ends; lia).
      destruct E as [-> E]. injection E as -> E. rewrite <- ?app_assoc in E. cbn [app] in E.
      destruct (value_unique _ _ _ Hv Hq _ _ _ _ Hv' E) as [-> [-> E2]].
      destruct (IH _ _ _ _ H' E2) as [-> [-> ->]]. auto.
Qed.

Definition stops (k : str) : Prop := k = [] \/ exists m, k = 60 :: 47 :: m.
Lemma chardata_ne : forall t r k, chardata t r -> t <> [] -> exists c m, r ++ k = c :: m /\ c <> 60.
Proof.
  intros t r k H Ht. destruct H as [|c t r Hc Hn H|n c t r Hi H]; [congruence| |].
  - exists c, (r ++ k). split; auto. intros ->. apply Hn. cbn. auto.
  - destruct (reference_shape _ _ Hi) as [m [-> _]]. eexists 38, _. split; [reflexivity|discriminate].
Qed.
Lemma writes_ends : forall l s k, writes l s -> no_text_first l -> stops k -> ends (fun c => c <> 60) (s ++ k).
Proof.
  intros l s k H Hl Hk. destruct H as [|t r l s Ht Hn Hc H|n al a ch c l s Hn Hd Ha Hc H].
  - destruct Hk as [->|[m ->]]; [exact I|]. cbn. tauto.
  - destruct Hl.
  - cbn. tauto.
Qed.
Lemma writes_unique : forall l s, writes l s -> forall l' s' k k', writes l' s' -> stops k -> stops k' ->
  s ++ k = s' ++ k' -> l = l' /\ s = s' /\ k = k'.
Proof.
  intros l s H. induction H as [|t r l s Ht Hn Hc H IH|n al a ch c l s Hn Hd Ha Hc IHc H IH]; intros l' s' k k' H' Sk Sk' E.
  - destruct H' as [|t' r' l' s' Ht' Hn' Hc' H'|n' al' a' ch' c' l' s' Hn' Hd' Ha' Hc' H'].
    + auto.
    + exfalso. cbn [app] in E. rewrite <- app_assoc in E. destruct (chardata_ne _ _ (s' ++ k') Hc' Ht') as [x [m [Ex Nx]]]. rewrite Ex in E.
      destruct Sk as [->|[m' ->]]; [discriminate|]. injection E as E _. congruence.
    + exfalso. cbn [app] in E. destruct Sk as [->|[m' ->]]; [discriminate|]. injection E as E. rewrite <- app_assoc in E.
      destruct (name_head n' ((a' ++ 62 :: c' ++ 60 :: 47 :: n' ++ 62 :: s') ++ k') Hn') as [x [m [Ex Rx]]].
      rewrite Ex in E. injection E as E _. lia.
  - destruct H' as [|t' r' l' s' Ht' Hn' Hc' H'|n' al' a' ch' c' l' s' Hn' Hd' Ha' Hc' H'].
    + exfalso. cbn [app] in E. rewrite <- app_assoc in E. destruct (chardata_ne _ _ (s ++ k) Hc Ht) as [x [m [Ex Nx]]]. rewrite Ex in E.
      destruct Sk' as [->|[m' ->]]; [discriminate|]. injection E as E _. congruence.
    + rewrite <- !app_assoc in E.
      destruct (chardata_unique _ _ Hc _ _ _ _ Hc' (writes_ends _ _ _ H Hn Sk) (writes_ends _ _ _ H' Hn' Sk') E) as [-> [-> E2]].
      destruct (IH _ _ _ _ H' Sk Sk' E2) as [-> [-> ->]]. auto.
    + exfalso. rewrite <- app_assoc in E. destruct (chardata_ne _ _ (s ++ k) Hc Ht) as [x [m [Ex Nx]]]. rewrite Ex in E. injection E as E _. congruence.
  - destruct H' as [|t' r' l' s' Ht' Hn' Hc' H'|n' al' a' ch' c' l' s' Hn' Hd' Ha' Hc' H'].
    + exfalso. cbn [app] in E. destruct Sk' as [->|[m' ->]]; [discriminate|]. injection E as E. rewrite <- app_assoc in E.
      destruct (name_head n ((a ++ 62 :: c ++ 60 :: 47 :: n ++ 62 :: s) ++ k) Hn) as [x [m [Ex Rx]]].
      rewrite Ex in E. injection E as E _. lia.
    + exfalso. rewrite <- app_assoc in E. destruct (chardata_ne _ _ (s' ++ k') Hc' Ht') as [x [m [Ex Nx]]].
      symmetry in E. cbn [app] in E. rewrite <- ?app_assoc in E. cbn [app] in Ex. rewrite Ex in E. injection E as E _. congruence.
    + repeat (cbn [app] in E; rewrite <- ?app_assoc in E). injection E as E.
      apply (run_unique (fun c => name_char c = true)) in E; auto using name_Forall; try (eapply attributes_head; eassumption).
      destruct E as [-> E]. destruct (attributes_unique _ _ Ha _ _ _ _ Ha' E) as [-> [-> E2]].
      destruct (IHc _ _ _ _ Hc' (or_intror (ex_intro _ _ eq_refl)) (or_intror (ex_intro _ _ eq_refl)) E2) as [-> [-> E3]].
      injection E3 as E3. apply app_inv_head in E3. injection E3 as E3.
      destruct (IH _ _ _ _ H' Sk Sk' E3) as [-> [-> ->]]. auto.
Qed.
Lemma element_head : forall root el k, writes [root] el -> match root with Text _ => False | _ => True end -> exists m, el ++ k = 60 :: m.
Proof.
  intros root el k H R. inversion H; subst; [destruct R|]. eexists. reflexivity.
Qed.
Lemma document_unique : forall a b s, document a s -> document b s -> a = b.
Proof.
  intros a b s [p [q [el [Wp [Wq [E [W R]]]]]]] [p' [q' [el' [Wp' [Wq' [E' [W' R']]]]]]]. subst s.
  destruct (element_head _ _ q W R) as [m Em]. destruct (element_head _ _ q' W' R') as [m' Em'].
  apply (run_unique white) in E'; auto.
  - destruct E' as [_ E'].
    (* the element ends with '>' and white space follows *)
    assert (L : forall root e, writes [root] e -> match root with Text _ => False | _ => True end -> exists m, e = m ++ [62]).
    { intros root e H HR. inversion H as [| |n al x ch c l s0 Hn Hd Ha Hc Hs]; subst; [destruct HR|]. inversion Hs; subst.
      exists ([60] ++ n ++ x ++ [62] ++ c ++ [60; 47] ++ n). rewrite <- !app_assoc. reflexivity. }
    destruct (L _ _ W R) as [x Ex]. destruct (L _ _ W' R') as [x' Ex'].
    assert (Q : q = q').
    { rewrite Ex, Ex', <- !app_assoc in E'. apply (f_equal (@rev Z)) in E'. rewrite !rev_app_distr in E'. cbn [rev app] in E'.
      rewrite <- !app_assoc in E'. cbn [app] in E'.
      apply (run_unique white) in E'; try (intros [?|?]; discriminate).
      - destruct E' as [E' _]. apply (f_equal (@rev Z)) in E'. now rewrite !rev_involutive in E'.
      - now apply Forall_rev.
      - now apply Forall_rev. }
    subst q'. apply app_inv_tail in E'. subst el'.
    destruct (writes_unique _ _ W _ _ [] [] W' (or_introl eq_refl) (or_introl eq_refl) eq_refl) as [H _]. now injection H.
  - rewrite Em. intros [?|?]; discriminate.
  - rewrite Em'. intros [?|?]; discriminate.
Qed.

(** * Characters *)
Lemma chardata_chars : forall t r, chardata t r -> forallb xml_char r = true.
Proof.
  intros t r H. induction H as [|c t r Hc Hn H IH|n c t r Hi H IH]; auto.
  - cbn. now rewrite Hc.
  - rewrite forallb_app, IH, andb_true_r. apply (proj1 (forallb_forall (fun x => forallb xml_char (fst x)) references) eq_refl _ Hi).
Qed.
Lemma value_chars : forall q t r, value q t r -> forallb xml_char r = true.
Proof.
  intros q t r H. induction H as [|c t r Hc Hn H IH|n c t r Hi H IH]; auto.
  - cbn. now rewrite Hc.
  - rewrite forallb_app, IH, andb_true_r. apply (proj1 (forallb_forall (fun x => forallb xml_char (fst x)) references) eq_refl _ Hi).
Qed.
Lemma white_chars : forall g, Forall white g -> forallb xml_char g = true.
Proof. intros g H. apply forallb_forall. intros c Hc. apply (proj1 (Forall_forall _ _) H) in Hc. destruct Hc as [->| ->]; reflexivity. Qed.
Lemma name_chars : forall n, xml_name n -> forallb xml_char n = true.
Proof.
  intros n H. apply name_Forall in H. apply forallb_forall. intros c Hc. apply (proj1 (Forall_forall _ _) H) in Hc. apply name_range in Hc.
  unfold xml_char. rewrite (proj2 (Z.leb_le 32 c)), (proj2 (Z.leb_le c 55295)) by lia. rewrite !orb_true_r. reflexivity.
Qed.
Lemma attributes_chars : forall l a, attributes l a -> forallb xml_char a = true.
Proof.
  intros l a H. induction H as [|gap n v q r l rs Hg Hw Hn Hq Hv H IH]; auto.
  rewrite !forallb_app, (white_chars _ Hw), (name_chars _ Hn), (value_chars _ _ _ Hv), IH. destruct Hq; subst; reflexivity.
Qed.
Lemma writes_chars : forall l s, writes l s -> forallb xml_char s = true.
Proof.
  intros l s H. induction H as [|t r l s Ht Hn Hc H IH|n al a ch c l s Hn Hd Ha Hc IHc H IH]; auto.
  - now rewrite forallb_app, (chardata_chars _ _ Hc), IH.
  - rewrite !forallb_app, (name_chars _ Hn), (attributes_chars _ _ Ha), IHc, IH. reflexivity.
Qed.
Lemma document_chars : forall root s, document root s -> forallb xml_char s = true.
Proof.
  intros root s [p [q [el [Wp [Wq [-> [W _]]]]]]]. now rewrite !forallb_app, (white_chars _ Wp), (white_chars _ Wq), (writes_chars _ _ W).
Qed.

Lemma escape_keeps : forall t c, In c t -> ~ In c [38; 60; 62; 34; 39; 32] -> In c (escape_html t).
Proof.
  intros t c H N. rewrite escape_entities. apply in_flat_map. exists c. split; auto. unfold entity. cbn [In] in N.
  rewrite !(proj2 (Z.eqb_neq c _)) by (intros ->; tauto). now left.
Qed.
Lemma forbidden_kept : forall e s fs w h nums dfg dbg l p c doc,
  export_svg e s = Ok l -> In p l -> In c (s_text (p_span p)) -> xml_char c = false -> c <> 13 ->
  export_document e s fs w h nums dfg dbg = Ok doc -> In c doc.
Proof.
  intros e s fs w h nums dfg dbg l p c doc X Hp Hc N _ D. unfold export_document in D. rewrite X in D. cbn [bindr] in D. injection D as <-.
  assert (I : In c (svg_screen nums dfg dbg l)).
  { unfold svg_screen. apply in_concat. eexists. split; [apply in_map; exact Hp|].
    unfold as_svg. destruct (svg_colors _ _ _). rewrite !app_assoc. apply in_or_app. left. apply in_or_app. right.
    apply escape_keeps; auto. cbn [In]. intros [<-|[<-|[<-|[<-|[<-|[<-|[]]]]]]]; discriminate N. }
  unfold svg_template. do 15 (apply in_or_app; right). apply in_or_app. left. unfold ln. apply in_or_app. now left.
Qed.
Lemma forbidden_breaks : forall e s fs w h nums dfg dbg l p c doc root,
  export_svg e s = Ok l -> In p l -> In c (s_text (p_span p)) -> xml_char c = false -> c <> 13 ->
  export_document e s fs w h nums dfg dbg = Ok doc -> ~ document root doc.
Proof.
  intros e s fs w h nums dfg dbg l p c doc root X Hp Hc N R D H. apply document_chars in H.
  pose proof (forbidden_kept _ _ _ _ _ _ _ _ _ _ _ _ X Hp Hc N R D) as I.
  apply (proj1 (forallb_forall _ _) H) in I. congruence.
Qed.
