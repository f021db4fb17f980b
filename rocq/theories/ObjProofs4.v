(** Proofs about color objects when the color space changes: a sequence once read stays. *)
From Coq Require Import ZArith List Bool Lia String.
From Verif Require Import PyBase PyLemmas F64 SpaceModel ColorModel ColorProofs2 SpanModel ScreenModel
  ScreenProofs ObjModel ObjSpec ObjProofs ObjProofs2 ObjProofs3.
Open Scope Z_scope.

(** * References that exist *)
Definition okref (w : world) (r : ref) : Prop := (r < List.length (w_objs w))%nat.
Definition okopt (w : world) (o : option ref) : Prop := match o with Some r => okref w r | None => True end.
(** Groups begin with the object that remembers them *)
Definition headed (r : ref) (o : cobj) : Prop := forall g ks, In (g, ks) (ob_groups o) -> exists t, ks = r :: t.
(** What an object remembers exists *)
Definition okobj (w : world) (o : cobj) : Prop :=
  okopt w (ob_complement o) /\ okopt w (ob_contrast o) /\ Forall (fun gk => Forall (okref w) (snd gk)) (ob_groups o).
Record wf (w : world) : Prop := {
  wf_len : (4 <= List.length (w_objs w))%nat;
  wf_objs : Forall (okobj w) (w_objs w);
  wf_blends : Forall (fun kr => okref w (snd kr)) (w_blends w);
  wf_heads : forall r o, nth_error (w_objs w) r = Some o -> headed r o
}.
Record evolves (e : env) (w w' : world) : Prop := {
  ev_keep : forall r o, nth_error (w_objs w) r = Some o ->
    exists o', nth_error (w_objs w') r = Some o' /\ ob_color o' = ob_color o /\
      (forall a, ob_ansi o = Some a -> ob_ansi o' = Some a);
  ev_new : forall r o' a, nth_error (w_objs w') r = Some o' -> ob_ansi o' = Some a ->
    a = color_ansi e (ob_color o') \/ (exists o, nth_error (w_objs w) r = Some o /\ ob_ansi o = Some a /\ ob_color o' = ob_color o)
}.
Lemma ev_refl : forall e w, evolves e w w.
Proof. intros. constructor; intros; eauto. Qed.
Lemma ev_same : forall e w w', w_objs w' = w_objs w -> evolves e w w'.
Proof. intros e w w' E. constructor; rewrite E; intros; eauto. Qed.
Lemma ev_trans : forall e a b c, evolves e a b -> evolves e b c -> evolves e a c.
Proof.
  intros e a b c [K1 N1] [K2 N2]. constructor.
  - intros r o H. destruct (K1 _ _ H) as [o1 [H1 [E1 A1]]]. destruct (K2 _ _ H1) as [o2 [H2 [E2 A2]]].
    exists o2. split; auto. split; [congruence|auto].
  - intros r o x H A. destruct (N2 _ _ _ H A) as [P|[o1 [H1 [A1 E1]]]]; auto.
    destruct (N1 _ _ _ H1 A1) as [P|[o2 [H2 [A2 E2]]]].
    + left. rewrite E1. exact P.
    + right. exists o2. split; auto. split; auto. congruence.
Qed.
Lemma ev_len : forall e w w', evolves e w w' -> (List.length (w_objs w) <= List.length (w_objs w'))%nat.
Proof.
  intros e w w' [K _]. destruct (List.length (w_objs w)) eqn:L; [lia|].
  destruct (nth_error (w_objs w) n) as [o|] eqn:E.
  - destruct (K _ _ E) as [o' [H _]]. assert (nth_error (w_objs w') n <> None) by congruence.
    apply nth_error_Some in H0. lia.
  - apply nth_error_None in E. lia.
Qed.
Lemma ok_ev : forall e w w' r, evolves e w w' -> okref w r -> okref w' r.
Proof. intros e w w' r E H. apply ev_len in E. unfold okref in *. lia. Qed.
Lemma okopt_ev : forall e w w' r, evolves e w w' -> okopt w r -> okopt w' r.
Proof. intros e w w' [r|] E H; cbn in *; auto. eapply ok_ev; eauto. Qed.
Lemma okobj_ev : forall e w w' o, evolves e w w' -> okobj w o -> okobj w' o.
Proof.
  intros e w w' o E [A [B C]]. split; [eapply okopt_ev; eauto|]. split; [eapply okopt_ev; eauto|].
  eapply Forall_impl; [|exact C]. intros gk H. eapply Forall_impl; [|exact H]. intros r. now apply (ok_ev e).
Qed.

Definition steady {A} (e : env) (m : W A) : Prop :=
  forall w, wf w -> evolves e w (fst (m w)) /\ wf (fst (m w)).
Lemma steady_ret : forall A e (a : A), steady e (retW a).
Proof. intros A e a w H. split; auto. apply ev_refl. Qed.
Lemma steady_lift : forall A e (a : res A), steady e (liftW a).
Proof. intros A e a w H. split; auto. apply ev_refl. Qed.
Lemma steady_bind : forall A B e (m : W A) (k : A -> W B), steady e m -> (forall a, steady e (k a)) -> steady e (bindW m k).
Proof.
  intros A B e m k Hm Hk w H. unfold bindW. destruct (Hm w H) as [E1 F1]. destruct (m w) as [w1 [a|x]]; cbn [fst] in *.
  - destruct (Hk a w1 F1) as [E2 F2]. split; auto. eapply ev_trans; eauto.
  - auto.
Qed.
Lemma steady_fun : forall A e (f : world -> W A), (forall w, steady e (f w)) -> steady e (fun w => f w w).
Proof. intros A e f H w. apply (H w w). Qed.

Lemma Forall_app1 : forall A (P : A -> Prop) l a, Forall P l -> P a -> Forall P (l ++ [a]).
Proof. intros. apply Forall_app. auto. Qed.
Lemma wf_mono : forall e w l b, wf w -> evolves e w (mkWorld l b (w_chars w)) ->
  Forall (okobj (mkWorld l b (w_chars w))) l ->
  b = w_blends w -> (forall r o, nth_error l r = Some o -> headed r o) -> wf (mkWorld l b (w_chars w)).
Proof.
  intros e w l b [L O B _] E F -> Hd. constructor; auto.
  - pose proof (ev_len _ _ _ E). cbn in *. lia.
  - cbn. eapply Forall_impl; [|exact B]. intros kr K. eapply ok_ev; eauto.
Qed.
Lemma steady_alloc : forall e c, steady e (alloc c).
Proof.
  intros e [v|x] w H; cbn [alloc fst]; [|split; auto; apply ev_refl].
  assert (E : evolves e w (set_objs (w_objs w ++ [fresh_obj v]) w)).
  { constructor; cbn.
    - intros r o N. exists o. split; auto. rewrite nth_error_app1; auto. apply nth_error_Some. congruence.
    - intros r o a N A. destruct (Nat.lt_ge_cases r (List.length (w_objs w))) as [L|L].
      + rewrite nth_error_app1 in N; auto. right. eauto.
      + rewrite nth_error_app2 in N; auto. destruct (r - List.length (w_objs w))%nat as [|k]; cbn in N.
        * injection N as <-. discriminate.
        * destruct k; discriminate. }
  split; auto. eapply wf_mono; eauto.
  - apply Forall_app1; [|repeat split; constructor].
    eapply Forall_impl; [|apply (wf_objs _ H)]. intro o. now apply (okobj_ev e).
  - intros r o N. destruct (Nat.lt_ge_cases r (List.length (w_objs w))) as [L|L].
    + rewrite nth_error_app1 in N; auto. exact (wf_heads _ H r o N).
    + rewrite nth_error_app2 in N; auto. destruct (r - List.length (w_objs w))%nat as [|k]; cbn in N.
      * injection N as <-. intros g ks [].
      * destruct k; discriminate.
Qed.
Lemma alloc_ok : forall c w r, snd (alloc c w) = Ok r -> okref (fst (alloc c w)) r.
Proof.
  intros [v|x] w r H; cbn in *; [|discriminate]. injection H as <-. unfold okref. cbn. rewrite app_length. cbn. lia.
Qed.

Lemma nth_set_nth : forall A (l : list A) n k a, nth_error (set_nth n a l) k =
  if Nat.eqb k n then (if Nat.ltb n (List.length l) then Some a else None) else nth_error l k.
Proof.
  intros A l. induction l as [|x l IH]; intros [|n] [|k] a; cbn [set_nth nth_error]; auto.
  - now destruct (Nat.eqb _ _).
  - now rewrite IH.
Qed.
Lemma nth_set_nth_length : forall A (l : list A) n a, List.length (set_nth n a l) = List.length l.
Proof. intros A l. induction l as [|x l IH]; intros [|n] a; cbn; auto. Qed.
Lemma obj_nth : forall w r o, nth_error (w_objs w) r = Some o -> obj w r = o.
Proof. intros w r o H. unfold obj. now apply nth_error_nth. Qed.

(** Remembering something on an object *)
Lemma remember_steady : forall e w r o', wf w -> ob_color o' = ob_color (obj w r) ->
  (ob_ansi o' = ob_ansi (obj w r) \/ (ob_ansi (obj w r) = None /\ ob_ansi o' = Some (color_ansi e (ob_color o')))) ->
  okobj w o' -> headed r o' ->
  evolves e w (set_objs (set_nth r o' (w_objs w)) w) /\ wf (set_objs (set_nth r o' (w_objs w)) w).
Proof.
  intros e w r o' F C A K1 K2.
  assert (E : evolves e w (set_objs (set_nth r o' (w_objs w)) w)).
  { constructor; cbn.
    - intros k o N. rewrite nth_set_nth. destruct (Nat.eqb_spec k r) as [->|D]; [|eauto].
      assert (L : (r < List.length (w_objs w))%nat) by (apply nth_error_Some; congruence).
      apply Nat.ltb_lt in L. rewrite L. exists o'. split; auto. rewrite (obj_nth _ _ _ N) in *. split; auto.
      intros a Ha. destruct A as [A|[A _]]; congruence.
    - intros k o a N Ha. rewrite nth_set_nth in N. destruct (Nat.eqb_spec k r) as [->|D]; [|right; eauto].
      destruct (Nat.ltb_spec r (List.length (w_objs w))) as [L|L]; [|discriminate]. injection N as <-.
      destruct (nth_error (w_objs w) r) as [o|] eqn:N; [|apply nth_error_None in N; lia].
      rewrite (obj_nth _ _ _ N) in *. destruct A as [A|[_ A]].
      + right. exists o. split; auto. split; congruence.
      + left. congruence. }
  split; auto. eapply wf_mono; eauto.
  2: { intros k o N. rewrite nth_set_nth in N. destruct (Nat.eqb_spec k r) as [->|D]; [|exact (wf_heads _ F k o N)].
       destruct (Nat.ltb _ _); [|discriminate]. now injection N as <-. }
  assert (P : forall l, Forall (okobj w) l ->
    Forall (okobj (set_objs (set_nth r o' (w_objs w)) w)) l).
  { intros l Hl. eapply Forall_impl; [|exact Hl]. intro o. now apply (okobj_ev e). }
  apply P. pose proof (wf_objs _ F) as O. clear -O K1. revert r.
  induction O as [|o l Ho O IH]; intros [|r]; cbn; constructor; auto.
Qed.
Lemma obj_ok' : forall w r, wf w -> okobj w (obj w r).
Proof.
  intros w r F. unfold obj. destruct (nth_in_or_default r (w_objs w) (fresh_obj WHITE)) as [I|E].
  - exact (proj1 (Forall_forall _ _) (wf_objs _ F) _ I).
  - rewrite E. repeat split; constructor.
Qed.
Lemma headed' : forall w r, wf w -> headed r (obj w r).
Proof.
  intros w r F. destruct (nth_error (w_objs w) r) as [o|] eqn:E.
  - rewrite (obj_nth _ _ _ E). exact (wf_heads _ F r o E).
  - apply nth_error_None in E. unfold obj. rewrite nth_overflow; auto. intros g ks [].
Qed.
Lemma steady_ansi : forall e r, steady e (oansi e r).
Proof.
  intros e r w F. unfold oansi. destruct (ob_ansi (obj w r)) as [a|] eqn:E; [split; auto; apply ev_refl|].
  cbn [fst]. apply remember_steady; auto; [|exact (headed' w r F)]. destruct (obj_ok' w r F) as [P [Q S]]. split; auto.
Qed.
(** What is read is the remembered sequence, and is remembered *)
Lemma ansi_read : forall e r w, exists a, oansi e r w = (fst (oansi e r w), Ok a) /\
  (ob_ansi (obj w r) = Some a \/ (ob_ansi (obj w r) = None /\ a = color_ansi e (val w r))) /\
  (okref w r -> ob_ansi (obj (fst (oansi e r w)) r) = Some a).
Proof.
  intros e r w. unfold oansi. destruct (ob_ansi (obj w r)) as [a|] eqn:E.
  - exists a. cbn. auto.
  - exists (color_ansi e (val w r)). cbn [fst]. split; auto. split; auto. intro L. unfold obj, set_objs. cbn.
    erewrite nth_error_nth; [|rewrite nth_set_nth, Nat.eqb_refl; apply Nat.ltb_lt in L; rewrite L; reflexivity]. reflexivity.
Qed.
Lemma steady_complement : forall e r, steady e (ocomplement r).
Proof.
  intros e r w F. unfold ocomplement. destruct (ob_complement (obj w r)) as [a|] eqn:E; [split; auto; apply ev_refl|].
  unfold bindW. destruct (steady_alloc e (complement (val w r)) w F) as [E1 F1].
  pose proof (alloc_ok (complement (val w r)) w) as L.
  destruct (alloc (complement (val w r)) w) as [w1 [k|x]]; cbn [fst snd] in *; auto.
  destruct (obj_ok' w1 r F1) as [P [Q S]].
  destruct (remember_steady e w1 r (mkCobj (val w1 r) (ob_ansi (obj w1 r)) (Some k) (ob_contrast (obj w1 r)) (ob_groups (obj w1 r))) F1) as [E2 F2]; auto.
  { split; [|split]; cbn; auto. }
  { exact (headed' w1 r F1). }
  split; auto. eapply ev_trans; eauto.
Qed.
Lemma complement_ok : forall r w k, wf w -> snd (ocomplement r w) = Ok k -> okref (fst (ocomplement r w)) k.
Proof.
  intros r w k F. unfold ocomplement. destruct (ob_complement (obj w r)) as [a|] eqn:E.
  - cbn. intro H. injection H as <-. pose proof (proj1 (obj_ok' w r F)) as O. rewrite E in O. exact O.
  - unfold bindW. pose proof (alloc_ok (complement (val w r)) w) as L.
    destruct (alloc (complement (val w r)) w) as [w1 [q|x]]; cbn [fst snd] in *; [|discriminate].
    intro H. injection H as <-. specialize (L q eq_refl). unfold okref in *. cbn. now rewrite nth_set_nth_length.
Qed.
Lemma steady_as_background : forall e r s a, steady e (oas_background r s a).
Proof.
  intros e r s a w F. unfold oas_background. destruct (Bool.eqb _ _); [split; auto; apply ev_refl|]. now apply steady_alloc.
Qed.
Lemma as_background_ok : forall r s a w k, okref w r -> snd (oas_background r s a w) = Ok k ->
  okref (fst (oas_background r s a w)) k.
Proof.
  intros r s a w k L. unfold oas_background. destruct (Bool.eqb _ _).
  - cbn. intro H. injection H as <-. exact L.
  - apply alloc_ok.
Qed.
Lemma default_ok : forall w (b : bool), wf w -> okref w (if b then DEFAULT_BLACK_REF else DEFAULT_WHITE_REF).
Proof. intros w b [L _ _ _]. unfold okref, DEFAULT_BLACK_REF, DEFAULT_WHITE_REF. destruct b; lia. Qed.
Lemma steady_contrast : forall e e' r, steady e (ocontrast e' r).
Proof.
  intros e e' r w F. unfold ocontrast. destruct (ob_contrast (obj w r)) as [a|] eqn:E; [split; auto; apply ev_refl|].
  unfold bindW. set (d := if fltb _ _ then _ else _). assert (D : okref w d) by now apply default_ok.
  destruct (steady_as_background e d (c_bg (val w r)) None w F) as [E1 F1].
  pose proof (as_background_ok d (c_bg (val w r)) None w) as L.
  destruct (oas_background d (c_bg (val w r)) None w) as [w1 [k|x]]; cbn [fst snd] in *; auto.
  destruct (obj_ok' w1 r F1) as [P [Q S]].
  destruct (remember_steady e w1 r (mkCobj (val w1 r) (ob_ansi (obj w1 r)) (ob_complement (obj w1 r)) (Some k) (ob_groups (obj w1 r))) F1) as [E2 F2]; auto.
  { split; [|split]; cbn; auto. }
  { exact (headed' w1 r F1). }
  split; auto. eapply ev_trans; eauto.
Qed.
Lemma contrast_ok : forall e r w k, wf w -> snd (ocontrast e r w) = Ok k -> okref (fst (ocontrast e r w)) k.
Proof.
  intros e r w k F. unfold ocontrast. destruct (ob_contrast (obj w r)) as [a|] eqn:E.
  - cbn. intro H. injection H as <-. pose proof (proj1 (proj2 (obj_ok' w r F))) as O. rewrite E in O. exact O.
  - unfold bindW. set (d := if fltb _ _ then _ else _). assert (D : okref w d) by now apply default_ok.
    pose proof (as_background_ok d (c_bg (val w r)) None w) as L.
    destruct (oas_background d (c_bg (val w r)) None w) as [w1 [q|x]]; cbn [fst snd] in *; [|discriminate].
    intro H. injection H as <-. specialize (L q D eq_refl). unfold okref in *. cbn. now rewrite nth_set_nth_length.
Qed.
Lemma blend_find_ok' : forall w k l r, Forall (fun kr => okref w (snd kr)) l -> blend_find k l = Some r -> okref w r.
Proof.
  intros w k l r F. induction F as [|[k' q] l H F IH]; cbn; [discriminate|]. destruct (bkey_eqb k' k); auto.
  intro E. injection E as <-. exact H.
Qed.
Lemma blend_put_ok' : forall w k l r, Forall (fun kr => okref w (snd kr)) l -> okref w r ->
  Forall (fun kr : bkey * ref => okref w (snd kr)) (blend_put k r l).
Proof.
  intros w k l r F H. unfold blend_put. apply Forall_firstn'. constructor; auto. now apply Forall_filter'.
Qed.
Lemma put_steady : forall e w k r, wf w -> okref w r ->
  evolves e w (set_blends (blend_put k r (w_blends w)) w) /\ wf (set_blends (blend_put k r (w_blends w)) w).
Proof.
  intros e w k r [L O B Hd] H. split; [now apply ev_same|]. constructor; auto. cbn. now apply blend_put_ok'.
Qed.
Lemma steady_blend : forall e i j a bg sh, steady e (oblend i j a bg sh).
Proof.
  intros e i j a bg sh w F. unfold oblend. destruct (blend_find _ _) as [r|] eqn:E.
  - cbn [fst]. apply put_steady; auto. eapply blend_find_ok'; [apply (wf_blends _ F)|eauto].
  - unfold bindW. destruct (steady_alloc e (blend (val w i) (val w j) a bg) w F) as [E1 F1].
    pose proof (alloc_ok (blend (val w i) (val w j) a bg) w) as L.
    destruct (alloc (blend (val w i) (val w j) a bg) w) as [w1 [k|x]]; cbn [fst snd] in *; auto.
    destruct (put_steady e w1 (val w i, val w j, a, bg, sh) k F1 (L k eq_refl)). split; auto. eapply ev_trans; eauto.
Qed.
Lemma blend_ok' : forall i j a bg sh w r, wf w -> snd (oblend i j a bg sh w) = Ok r -> okref (fst (oblend i j a bg sh w)) r.
Proof.
  intros i j a bg sh w r F. unfold oblend. destruct (blend_find _ _) as [q|] eqn:E.
  - cbn. intro H. injection H as <-. apply (blend_find_ok' w _ _ _ (wf_blends _ F) E).
  - unfold bindW. pose proof (alloc_ok (blend (val w i) (val w j) a bg) w) as L.
    destruct (alloc (blend (val w i) (val w j) a bg) w) as [w1 [k|x]]; cbn [fst snd] in *; [|discriminate].
    intro H. injection H as <-. exact (L k eq_refl).
Qed.

(** * Groups *)
Lemma steady_hue_shift : forall e r a, steady e (ohue_shift r a).
Proof. intros e r a w F. unfold ohue_shift. now apply steady_alloc. Qed.
Lemma steady_make_group : forall e g r, steady e (omake_group g r).
Proof.
  intros e [] r; cbn [omake_group].
  - apply steady_bind; [apply steady_hue_shift|intro]. apply steady_bind; [apply steady_hue_shift|intro]. apply steady_ret.
  - apply steady_bind; [apply steady_hue_shift|intro]. apply steady_bind; [apply steady_hue_shift|intro]. apply steady_ret.
  - apply steady_bind; [apply steady_hue_shift|intro]. apply steady_bind; [apply steady_complement|intro].
    apply steady_bind; [apply steady_hue_shift|intro]. apply steady_ret.
Qed.
(** A bind whose parts give references that exist *)
Definition gives {A} (P : world -> A -> Prop) (m : W A) (w : world) : Prop :=
  forall a, snd (m w) = Ok a -> P (fst (m w)) a.
Lemma gives_bind : forall A B e (P : world -> A -> Prop) (Q : world -> B -> Prop) (m : W A) (k : A -> W B) w,
  wf w -> steady e m -> gives P m w ->
  (forall w' a, wf w' -> evolves e w w' -> P w' a -> gives Q (k a) w') -> gives Q (bindW m k) w.
Proof.
  intros A B e P Q m k w F S G K b. unfold bindW. unfold gives in G. destruct (S w F) as [E1 F1].
  destruct (m w) as [w1 [a|x]]; cbn [fst snd] in *; [|discriminate]. exact (K w1 a F1 E1 (G a eq_refl) b).
Qed.
Lemma make_group_head : forall g r w ks, snd (omake_group g r w) = Ok ks -> exists t, ks = r :: t.
Proof.
  intros [] r w ks; cbn [omake_group]; unfold bindW; intro H.
  - destruct (ohue_shift r (flit 1 3) w) as [w1 [a|x]]; [|discriminate].
    destruct (ohue_shift r (flit 2 3) w1) as [w2 [b|x]]; [|discriminate]. injection H as <-. eauto.
  - destruct (ohue_shift r (flit 1 12) w) as [w1 [a|x]]; [|discriminate].
    destruct (ohue_shift r (flit 2 12) w1) as [w2 [b|x]]; [|discriminate]. injection H as <-. eauto.
  - destruct (ohue_shift r (flit 1 4) w) as [w1 [a|x]]; [|discriminate].
    destruct (ocomplement r w1) as [w2 [k|x]]; [|discriminate].
    destruct (ohue_shift r (flit 3 4) w2) as [w3 [b|x]]; [|discriminate]. injection H as <-. eauto.
Qed.
Definition okor (r : ref) (w : world) (k : ref) : Prop := k = r \/ okref w k.
Lemma okor_ev : forall e r w w' k, evolves e w w' -> okor r w k -> okor r w' k.
Proof. intros e r w w' k E [H|H]; [now left|right; eapply ok_ev; eauto]. Qed.
Lemma make_group_ok : forall g r w, wf w -> gives (fun w => Forall (okor r w)) (omake_group g r) w.
Proof.
  assert (Sh : forall r a w, gives (okor r) (ohue_shift r a) w).
  { intros r a w k H. unfold ohue_shift in *. right. now apply alloc_ok. }
  pose (e := {| env_cs := TRUE_COLOR; env_pow := fun x _ => x |}).
  intros [] r w F; cbn [omake_group].
  - eapply gives_bind with (e := e); [auto|apply steady_hue_shift|apply Sh|]. intros w1 a F1 E1 O1.
    eapply gives_bind with (e := e); [auto|apply steady_hue_shift|apply Sh|]. intros w2 b F2 E2 O2 l H.
    injection H as <-. cbn [fst retW]. constructor; [now left|]. constructor; [eapply okor_ev; eauto|]. auto.
  - eapply gives_bind with (e := e); [auto|apply steady_hue_shift|apply Sh|]. intros w1 a F1 E1 O1.
    eapply gives_bind with (e := e); [auto|apply steady_hue_shift|apply Sh|]. intros w2 b F2 E2 O2 l H.
    injection H as <-. cbn [fst retW]. constructor; [now left|]. constructor; [eapply okor_ev; eauto|]. auto.
  - eapply gives_bind with (e := e); [auto|apply steady_hue_shift|apply Sh|]. intros w1 a F1 E1 O1.
    eapply gives_bind with (e := e) (P := okor r); [auto|apply steady_complement| |].
    { intros k H. right. now apply complement_ok. }
    intros w2 k F2 E2 O2.
    eapply gives_bind with (e := e); [auto|apply steady_hue_shift|apply Sh|]. intros w3 b F3 E3 O3 l H.
    injection H as <-. cbn [fst retW]. constructor; [now left|].
    constructor; [eapply okor_ev; [eauto|]; eapply okor_ev; eauto|]. constructor; [eapply okor_ev; eauto|]. auto.
Qed.
Lemma set_nth_out : forall A n (a : A) l, (List.length l <= n)%nat -> set_nth n a l = l.
Proof. intros A n a l. revert n. induction l as [|x l IH]; intros [|n] H; cbn in *; auto; [lia|]. rewrite IH; auto. lia. Qed.
Lemma okor_all : forall r w ks, okref w r -> Forall (okor r w) ks -> Forall (okref w) ks.
Proof. intros r w ks O H. eapply Forall_impl; [|exact H]. intros k [->|K]; auto. Qed.
Lemma steady_group : forall e g r, steady e (ogroup g r).
Proof.
  intros e g r w F. unfold ogroup. destruct (group_find g (ob_groups (obj w r))) as [ks|] eqn:E; [split; auto; apply ev_refl|].
  unfold bindW. destruct (steady_make_group e g r w F) as [E1 F1]. pose proof (make_group_ok g r w F) as L.
  pose proof (make_group_head g r w) as Hd.
  unfold gives in L. destruct (omake_group g r w) as [w1 [ks|x]]; cbn [fst snd] in *; auto.
  specialize (L ks eq_refl). destruct (obj_ok' w1 r F1) as [P [Q S]].
  destruct (Nat.lt_ge_cases r (List.length (w_objs w1))) as [O|O].
  - destruct (remember_steady e w1 r (mkCobj (val w1 r) (ob_ansi (obj w1 r)) (ob_complement (obj w1 r))
      (ob_contrast (obj w1 r)) ((g, ks) :: ob_groups (obj w1 r))) F1) as [E2 F2]; auto.
    { split; [|split]; cbn; auto. constructor; auto. cbn. now apply (okor_all r). }
    { intros g' ks' [Eg|Eg]; [injection Eg as <- <-; auto|]. exact (headed' w1 r F1 g' ks' Eg). }
    split; auto. eapply ev_trans; eauto.
  - rewrite set_nth_out; auto. destruct w1. auto.
Qed.
Lemma group_head : forall g r w ks, wf w -> snd (ogroup g r w) = Ok ks -> exists t, ks = r :: t.
Proof.
  intros g r w ks F. unfold ogroup. destruct (group_find g (ob_groups (obj w r))) as [ks'|] eqn:E.
  - cbn. intro H. injection H as <-. apply group_find_in in E. exact (headed' w r F g ks' E).
  - unfold bindW. pose proof (make_group_head g r w) as Hd.
    destruct (omake_group g r w) as [w1 [l|x]]; cbn [fst snd] in *; [|discriminate]. intro H. injection H as <-. auto.
Qed.
Lemma group_ok : forall g r w, wf w -> okref w r -> gives (fun w => Forall (okref w)) (ogroup g r) w.
Proof.
  pose (e := {| env_cs := TRUE_COLOR; env_pow := fun x _ => x |}).
  intros g r w F O. unfold gives, ogroup. destruct (group_find g (ob_groups (obj w r))) as [ks|] eqn:E.
  - cbn. intros a H. injection H as <-. apply group_find_in in E.
    destruct (obj_ok' w r F) as [_ [_ S]]. exact (proj1 (Forall_forall _ _) S _ E).
  - unfold bindW. destruct (steady_make_group e g r w F) as [E1 F1]. pose proof (make_group_ok g r w F) as L.
    unfold gives in L. destruct (omake_group g r w) as [w1 [ks|x]]; cbn [fst snd] in *; [|discriminate].
    specialize (L ks eq_refl). apply (okor_all r) in L; [|eapply ok_ev; eauto].
    intros a H. injection H as <-. eapply Forall_impl; [|exact L]. intros k K. unfold okref in *. cbn.
    now rewrite nth_set_nth_length.
Qed.

(** * Color operations *)
Lemma steady_cop : forall e colors c, steady e (run_cop e colors c).
Proof.
  assert (T : forall e (f : world -> res color), steady e (fun w => alloc (f w) w)).
  { intros e f w F. now apply steady_alloc. }
  intros e colors c. destruct c; cbn [run_cop].
  - apply steady_alloc.
  - apply steady_bind; [apply steady_lift|]. intro r. apply (T e (fun w => as_alpha (val w r) a)).
  - apply steady_bind; [apply steady_lift|]. intro r. apply (T e (fun w => hue_shift (val w r) a)).
  - apply steady_bind; [apply steady_lift|]. intro r. apply steady_as_background.
  - apply steady_bind; [apply steady_lift|]. intro r. apply steady_bind; [apply steady_lift|]. intro q. apply steady_blend.
  - apply steady_bind; [apply steady_lift|]. intro r. apply steady_bind; [apply steady_lift|]. intro. apply steady_blend.
  - apply steady_bind; [apply steady_lift|]. intro r. apply steady_bind; [apply steady_lift|]. intro. apply steady_blend.
  - apply steady_bind; [apply steady_lift|]. intro r. apply steady_complement.
  - apply steady_bind; [apply steady_lift|]. intro r. apply steady_contrast.
  - apply steady_bind; [apply steady_lift|]. intro r. apply steady_bind; [apply steady_complement|]. intro. apply steady_blend.
  - unfold owhite. destruct bg; [apply steady_as_background|apply steady_ret].
  - unfold oblack. destruct bg; [apply steady_as_background|apply steady_ret].
  - apply steady_bind; [apply steady_lift|]. intro r. apply steady_bind; [apply steady_group|]. intro. apply steady_lift.
Qed.
Lemma getc_ok : forall A (P : A -> Prop) l i a, Forall P l -> getc l i = Ok a -> P a.
Proof.
  intros A P l i a F. unfold getc. destruct (nth_error l i) as [x|] eqn:E; [|discriminate]. intro H. injection H as <-.
  apply nth_error_In in E. exact (proj1 (Forall_forall _ _) F _ E).
Qed.
Lemma cop_ok : forall e colors c w r, wf w -> Forall (okref w) colors -> snd (run_cop e colors c w) = Ok r ->
  okref (fst (run_cop e colors c w)) r.
Proof.
  intros e colors c w r F O. destruct c; cbn [run_cop]; unfold bindW, liftW; cbn [fst snd].
  - apply alloc_ok.
  - destruct (getc colors i) as [k|x]; cbn [fst snd]; [apply alloc_ok|discriminate].
  - destruct (getc colors i) as [k|x]; cbn [fst snd]; [apply alloc_ok|discriminate].
  - destruct (getc colors i) as [k|x] eqn:E; cbn [fst snd]; [|discriminate]. apply as_background_ok. eapply getc_ok; eauto.
  - destruct (getc colors i) as [k|x]; cbn [fst snd]; [|discriminate].
    destruct (getc colors j) as [q|x]; cbn [fst snd]; [|discriminate]. now apply blend_ok'.
  - destruct (getc colors i) as [k|x]; cbn [fst snd]; [|discriminate]. unfold olighten, bindW, liftW.
    destruct (shade_alpha n step); cbn [fst snd]; [now apply blend_ok'|discriminate].
  - destruct (getc colors i) as [k|x]; cbn [fst snd]; [|discriminate]. unfold odarken, bindW, liftW.
    destruct (shade_alpha n step); cbn [fst snd]; [now apply blend_ok'|discriminate].
  - destruct (getc colors i) as [k|x]; cbn [fst snd]; [|discriminate]. now apply complement_ok.
  - destruct (getc colors i) as [k|x]; cbn [fst snd]; [|discriminate]. now apply contrast_ok.
  - destruct (getc colors i) as [k|x]; cbn [fst snd]; [|discriminate]. unfold oblend_complement, bindW.
    destruct (steady_complement e k w F) as [_ F1].
    destruct (ocomplement k w) as [w1 [q|x]]; cbn [fst snd] in *; [now apply blend_ok'|discriminate].
  - unfold owhite. destruct F as [L _ _ _]. destruct bg; [apply as_background_ok|cbn; intro H; injection H as <-];
      unfold okref, WHITE_REF; lia.
  - unfold oblack. destruct F as [L _ _ _]. destruct bg; [apply as_background_ok|cbn; intro H; injection H as <-];
      unfold okref, BLACK_REF; lia.
  - destruct (getc colors i) as [q|x] eqn:E; cbn [fst snd]; [|discriminate].
    assert (Q : okref w q) by (eapply getc_ok; eauto). pose proof (group_ok g q w F Q) as L. unfold gives in L.
    destruct (ogroup g q w) as [w1 [ks|x]]; cbn [fst snd] in *; [|discriminate].
    intro H. eapply getc_ok; [exact (L ks eq_refl)|exact H].
Qed.

(** * Spans and writing *)
Lemma steady_opt_ansi : forall e o, steady e (opt_ansi e o).
Proof.
  intros e [r|]; cbn; [|apply steady_ret]. apply steady_bind; [apply steady_ansi|]. intro. apply steady_ret.
Qed.
Lemma steady_new_span : forall e t a b l f rs, steady e (new_span e t a b l f rs).
Proof.
  intros. unfold new_span. apply steady_bind; [apply steady_opt_ansi|intro].
  apply steady_bind; [apply steady_opt_ansi|intro]. apply steady_ret.
Qed.
Lemma steady_get_blended : forall e a b bg add, steady e (oget_blended a b bg add).
Proof.
  intros e [a|] [b|] bg add; cbn [oget_blended]; try apply steady_ret.
  intros w F. destruct (feqb _ _); [split; auto; apply ev_refl|].
  apply (steady_bind _ _ e _ _ (steady_blend e a b _ bg 2) (fun r => steady_ret _ e (Some r)) w F).
Qed.
Lemma steady_stack : forall e st lst bl fg b, steady e (oblend_stack st lst bl fg b).
Proof.
  intros e st. induction st as [|c st IH]; intros lst bl fg b; cbn [oblend_stack]; [apply steady_ret|].
  intros w F. destruct (match lst with Some l => _ | None => false end); [now apply IH|].
  apply steady_bind; auto; [apply steady_get_blended|intro]. apply steady_bind; [|intro; apply IH].
  destruct b; [apply steady_get_blended|apply steady_ret].
Qed.
Lemma steady_finish : forall e tb c st, steady e (ofinish_cell tb c st).
Proof.
  intros e tb [[[ch fg] bg] bl] st. unfold ofinish_cell. apply steady_bind; [apply steady_stack|]. intros [b f].
  apply steady_bind.
  { intros w F. destruct (ohas_alpha w b); [now apply steady_get_blended|split; auto; apply ev_refl]. }
  intro. apply steady_bind; [|intro; apply steady_ret].
  intros w F. destruct (ohas_alpha w f); [now apply steady_get_blended|split; auto; apply ev_refl].
Qed.
Lemma steady_entry : forall e c nl, steady e (ocell_entry e c nl).
Proof.
  intros e [[ch f] g] nl. unfold ocell_entry. apply steady_bind; [apply steady_opt_ansi|intro].
  apply steady_bind; [apply steady_opt_ansi|intro]. apply steady_ret.
Qed.
Definition world_of {A B C D} (x : A * B * C * world * D) : world := snd (fst x).
Lemma steady_row : forall e tb row ar x y cells buf n w, wf w ->
  evolves e w (world_of (ocommit_row e tb row ar x y cells buf n w)) /\ wf (world_of (ocommit_row e tb row ar x y cells buf n w)).
Proof.
  intros e tb row. induction row as [|[c|] row IH]; intros ar x y cells buf n w F; cbn [ocommit_row]; auto.
  - split; auto. apply ev_refl.
  - destruct (steady_finish e tb c (hd [] ar) w F) as [E1 F1].
    destruct (ofinish_cell tb c (hd [] ar) w) as [w1 [[new nl]|ex]]; cbn [fst] in *; auto.
    destruct (mget cells x y) as [old|]; auto. destruct (ocell_eqb w1 new old).
    + destruct (IH (tl ar) (x + 1) y cells buf n w1 F1) as [E2 F2]. split; auto. eapply ev_trans; eauto.
    + destruct (steady_entry e new nl w1 F1) as [E2 F2].
      destruct (ocell_entry e new nl w1) as [w2 [en|ex]]; cbn [fst] in *.
      * destruct (IH (tl ar) (x + 1) y (mset cells x y new) (buf_set (x, y) en buf) (n + 1) w2 F2) as [E3 F3].
        split; auto. eapply ev_trans; [|eauto]. eapply ev_trans; eauto.
      * split; auto. eapply ev_trans; eauto.
Qed.
Lemma steady_commit : forall e tb wm am y cells buf n w, wf w ->
  evolves e w (world_of (ocommit e tb wm am y cells buf n w)) /\ wf (world_of (ocommit e tb wm am y cells buf n w)).
Proof.
  intros e tb wm. induction wm as [|row wm IH]; intros am y cells buf n w F; cbn [ocommit]; auto.
  - split; auto. apply ev_refl.
  - destruct (steady_row e tb row (hd [] am) 0 y cells buf n w F) as [E1 F1].
    destruct (ocommit_row e tb row (hd [] am) 0 y cells buf n w) as [[[[c1 b1] n1] w1] [ex|]]; unfold world_of in E1, F1; cbn [fst snd] in E1, F1; auto.
    destruct (IH (tl am) (y + 1) c1 b1 n1 w1 F1) as [E2 F2]. split; auto. eapply ev_trans; eauto.
Qed.
Lemma chars_steady : forall e w c, wf w -> evolves e w (set_chars c w) /\ wf (set_chars c w).
Proof. intros e w c [L O B]. split; [now apply ev_same|]. constructor; auto. Qed.
Lemma steady_write : forall e sc d tb w, wf w ->
  evolves e w (snd (fst (owrite_bulk e sc d tb w))) /\ wf (snd (fst (owrite_bulk e sc d tb w))).
Proof.
  intros e sc d tb w F. unfold owrite_bulk. cbv zeta.
  destruct (oplace_all _ _ _ _ _) as [st [?|x]]; cbn [fst snd]; [|now apply chars_steady].
  destruct (chars_steady e w (ow_cache st) F) as [E1 F1].
  destruct (steady_commit e tb (ow_wm st) (ow_am st) 0 (ow_cells st) (sco_buf sc) 0 _ F1) as [E2 F2].
  destruct (ocommit _ _ _ _ _ _ _ _ _) as [[[[c1 b1] n1] w1] ex]. unfold world_of in E2, F2; cbn [fst snd] in *.
  split; auto. eapply ev_trans; eauto.
Qed.

(** * Programs *)
Record inv (e : env) (l : list colorspace) (m : machine) : Prop := {
  in_wf : wf (m_world m);
  in_colors : Forall (okref (m_world m)) (m_colors m);
  in_pow : env_pow (m_env m) = env_pow e;
  in_cs : In (env_cs (m_env m)) l;
  in_ansi : forall r o a, nth_error (w_objs (m_world m)) r = Some o -> ob_ansi o = Some a ->
    exists c, In c l /\ a = color_ansi (at_space e c) (ob_color o)
}.
Lemma env_at : forall e l m, inv e l m -> m_env m = at_space e (env_cs (m_env m)).
Proof. intros e l m I. unfold at_space. rewrite <- (in_pow _ _ _ I). now destruct (m_env m). Qed.
Lemma inv_evolves : forall e l w w' cs cs' ss ss' sc sc' en, inv e l (mkMachine w cs ss sc en) -> evolves en w w' -> wf w' ->
  Forall (okref w') cs' -> inv e l (mkMachine w' cs' ss' sc' en).
Proof.
  intros e l w w' cs cs' ss ss' sc sc' en I Ev F O. pose proof (env_at _ _ _ I) as Ea. destruct I as [A B C D G]. cbn in *.
  constructor; cbn; auto. intros r o a N H. destruct (ev_new _ _ _ Ev r o a N H) as [->|[o1 [N1 [H1 E1]]]].
  - exists (env_cs en). split; [exact D|]. now rewrite <- Ea.
  - rewrite E1. eapply G; eauto.
Qed.
Lemma colors_ev : forall e w w' cs, evolves e w w' -> Forall (okref w) cs -> Forall (okref w') cs.
Proof. intros e w w' cs E F. eapply Forall_impl; [|exact F]. intros r. now apply (ok_ev e). Qed.

Definition grown (m m' : machine) : Prop :=
  (exists t, m_colors m' = m_colors m ++ t) /\
  forall r o, nth_error (w_objs (m_world m)) r = Some o -> exists o', nth_error (w_objs (m_world m')) r = Some o' /\
    ob_color o' = ob_color o /\ (forall a, ob_ansi o = Some a -> ob_ansi o' = Some a).
Lemma grown_refl : forall m, grown m m.
Proof. intro m. split; [exists []; now rewrite app_nil_r|]. eauto. Qed.
Lemma grown_trans : forall a b c, grown a b -> grown b c -> grown a c.
Proof.
  intros a b c [[t Et] K1] [[s Es] K2]. split.
  - exists (t ++ s). now rewrite Es, Et, app_assoc.
  - intros r o H. destruct (K1 _ _ H) as [o1 [H1 [E1 A1]]]. destruct (K2 _ _ H1) as [o2 [H2 [E2 A2]]].
    exists o2. split; auto. split; [congruence|auto].
Qed.
Lemma step_inv : forall e l o m, inv e l m -> (forall c, o = OSpace c -> In c l) ->
  inv e l (fst (ostep o m)) /\ grown m (fst (ostep o m)).
Proof.
  intros e l o [w cs ss sc en] I HS. pose proof I as [F O P C G]. cbn [m_world m_colors m_env] in *.
  assert (K : forall w' cs' ss' sc' t, evolves en w w' -> wf w' -> cs' = cs ++ t -> Forall (okref w') cs' ->
     inv e l (mkMachine w' cs' ss' sc' en) /\ grown (mkMachine w cs ss sc en) (mkMachine w' cs' ss' sc' en)).
  { intros w' cs' ss' sc' t E F' Ec O'. split; [eapply inv_evolves; eauto|]. split; [exists t; auto|]. cbn. apply (ev_keep _ _ _ E). }
  assert (K0 : forall w' ss' sc', evolves en w w' -> wf w' ->
     inv e l (mkMachine w' cs ss' sc' en) /\ grown (mkMachine w cs ss sc en) (mkMachine w' cs ss' sc' en)).
  { intros w' ss' sc' E F'. apply K with (t := []); auto. - now rewrite app_nil_r. - eapply colors_ev; eauto. }
  destruct o; cbn [ostep].
  - destruct (steady_cop en cs c w F) as [E1 F1]. pose proof (cop_ok en cs c w) as L.
    destruct (run_cop en cs c w) as [w1 [r|x]]; cbn [fst snd] in *; [|now apply K0].
    apply K with (t := [r]); auto. apply Forall_app1; auto. eapply colors_ev; eauto.
  - cbn [fst]. split; auto. apply grown_refl.
  - destruct (getc cs i) as [r|x]; [|split; auto; apply grown_refl].
    destruct (steady_ansi en r w F) as [E1 F1]. destruct (oansi en r w) as [w1 [a|x]]; cbn [fst] in *; now apply K0.
  - assert (S : steady en (let! a := liftW (getopt cs fg) in let! b := liftW (getopt cs bg) in new_span en text a b link f reset)).
    { apply steady_bind; [apply steady_lift|intro]. apply steady_bind; [apply steady_lift|intro]. apply steady_new_span. }
    destruct (S w F) as [E1 F1]. destruct (bindW _ _ w) as [w1 [s|x]]; cbn [fst] in *; now apply K0.
  - cbn [fst]. split; auto. apply grown_refl.
  - destruct (getc ss k) as [s|x]; [|split; auto; apply grown_refl].
    destruct (ocharacters (w_objs w) (w_chars w) s exclude always) as [l' c]. cbn [fst].
    destruct (chars_steady en w c F). now apply K0.
  - destruct (getdata ss data) as [d|x]; [|split; auto; apply grown_refl].
    destruct (getopt cs tb) as [t|x]; [|split; auto; apply grown_refl].
    destruct (steady_write en sc d (match t with Some t => t | None => BLACK_REF end) w F) as [E1 F1].
    destruct (owrite_bulk _ _ _ _ _) as [[sc1 w1] r1]. cbn [fst snd] in *. now apply K0.
  - cbn [fst]. apply K0; auto. apply ev_refl.
  - cbn [fst]. apply K0; auto. apply ev_refl.
  - destruct (orender sc origin redraw) as [t sc1]. cbn [fst]. apply K0; auto. apply ev_refl.
  - cbn [fst]. split; [|split; [exists []; cbn; now rewrite app_nil_r|cbn; eauto]].
    constructor; cbn; auto.
Qed.
Lemma run_inv : forall e l prog m, inv e l m -> (forall c, In c (spaces prog) -> In c l) ->
  inv e l (fst (orun prog m)) /\ grown m (fst (orun prog m)).
Proof.
  intros e l prog. induction prog as [|o prog IH]; intros m I H; cbn [orun fst].
  - split; auto. apply grown_refl.
  - destruct (step_inv e l o m I) as [I1 G1].
    { intros c ->. apply H. cbn. auto. }
    destruct (ostep o m) as [m1 a]. cbn [fst] in *. destruct (IH m1 I1) as [I2 G2].
    { intros c Hc. apply H. unfold spaces in *. cbn. apply in_or_app. auto. }
    destruct (orun prog m1) as [m2 t]. cbn [fst] in *. split; auto. eapply grown_trans; eauto.
Qed.
Lemma world0_wf : wf world0.
Proof.
  constructor; [cbn; lia|repeat constructor|constructor|].
  intros r o N. do 4 (destruct r as [|r]; [injection N as <-; intros g ks []|]). destruct r; discriminate.
Qed.
Lemma start_inv : forall e l w h, In (env_cs e) l -> inv e l (machine0 e w h).
Proof.
  intros e l w h H. constructor; cbn; auto; [apply world0_wf|].
  intros r o a N A. do 4 (destruct r as [|r]; [cbn in N; injection N as <-; discriminate|]). destruct r; discriminate.
Qed.

Lemma orun_app : forall p q m, orun (p ++ q) m =
  (fst (orun q (fst (orun p m))), snd (orun p m) ++ snd (orun q (fst (orun p m)))).
Proof.
  intros p. induction p as [|o p IH]; intros q m; cbn [app orun fst snd].
  - now destruct (orun q m).
  - destruct (ostep o m) as [m1 a]. rewrite IH. destruct (orun p m1) as [m2 t]. cbn [fst snd]. reflexivity.
Qed.
Lemma orun_length : forall p m, List.length (snd (orun p m)) = List.length p.
Proof.
  intros p. induction p as [|o p IH]; intros m; cbn [orun]; auto. destruct (ostep o m) as [m1 a].
  specialize (IH m1). destruct (orun p m1) as [m2 t]. cbn [snd List.length] in *. now rewrite IH.
Qed.
Lemma run_ansi : forall i m, snd (orun [OAnsi i] m) =
  [match getc (m_colors m) i with
   | Err x => SErr x
   | Ok r => match snd (oansi (m_env m) r (m_world m)) with Ok a => SStr a | Err x => SErr x end
   end].
Proof.
  intros i [w cs ss sc e]. cbn [orun ostep m_colors m_env m_world]. destruct (getc cs i) as [r|x]; auto.
  destruct (oansi e r w) as [w1 [a|x]]; reflexivity.
Qed.

(** A color whose sequence has been read keeps it *)
Theorem ansi_sticky : forall e w h p q i a,
  snd (orun (p ++ [OAnsi i]) (machine0 e w h)) = snd (orun p (machine0 e w h)) ++ [SStr a] ->
  snd (orun (p ++ [OAnsi i] ++ q ++ [OAnsi i]) (machine0 e w h)) =
  snd (orun (p ++ [OAnsi i] ++ q) (machine0 e w h)) ++ [SStr a].
Proof.
  intros e w h p q i a. set (m0 := machine0 e w h). rewrite orun_app. cbn [snd]. intro H. apply app_inv_head in H.
  set (l := env_cs e :: spaces p ++ spaces q).
  assert (I0 : inv e l m0) by (apply start_inv; left; auto).
  destruct (run_inv e l p m0 I0) as [I1 _]. { intros c Hc. right. apply in_or_app. auto. }
  set (m1 := fst (orun p m0)) in *.
  destruct (run_inv e l [OAnsi i] m1 I1) as [I2 G2]. { intros c []. }
  set (m2 := fst (orun [OAnsi i] m1)) in *.
  destruct (run_inv e l q m2 I2) as [I3 G3]. { intros c Hc. right. apply in_or_app. auto. }
  set (m3 := fst (orun q m2)) in *.
  replace (p ++ [OAnsi i] ++ q ++ [OAnsi i]) with ((p ++ [OAnsi i] ++ q) ++ [OAnsi i]) by now rewrite <- !app_assoc.
  rewrite (orun_app (p ++ [OAnsi i] ++ q)). cbn [snd]. f_equal.
  replace (fst (orun (p ++ [OAnsi i] ++ q) m0)) with m3.
  2:{ rewrite !orun_app. reflexivity. }
  rewrite run_ansi in H. injection H as H. destruct (getc (m_colors m1) i) as [r|x] eqn:E; [|discriminate].
  destruct (ansi_read (m_env m1) r (m_world m1)) as [b [Eb [_ Kb]]]. rewrite Eb in H. cbn [snd] in H. injection H as ->.
  assert (L : okref (m_world m1) r) by (eapply getc_ok; [apply (in_colors _ _ _ I1)|eauto]). specialize (Kb L).
  assert (W2 : m_world m2 = fst (oansi (m_env m1) r (m_world m1)) /\ m_colors m2 = m_colors m1).
  { subst m2. clear -E Eb. destruct m1 as [wd cs ss sc en]. cbn [m_colors m_env m_world orun ostep] in *. rewrite E.
    destruct (oansi en r wd) as [w1 [c|x]]; auto. }
  destruct W2 as [W2 C2]. rewrite run_ansi.
  assert (E3 : getc (m_colors m3) i = Ok r).
  { destruct (proj1 G3) as [t ->]. rewrite C2. unfold getc in *. destruct (nth_error (m_colors m1) i) as [k|] eqn:N; [|discriminate].
    rewrite nth_error_app1; [now rewrite N|]. apply nth_error_Some. congruence. }
  rewrite E3. destruct (ansi_read (m_env m3) r (m_world m3)) as [c [Ec [Rc _]]]. rewrite Ec. cbn [snd]. do 2 f_equal.
  assert (A3 : ob_ansi (obj (m_world m3) r) = Some a).
  { rewrite <- W2 in Kb. destruct (nth_error (w_objs (m_world m2)) r) as [o|] eqn:N.
    - rewrite (obj_nth _ _ _ N) in Kb. destruct (proj2 G3 _ _ N) as [o' [N' [_ K]]]. rewrite (obj_nth _ _ _ N'). auto.
    - exfalso. apply nth_error_None in N. rewrite W2 in N. unfold okref in L.
      destruct (steady_ansi (m_env m1) r (m_world m1) (in_wf _ _ _ I1)) as [Ev _]. apply ev_len in Ev. lia. }
  destruct Rc as [Rc|[Rc _]]; congruence.
Qed.

(** Every sequence read is the color's in some space that was in force *)
Theorem ansi_some_space : forall e w h p i v a,
  snd (orun (p ++ [OLook i; OAnsi i]) (machine0 e w h)) = snd (orun p (machine0 e w h)) ++ [SColor v; SStr a] ->
  exists c, In c (env_cs e :: spaces p) /\ a = color_ansi (at_space e c) v.
Proof.
  intros e w h p i v a. rewrite orun_app. cbn [snd]. intro H. apply app_inv_head in H.
  set (l := env_cs e :: spaces p). assert (I0 : inv e l (machine0 e w h)) by (apply start_inv; left; auto).
  destruct (run_inv e l p _ I0) as [I1 _]. { intros c Hc. now right. }
  set (m1 := fst (orun p (machine0 e w h))) in *. pose proof (env_at _ _ _ I1) as Ea. destruct I1 as [F O P C G].
  destruct m1 as [wd cs ss sc en]. cbn [m_world m_env m_colors] in *.
  cbn [orun ostep snd] in H. destruct (getc cs i) as [r|x] eqn:E; [|discriminate].
  destruct (ansi_read en r wd) as [b [Eb [Rb _]]]. rewrite Eb in H. cbn [snd] in H. injection H as Hv ->.
  destruct Rb as [Rb|[_ ->]].
  - destruct (nth_error (w_objs wd) r) as [o|] eqn:N.
    + unfold val in Hv. rewrite (obj_nth _ _ _ N) in *. rewrite <- Hv. eapply G; eauto.
    + apply nth_error_None in N. unfold obj in Rb. rewrite nth_overflow in Rb; auto. discriminate.
  - exists (env_cs en). split; [exact C|]. now rewrite <- Ea, Hv.
Qed.

(** A new color is in the space in force *)
Theorem ansi_fresh : forall e w h p d v, color_of d = Ok v ->
  let m := fst (orun p (machine0 e w h)) in
  snd (orun (p ++ [OColor (CMake d); OAnsi (List.length (m_colors m))]) (machine0 e w h)) =
  snd (orun p (machine0 e w h)) ++ [SNone; SStr (color_ansi (m_env m) v)].
Proof.
  intros e w h p d v H m. rewrite orun_app. cbn [snd]. f_equal. fold m. destruct m as [wd cs ss sc en].
  cbn [orun ostep snd run_cop m_colors m_env]. rewrite H. cbn [alloc].
  cbn [ostep m_colors]. unfold getc. rewrite nth_error_app2, Nat.sub_diag; auto. cbn [nth_error].
  unfold oansi, val, obj. cbn [w_objs set_objs]. rewrite !app_nth2, Nat.sub_diag; auto.
Qed.

(** Forcing the space before anything else *)
Theorem space_first : forall e w h c prog, keeps_space prog ->
  snd (orun (OSpace c :: prog) (machine0 e w h)) = SNone :: snd (plain_run prog (plain0 (at_space e c) w h)).
Proof.
  intros e w h c prog K. rewrite <- (caches_hidden (at_space e c) w h prog K). cbn [orun ostep machine0].
  fold (machine0 (at_space e c) w h).
  change (mkMachine world0 [] [] (onew_screen w h (0, 0) (lit " ")) {| env_cs := c; env_pow := env_pow e |})
    with (machine0 (at_space e c) w h).
  now destruct (orun prog (machine0 (at_space e c) w h)).
Qed.

(** [Color.white()] is one object: what was read on it once is what every later one gives *)
Lemma white_ref : forall m, orun [OColor (CWhite false)] m =
  (mkMachine (m_world m) (m_colors m ++ [WHITE_REF]) (m_spans m) (m_screen m) (m_env m), [SNone]).
Proof. intros [w cs ss sc e]. reflexivity. Qed.
Theorem white_shared : forall e w h p q a,
  let m1 := fst (orun p (machine0 e w h)) in
  let p1 := p ++ [OColor (CWhite false); OAnsi (List.length (m_colors m1))] in
  snd (orun p1 (machine0 e w h)) = snd (orun p (machine0 e w h)) ++ [SNone; SStr a] ->
  let m2 := fst (orun (p1 ++ q) (machine0 e w h)) in
  snd (orun (p1 ++ q ++ [OColor (CWhite false); OAnsi (List.length (m_colors m2))]) (machine0 e w h)) =
  snd (orun (p1 ++ q) (machine0 e w h)) ++ [SNone; SStr a].
Proof.
  intros e w h p q a m1 p1 H m2. set (m0 := machine0 e w h) in *.
  set (l := env_cs e :: spaces p ++ spaces q).
  assert (I0 : inv e l m0) by (apply start_inv; left; auto).
  destruct (run_inv e l p m0 I0) as [I1 _]. { intros c Hc. right. apply in_or_app. auto. }
  fold m1 in I1. set (tail := [OColor (CWhite false); OAnsi (List.length (m_colors m1))]) in *.
  unfold p1 in H. rewrite orun_app in H. cbn [snd] in H. apply app_inv_head in H. fold m1 in H.
  destruct (run_inv e l tail m1 I1) as [I2 G2]. { intros c []. }
  set (m1' := fst (orun tail m1)) in *.
  destruct (run_inv e l q m1' I2) as [I3 G3]. { intros c Hc. right. apply in_or_app. auto. }
  assert (E2 : m2 = fst (orun q m1')).
  { unfold m2, p1. rewrite <- app_assoc, orun_app. cbn [fst]. fold m1. rewrite orun_app. reflexivity. }
  rewrite <- E2 in *. rewrite app_assoc, orun_app. cbn [snd]. fold m2. f_equal.
  assert (F1 : wf (m_world m1)) by apply I1. clear I0 I2. clearbody m2. 
  assert (K : ob_ansi (obj (m_world m1') WHITE_REF) = Some a).
  { unfold m1', tail in *. clear -H F1. destruct m1 as [wd cs ss sc en]. cbn [m_colors m_world] in *.
    change (orun [OColor (CWhite false); OAnsi (List.length cs)] (mkMachine wd cs ss sc en)) with
      (let '(m, t) := orun [OAnsi (List.length cs)] (mkMachine wd (cs ++ [WHITE_REF]) ss sc en) in (m, SNone :: t)) in *.
    pose proof (run_ansi (List.length cs) (mkMachine wd (cs ++ [WHITE_REF]) ss sc en)) as R. cbn [m_colors m_env m_world] in R.
    assert (N : getc (cs ++ [WHITE_REF]) (List.length cs) = Ok WHITE_REF).
    { unfold getc. rewrite nth_error_app2, Nat.sub_diag; auto. }
    rewrite N in R. destruct (ansi_read en WHITE_REF wd) as [b [Eb [_ Kb]]]. rewrite Eb in R. cbn [snd] in R.
    assert (L : okref wd WHITE_REF) by (unfold okref, WHITE_REF; destruct F1; lia). specialize (Kb L).
    cbn [orun ostep] in *. rewrite N in *. rewrite Eb in *. cbn [fst snd m_world] in *. injection H as ->. exact Kb. }
  assert (K2 : ob_ansi (obj (m_world m2) WHITE_REF) = Some a).
  { destruct (nth_error (w_objs (m_world m1')) WHITE_REF) as [o|] eqn:N.
    - rewrite (obj_nth _ _ _ N) in K. destruct (proj2 G3 _ _ N) as [o' [N' [_ K']]]. rewrite (obj_nth _ _ _ N'). auto.
    - apply nth_error_None in N. unfold obj in K. rewrite nth_overflow in K; auto. discriminate. }
  clear -K2. destruct m2 as [wd cs ss sc en]. cbn [m_colors m_world] in *. cbn [orun ostep run_cop owhite retW].
  assert (N : getc (cs ++ [WHITE_REF]) (List.length cs) = Ok WHITE_REF).
  { unfold getc. rewrite nth_error_app2, Nat.sub_diag; auto. }
  rewrite N. destruct (ansi_read en WHITE_REF wd) as [b [Eb [[Rb|[Rb _]] _]]]; rewrite Eb; cbn [snd]; congruence.
Qed.

Lemma orun_cons : forall o l m, snd (orun (o :: l) m) = snd (ostep o m) :: snd (orun l (fst (ostep o m))).
Proof. intros o l m. cbn [orun]. destruct (ostep o m) as [m1 a]. cbn [fst snd]. now destruct (orun l m1). Qed.
Lemma orun_one : forall o m, fst (orun [o] m) = fst (ostep o m).
Proof. intros o m. cbn [orun]. now destruct (ostep o m). Qed.

(** The first color of a group is the color itself *)
Theorem group_self : forall e w h p q g i a x,
  snd (orun (p ++ [OAnsi i]) (machine0 e w h)) = snd (orun p (machine0 e w h)) ++ [SStr a] ->
  let m := fst (orun (p ++ [OAnsi i] ++ q) (machine0 e w h)) in
  snd (orun ((p ++ [OAnsi i] ++ q) ++ [OColor (CGroup g i 0); OAnsi (List.length (m_colors m))]) (machine0 e w h)) =
  snd (orun (p ++ [OAnsi i] ++ q) (machine0 e w h)) ++ [SNone; x] -> x = SStr a.
Proof.
  intros e w h p q g i a x H m H2.
  pose proof (ansi_sticky e w h p (q ++ [OColor (CGroup g i 0)]) i a H) as S.
  set (p1 := p ++ [OAnsi i] ++ q) in *.
  replace (p ++ [OAnsi i] ++ (q ++ [OColor (CGroup g i 0)]) ++ [OAnsi i])
    with ((p1 ++ [OColor (CGroup g i 0)]) ++ [OAnsi i]) in S by (unfold p1; now rewrite <- !app_assoc).
  replace (p ++ [OAnsi i] ++ q ++ [OColor (CGroup g i 0)]) with (p1 ++ [OColor (CGroup g i 0)]) in S
    by (unfold p1; now rewrite <- !app_assoc).
  set (m0 := machine0 e w h) in *. set (l := env_cs e :: spaces p1).
  assert (I0 : inv e l m0) by (apply start_inv; left; auto).
  destruct (run_inv e l p1 m0 I0) as [I1 _]. { intros c Hc. right. exact Hc. }
  fold m in I1. rewrite orun_app in H2. cbn [snd] in H2. apply app_inv_head in H2. fold m in H2.
  rewrite orun_app in S. cbn [snd] in S. apply app_inv_head in S.
  rewrite (orun_app p1 [OColor (CGroup g i 0)] m0) in S. cbn [fst] in S. fold m in S.
  assert (F : wf (m_world m)) by apply I1. clear -S H2 F. destruct m as [wd cs ss sc en]. cbn [m_world m_colors] in *.
  rewrite !orun_cons in H2. rewrite orun_one, orun_cons in S. cbn [orun snd] in H2, S.
  assert (E1 := f_equal (hd (SInt 0)) H2). assert (E2 := f_equal (fun l => hd (SInt 0) (tl l)) H2).
  assert (S' := f_equal (hd (SInt 0)) S). cbn [hd tl] in E1, E2, S'. clear S H2. rename S' into S. cbn [ostep run_cop] in S, E1, E2. unfold bindW, liftW in S, E1, E2.
  destruct (getc cs i) as [r|y] eqn:Er; [|discriminate].
  pose proof (group_head g r wd) as Hd.
  destruct (ogroup g r wd) as [w1 [ks|y]]; cbn [fst snd] in *; [|discriminate].
  destruct (Hd ks F eq_refl) as [t ->]. unfold getc in S at 1. unfold getc in E2 at 1. cbn [nth_error fst snd ostep] in *.
  assert (N : getc (cs ++ [r]) (List.length cs) = Ok r).
  { unfold getc. rewrite nth_error_app2, Nat.sub_diag; auto. }
  assert (N' : getc (cs ++ [r]) i = Ok r).
  { unfold getc in *. destruct (nth_error cs i) as [z|] eqn:Ez; [|discriminate].
    rewrite nth_error_app1; [|apply nth_error_Some; congruence]. now rewrite Ez. }
  rewrite N in E2. rewrite N' in S. destruct (oansi en r w1) as [w2 [b|y]]; cbn in *; congruence.
Qed.
