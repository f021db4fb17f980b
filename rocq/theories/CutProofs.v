(** Lemmas: every instant of a draw. *)
From Coq Require Import ZArith Reals List Bool Lia String Permutation Sorting.Sorted.
From Verif Require Import PyBase PyLemmas F64 SpaceModel ColorModel ColorSpec ColorProofs AnsiRe SpanModel Vt SpanSpec
  SpanProofs SpanProofs2 ScreenModel ScreenSpec ScreenProofs ScreenProofs3 ScreenProofs4 ScreenProofs5 ScreenProofs6 ScreenProofs7 ScreenProofs8 DrawSpec
  DrawProofs DrawProofs2 DrawProofs3.
Import ListNotations.
Open Scope Z_scope.

(** * Sequences that change nothing on the screen, not even halfway *)
Definition mid (p : pstate) : Prop := match p with PGround | PEsc | PCsi _ => True | _ => False end.
Record like (m m' : emu) : Prop := {
  l_grid : e_grid m' = e_grid m; l_w : e_w m' = e_w m; l_h : e_h m' = e_h m; l_link : e_link m' = e_link m }.
Lemma like_refl : forall m, like m m. Proof. split; reflexivity. Qed.
Lemma like_trans : forall a b c, like a b -> like b c -> like a c.
Proof. intros a b c [] []. split; congruence. Qed.
Definition quiet (s : str) : Prop := forall m, e_parse m = PGround ->
  e_parse (vt s m) = PGround /\ forall a b, s = a ++ b -> like m (vt a m) /\ mid (e_parse (vt a m)).

Lemma quiet_nil : quiet [].
Proof.
  intros m H. split; [exact H|]. intros a b E. symmetry in E. apply app_eq_nil in E. destruct E as [-> _].
  split; [apply like_refl|]. cbn. rewrite H. exact I.
Qed.
Lemma cut_app : forall (s t a b : str), s ++ t = a ++ b -> (exists l, s = a ++ l) \/ (exists l, a = s ++ l /\ t = l ++ b).
Proof.
  induction s as [|c s IH]; intros t a b E; [right; exists a; auto|]. destruct a as [|d a]; [left; eexists; reflexivity|].
  cbn in E. injection E as -> E. destruct (IH _ _ _ E) as [[l ->]|[l [-> ->]]]; [left|right]; exists l; auto.
Qed.
Lemma quiet_app : forall s t, quiet s -> quiet t -> quiet (s ++ t).
Proof.
  intros s t Hs Ht m Hm. destruct (Hs m Hm) as [P1 A1]. destruct (Ht _ P1) as [P2 A2]. split; [now rewrite vt_app|].
  intros a b E. destruct (cut_app _ _ _ _ E) as [[l L]|[l [-> L]]]; [exact (A1 a l L)|].
  rewrite vt_app. destruct (A2 l b L) as [B1 B2]. split; auto. eapply like_trans; [|exact B1]. apply (A1 s []). now rewrite app_nil_r.
Qed.
Lemma csi_like : forall b f m, f = 72 \/ f = 109 -> like m (csi b f m) /\ e_parse (csi b f m) = e_parse m.
Proof.
  intros b f m Hf. assert (Q : forall b, like m (csi_plain b f m) /\ e_parse (csi_plain b f m) = e_parse m).
  { intro b0. unfold csi_plain. destruct (forallb _ b0); [|split; [apply like_refl|reflexivity]].
    destruct Hf as [-> | ->]; cbn; (split; [split; reflexivity|reflexivity]). }
  unfold csi. destruct b as [|c b]; [apply Q|]. destruct (c =? 63); [|apply Q]. unfold csi_private.
  destruct (forallb _ b); [|split; [apply like_refl|reflexivity]]. destruct Hf as [-> | ->]; cbn; (split; [apply like_refl|reflexivity]).
Qed.
Lemma quiet_csi : forall b f, forallb param_char b = true -> f = 72 \/ f = 109 -> quiet (27 :: 91 :: b ++ [f]).
Proof.
  intros b f Hb Hf m Hm.
  assert (E1 : vt [27] m = set_parse PEsc m) by (cbn; unfold feed1; rewrite Hm; reflexivity).
  assert (E2 : forall a, forallb param_char a = true -> vt (27 :: 91 :: a) m = set_parse (PCsi a) m).
  { intros a Ha. change (27 :: 91 :: a) with ([27] ++ [91] ++ a). rewrite !vt_app, E1. change (vt [91] (set_parse PEsc m)) with (set_parse (PCsi []) m).
    now rewrite vt_csi_buf. }
  assert (E3 : vt (27 :: 91 :: b ++ [f]) m = csi b f (set_parse PGround m)).
  { change (27 :: 91 :: b ++ [f]) with ((27 :: 91 :: b) ++ [f]). rewrite vt_app, E2 by auto. cbn [vt fold_left]. unfold feed1. cbn [e_parse set_parse].
    destruct Hf as [-> | ->]; reflexivity. }
  destruct (csi_like b f (set_parse PGround m) Hf) as [L P]. split; [rewrite E3, P; reflexivity|]. intros a c E.
  destruct a as [|x a]; [split; [apply like_refl|]; cbn; rewrite Hm; exact I|]. cbn [app] in E. injection E as <- E.
  destruct a as [|y a]; [rewrite E1; split; [split; reflexivity|exact I]|]. cbn [app] in E. injection E as <- E.
  destruct c as [|z c] using rev_ind.
  - rewrite app_nil_r in E. rewrite <- E, E3. split; [eapply like_trans; [|exact L]; split; reflexivity|]. rewrite P. exact I.
  - clear IHc. rewrite app_assoc in E. apply app_inj_tail in E. destruct E as [E _]. rewrite E, forallb_app in Hb. apply andb_true_iff in Hb.
    rewrite E2 by apply Hb. split; [split; reflexivity|exact I].
Qed.
Lemma quiet_m : forall b, forallb param_char b = true -> quiet (csi_m b).
Proof. intros b H. exact (quiet_csi b 109 H (or_intror eq_refl)). Qed.
Lemma quiet_lead : forall f, quiet (lead f).
Proof.
  intro f. unfold lead, csi_or_empty. destruct (colorless_body f) eqn:E; [apply quiet_nil|]. rewrite <- E. apply quiet_m, colorless_params.
Qed.
Lemma quiet_reset : quiet RESET.
Proof. apply quiet_m. reflexivity. Qed.
Lemma quiet_move : forall x y, 0 <= x -> 0 <= y -> quiet (move_to x y).
Proof.
  intros x y Hx Hy. unfold move_to. replace ([27; 91] ++ dec y ++ [59] ++ dec x ++ [72]) with (27 :: 91 :: (dec y ++ [59] ++ dec x) ++ [72])
    by (cbn [app]; rewrite <- !app_assoc; reflexivity).
  apply quiet_csi; auto. rewrite !forallb_app, (proj1 (dec_params x Hx)), (proj1 (dec_params y Hy)). reflexivity.
Qed.

(** * One cell: a character between quiet sequences *)
Lemma drawn_parts : forall e sh c v, shades e sh -> shows sh c v ->
  exists A B, drawn e c = A ++ fst v :: B /\ quiet A /\ quiet B /\ is_ctl (fst v) = false.
Proof.
  intros e sh [[t fg] bg] [g rd] Hsh [Hf [Hb [Hg [f [r [Et [Hr _]]]]]]]. cbn [fst snd] in *. unfold drawn.
  destruct (colors_body e sh fg bg rend0 Hsh Hf Hb) as [P _].
  match goal with |- context [str_eqb ?b []] => set (cs := b) in * end.
  assert (Qr : quiet r) by (destruct Hr as [-> | ->]; [apply quiet_nil|apply quiet_reset]). subst t. destruct (str_eqb cs []).
  - exists (lead f), r. split; [reflexivity|]. split; [apply quiet_lead|]. auto.
  - exists (csi_m cs ++ lead f), (r ++ RESET). split; [|split; [apply quiet_app; [now apply quiet_m|apply quiet_lead]|split; [apply quiet_app; [exact Qr|apply quiet_reset]|exact Hg]]].
    unfold csi_m. change ([27; 91; 48; 109]) with RESET. rewrite <- !app_assoc. cbn [app]. reflexivity.
Qed.

Section Items.
Variables (e : env) (sh : triple -> ecolor) (w h ox oy : Z).
Hypothesis Hsh : shades e sh.
Lemma one_parts : forall G prev i m, shows_item e sh w h G i -> fits w h (ox, oy) m ->
  let '(q, t) := i in
  exists A B, (if follows prev q then [] else move_to (fst q + ox) (snd q + oy)) ++ t = A ++ fst (G q) :: B /\ quiet A /\ quiet B /\ is_ctl (fst (G q)) = false.
Proof.
  intros G prev [q t] m [Hq [c [Et Hc]]] [F1 [F2 _]]. cbn [fst snd] in *. destruct Hq as [Q1 Q2].
  destruct (drawn_parts e sh c (G q) Hsh Hc) as [A [B [E [QA [QB Hg]]]]].
  set (mv := if follows prev q then [] else move_to (fst q + ox) (snd q + oy)).
  assert (Qm : quiet mv) by (unfold mv; destruct (follows prev q); [apply quiet_nil|apply quiet_move; lia]).
  exists (mv ++ A), B. split; [rewrite Et, E; now rewrite <- app_assoc|]. split; [now apply quiet_app|]. auto.
Qed.

Lemma torn : forall G items prev m, Forall (shows_item e sh w h G) items ->
  at_rest m -> fits w h (ox, oy) m -> after_prev w ox oy m prev -> forall a b, emit ox oy prev items = a ++ b ->
  exists i1 i2, items = i1 ++ i2 /\ like (vt (emit ox oy prev i1) m) (vt a m) /\ mid (e_parse (vt a m)).
Proof.
  intros G items. induction items as [|[q t] items IH]; intros prev m Hi Hm Hf Hp a b E.
  - cbn in E. symmetry in E. apply app_eq_nil in E. destruct E as [-> _]. exists [], []. split; [reflexivity|]. split; [apply like_refl|].
    cbn. rewrite (proj1 Hm). exact I.
  - inversion Hi as [|? ? H1 H2]; subst.
    set (one := (if follows prev q then [] else move_to (fst q + ox) (snd q + oy)) ++ t).
    assert (Em : forall l, emit ox oy prev ((q, t) :: l) = one ++ emit ox oy (Some q) l) by reflexivity.
    rewrite Em in E. destruct (cut_app _ _ _ _ E) as [[l L]|[l [-> L]]].
    + destruct (one_parts G prev (q, t) m H1 Hf) as [A [B [Eo [QA [QB Hg]]]]]. fold one in Eo.
      destruct (QA m (proj1 Hm)) as [PA TA]. rewrite Eo in L.
      destruct (cut_app _ _ _ _ L) as [[l' L']|[l' [-> L']]].
      * exists [], ((q, t) :: items). split; [reflexivity|]. change (emit ox oy prev []) with (@nil Z). cbn [vt fold_left].
        exact (TA a l' L').
      * destruct l' as [|g' l']; cbn [app] in L'.
        { rewrite app_nil_r. exists [], ((q, t) :: items). split; [reflexivity|]. apply (TA A []). now rewrite app_nil_r. }
        injection L' as <- L'. exists [(q, t)], items. split; [reflexivity|]. rewrite Em. change (emit ox oy (Some q) []) with (@nil Z).
        rewrite app_nil_r, Eo. change (fst (G q) :: B) with ([fst (G q)] ++ B). change (fst (G q) :: l') with ([fst (G q)] ++ l').
        rewrite !vt_app. rewrite vt_char by auto. set (m1 := put_char (fst (G q)) (vt A m)).
        assert (P1 : e_parse m1 = PGround) by (unfold m1; rewrite put_char_parse; exact PA).
        destruct (QB m1 P1) as [_ TB]. destruct (TB l' _ L') as [K1 K2]. split; [|exact K2].
        destruct (TB B [] ltac:(now rewrite app_nil_r)) as [[J1 J2 J3 J4] _]. destruct K1 as [K1 K3 K4 K5]. split; congruence.
    + pose proof (draw_one e sh w h ox oy Hsh G prev (q, t) m H1 Hm Hf Hp) as D. cbv beta iota zeta in D. fold one in D.
      destruct D as [D1 [D2 [D3 [D4 _]]]].
      assert (Hf1 : fits w h (ox, oy) (vt one m)) by (unfold fits in *; rewrite D2, D3; exact Hf).
      destruct (IH (Some q) (vt one m) H2 D1 Hf1 D4 l b L) as [i1 [i2 [-> [K1 K2]]]].
      exists ((q, t) :: i1), i2. split; [reflexivity|]. rewrite Em, !vt_app. auto.
Qed.
End Items.
