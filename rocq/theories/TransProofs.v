(** Drawing translucent content. *)
From Coq Require Import ZArith Reals List Bool Lia String Permutation Sorting.Sorted.
From Flocq Require Import Core IEEE754.BinarySingleNaN.
From Verif Require Import PyBase PyLemmas F64 FloatLemmas BlendSpec SpaceModel ColorModel ColorSpec ColorProofs ColorProofs2 BlendProofs AnsiRe SpanModel Vt SpanSpec GroupProofs
  SpanProofs SpanProofs2 ScreenModel ScreenSpec ScreenProofs ScreenProofs2 ScreenProofs3 ScreenProofs4 ScreenProofs5 ScreenProofs6 ScreenProofs7 ScreenProofs8 DrawSpec DrawProofs DrawProofs2 TransSpec.
Import ListNotations.
Open Scope Z_scope.

(** * Characters *)
Definition film_piece (i : str * span) (g : Z * span) : Prop :=
  snd i = snd g /\ layerable (snd g) /\ is_ctl (fst g) = false /\
  exists r, fst i = lead (s_flags (snd g)) ++ fst g :: r /\ (r = [] \/ (r = RESET /\ lead (s_flags (snd g)) <> [])).
Lemma span_films : forall e s, layerable s ->
  Forall2 film_piece (map (fun ch => (ch, s)) (get_characters e s true true)) (map (fun c => (c, s)) (s_text s)).
Proof.
  intros e s D. destruct (characters_spec e s true true) as [HL HN]. apply Forall2_nth; [now rewrite !map_length|].
  intros k [c s'] E. rewrite nth_error_map in E. destruct (nth_error (s_text s) k) as [c'|] eqn:Ec; [|discriminate].
  cbn in E. injection E as <- <-. eexists. split; [apply map_nth_error, HN, Ec|].
  unfold film_piece. cbn [fst snd]. split; [reflexivity|]. split; [exact D|]. destruct D as [D1 [D2 _]].
  split; [unfold printable in D1; rewrite Forall_forall in D1; apply D1; eapply nth_error_In; eauto|].
  cbn [layer_sequences]. change (span_colorless s) with (lead (s_flags s)). unfold entry. cbn [orb].
  destruct (k =? List.length (s_text s) - 1)%nat; [|exists []; auto].
  destruct (s_reset s) eqn:Er; cbn [andb].
  - destruct (str_eqb (lead (s_flags s)) []) eqn:El; cbn [negb].
    + apply str_eqb_eq in El. rewrite El. exists []. auto.
    + exists RESET. split; [reflexivity|]. right. split; [reflexivity|]. intro X. rewrite X in El. discriminate.
  - rewrite (no_flags_lead _ (D2 eq_refl)). exists []. auto.
Qed.
Lemma data_films : forall e w h data, Forall (fun entry => Forall layerable (snd entry)) data ->
  Forall2 (at_same film_piece) (laid_all e w h data) (flat_map (spots w h) data).
Proof.
  intros e w h data H. unfold laid_all. induction H as [|[[x y] line] data Hl Hd IH]; [constructor|].
  cbn [flat_map]. apply Forall2_app; [|exact IH]. unfold laid, spots. destruct (_ && _); [|constructor].
  apply number_Forall2. unfold pieces, glyphs. cbn [snd] in Hl. clear - Hl. induction Hl as [|s line Hs Hl IH]; [constructor|].
  cbn [flat_map]. apply Forall2_app; [now apply span_films|exact IH].
Qed.
Lemma piece_strip : forall i g, film_piece i g -> strip_ansi (fst i) = [fst g].
Proof.
  intros i g [_ [_ [Hc [r [-> Hr]]]]]. change (lead (s_flags (snd g))) with (span_colorless (snd g)). rewrite strip_lead, strip_char.
  - destruct Hr as [-> | [-> _]]; [reflexivity|]. now rewrite strip_tail.
  - intro E. rewrite E in Hc. discriminate.
Qed.
Lemma piece_clear : forall i g, film_piece i g -> see_through i = clear_glyph g.
Proof.
  intros i g H. unfold see_through, clear_glyph. rewrite (piece_strip i g H). cbn [forallb]. rewrite andb_true_r.
  destruct H as [-> _]. reflexivity.
Qed.
Lemma showing_visible : forall base gbase layers glayers, film_piece base gbase -> Forall2 film_piece layers glayers ->
  film_piece (showing base layers) (visible gbase glayers).
Proof.
  intros base gbase layers glayers Hb H. unfold showing, visible.
  assert (F : Forall2 film_piece (filter (fun i => negb (see_through i)) layers) (filter (fun g => negb (clear_glyph g)) glayers)).
  { induction H as [|i g l l' Hi H IH]; [constructor|]. cbn [filter]. rewrite (piece_clear i g Hi). destruct (clear_glyph g); cbn [negb]; auto. }
  clear H. revert Hb. generalize base gbase. induction F as [|i g l l' Hi F IH]; intros b gb Hb; [exact Hb|].
  inversion F; subst; cbn [last]; [exact Hi|]. exact (IH b gb Hb).
Qed.

(** * Layers over any base *)
Lemma fold_films : forall base layers bgs, Forall2 translucent layers bgs ->
  fold_left cstep (base :: layers) (None, []) =
  (Some (fst (showing base layers), s_fg (snd (showing base layers)), s_bg (snd base), bleeds_b base layers), bgs).
Proof.
  intros [ch s] layers. induction layers as [|[ch' s'] layers IH] using rev_ind; intros bgs H.
  - inversion H; subst. cbn [fold_left]. unfold cstep, over. cbn [fst snd showing filter last]. reflexivity.
  - apply Forall2_app_inv_l in H. destruct H as [l1 [l2 [H1 [H2 ->]]]]. inversion H2 as [|? l ? ? [Hl1 Hl2] Hn]; subst. inversion Hn; subst.
    cbn [snd] in *.
    change ((ch, s) :: layers ++ [(ch', s')]) with (((ch, s) :: layers) ++ [(ch', s')]). rewrite fold_left_app, (IH l1 H1).
    cbn [fold_left]. unfold cstep, over. cbn [fst snd]. rewrite Hl1. apply alpha_not_one_iff in Hl2. rewrite Hl2.
    rewrite see_through_eq. unfold bleeds_b. rewrite rev_app_distr. cbn [rev app]. rewrite showing_snoc. cbn [opt_list].
    destruct (see_through (ch', s')) eqn:Es; cbn [andb fst snd]; [reflexivity|].
    do 2 f_equal. rewrite str_eqb_refl. reflexivity.
Qed.
Lemma fold_hidden : forall hidden base layers st, Forall (fun i => solid (s_bg (snd i))) hidden -> (hidden = [] \/ solid (s_bg (snd base))) ->
  fold_left cstep (hidden ++ base :: layers) (None, st) = fold_left cstep (base :: layers) (None, st).
Proof.
  intros hidden base layers st Hh Hb. rewrite fold_left_app.
  assert (C : forall i old st, solid (s_bg (snd i)) -> cstep (old, st) i = (Some (fst i, s_fg (snd i), s_bg (snd i), false), st)).
  { intros [ch s] old st' H. cbn [fst snd] in *. unfold cstep, over. cbn [fst snd]. apply solid_alpha in H.
    destruct old as [[[[oc of] ob] oz]|]; [|cbn; now rewrite app_nil_r].
    destruct (s_bg s) as [b|]; cbn in H |- *; rewrite ?H; cbn; now rewrite app_nil_r. }
  assert (S : forall old, snd (fold_left cstep hidden (old, st)) = st).
  { induction Hh as [|i l Hi Hl IH]; intro old; [reflexivity|]. cbn [fold_left]. rewrite (C i old st Hi). apply IH.
    destruct Hb as [E|E]; [discriminate E|now right]. }
  destruct Hb as [->|Hb]; [reflexivity|]. cbn [fold_left]. specialize (S None).
  destruct (fold_left cstep hidden (None, st)) as [old st']. cbn [snd] in S. subst st'. now rewrite !C.
Qed.

Lemma eq_color_fone : forall b l, c_alpha b = fone -> c_alpha l <> fone -> ~ eq_color (Some b) (Some l).
Proof.
  intros b l Hb Hl Heq. apply opt_color_eqb_iff in Heq. cbn in Heq. apply color_eqb_meaning in Heq. destruct Heq as [_ [_ [_ Heq]]].
  rewrite Hb, feqb_sym in Heq. apply fone_unique in Heq. contradiction.
Qed.
(** one of the colors a color was tinted to *)
Inductive made (b : color) : color -> Prop :=
| made_same : made b b
| made_blend : forall m, color_ok m -> c_alpha m = fone -> c_ctor m = None -> c_bg m = c_bg b -> made b m.
Lemma blend_made : forall b l m, fine b -> fine l -> blend b l (strength l) None = Ok m ->
  color_ok m /\ c_alpha m = fone /\ c_ctor m = None /\ c_bg m = c_bg b.
Proof.
  intros b l m Hb Hl E. destruct (strength_fin l Hl) as [y [Hy Hy1]].
  assert (Hbig : (Rabs y <= p1000)%R).
  { rewrite Rabs_pos_eq by apply Hy1. apply Rle_trans with 1%R; [apply Hy1|]. apply p1000_big. }
  destruct (blend_layer b l Hb Hl) as [m' [E' [Hm' Ha]]]. rewrite E in E'. injection E' as <-.
  split; [apply Hm'|]. split; [exact Ha|]. rewrite (blend_val b l (strength l) y None (proj1 Hb) (proj1 Hl) Hy Hbig) in E.
  injection E as <-. split; reflexivity.
Qed.
Lemma tinted_made : forall b ls r, tinted b ls r -> fine b -> Forall fine ls -> made b r.
Proof.
  intros b ls r H. induction H as [b|b l ls m r Hm H IH]; intros Hb Hf; [constructor|]. inversion Hf as [|? ? F1 F2]; subst.
  destruct (blend_made b l m Hb F1 Hm) as [M1 [M2 [M3 M4]]]. assert (Fm : fine m) by now apply fine_fone.
  destruct (IH Fm F2) as [|k K1 K2 K3 K4]; constructor; auto. congruence.
Qed.
Lemma made_value : forall b r, made b r -> by_value b -> by_value r /\ c_bg r = c_bg b.
Proof.
  intros b r [|m H1 H2 H3 H4] Hb; [auto|]. split; [|exact H4]. split; [exact H1|]. split; [exact H2|]. now rewrite H3.
Qed.
Lemma tinted_fun : forall b ls r r', tinted b ls r -> tinted b ls r' -> r = r'.
Proof.
  intros b ls r r' H. induction H as [b|b l ls m r Hm H IH]; intro H'; inversion H' as [|? ? ? m' ? Hm' H'']; subst; [reflexivity|].
  rewrite Hm in Hm'. injection Hm' as <-. auto.
Qed.

(** the colors of a cell *)
Lemma finish_films : forall tb ch fg bg bgs bleed, fine tb -> fine_o bg -> Forall fine bgs ->
  Forall (fun l => c_alpha l <> fone) bgs ->
  alternating (match bg with Some b => if alpha_not_one b then b :: bgs else bgs | None => bgs end) ->
  (forall f, fg = Some f -> fine f /\ c_alpha f = fone) ->
  (exists t c, ch = t ++ [c] /\ c <> NL) ->
  exists f b, finish_cell tb (ch, fg, bg, bleed) bgs = Ok ((ch, Some f, b), false) /\
    (if bleed then tinted (match fg with Some f => f | None => WHITE end) bgs f else f = match fg with Some f => f | None => WHITE end) /\
    backdrop tb bg bgs b.
Proof.
  intros tb ch fg bg bgs bleed Ht Hbg Hf Hna Halt Hfg [t [c [-> Hc]]].
  set (f0 := match fg with Some f => f | None => WHITE end).
  assert (F0 : fine f0 /\ c_alpha f0 = fone).
  { subst f0. destruct fg as [f|]; [now apply Hfg|]. split; [apply fine_WHITE|reflexivity]. }
  assert (Fin : forall blent f, (if bleed then tinted f0 bgs f else f = f0) ->
     blend_stack bgs bg bg (Some f0) bleed = Ok (blent, Some f) ->
     forall b, (if bg_has_alpha blent then get_blended (Some tb) blent None (flit 1 10) else Ok blent) = Ok b ->
     finish_cell tb (t ++ [c], fg, bg, bleed) bgs = Ok ((t ++ [c], Some f, b), false)).
  { intros blent f Tf E b Eb. unfold finish_cell.
    replace (match fg with Some f1 => Some f1 | None => Some WHITE end) with (Some f0) by (subst f0; now destruct fg).
    rewrite E. cbn [bindr]. rewrite Eb. cbn [bindr].
    assert (Hag : c_alpha f = fone).
    { destruct bleed; [|subst f; apply F0]. destruct (tinted_made _ _ _ Tf (proj1 F0) Hf) as [|m _ M _ _]; [apply F0|exact M]. }
    assert (Hs2 : bg_has_alpha (Some f) = false) by (apply solid_alpha; intros d Ed; now injection Ed as <-).
    rewrite Hs2. cbn [bindr]. destruct (tail_clean t c Hc) as [-> ->]. reflexivity. }
  destruct bg as [b0|].
  - destruct (alpha_not_one b0) eqn:Ea.
    + (* a translucent base *)
      destruct (blend_stack_layers bgs (Some b0) b0 f0 bleed Hf Hna) as [r [g [T1 [Fr [T2 [Fg E]]]]]]; auto.
      { destruct bgs; [exact I|apply Halt]. }
      { destruct bgs; [exact I|apply Halt]. }
      { apply F0. }
      apply alpha_not_one_iff in Ea. destruct bgs as [|l ls].
      * inversion T1; subst. destruct (blend_layer tb r Ht Fr) as [m [Em [Hm Ha]]]. exists g, (Some m). split; [|split; [exact T2|]].
        -- apply (Fin (Some r) g T2 E). cbn [bg_has_alpha]. apply alpha_not_one_iff in Ea. rewrite Ea, strength_blend by exact Ea. now rewrite Em.
        -- apply bd_film; auto. econstructor; [exact Em|constructor].
      * exists g, (Some r). split; [|split; [exact T2|]].
        -- apply (Fin (Some r) g T2 E). cbn [bg_has_alpha]. unfold alpha_not_one.
           rewrite (tinted_alpha _ _ _ T1 ltac:(discriminate) Hf (Hbg _ eq_refl)), fone_refl. reflexivity.
        -- now apply bd_films.
    + (* an opaque one *)
      assert (Ha : c_alpha b0 = fone) by (unfold alpha_not_one in Ea; apply negb_false_iff in Ea; now apply fone_unique).
      destruct (blend_stack_layers bgs (Some b0) b0 f0 bleed Hf Hna Halt) as [r [g [T1 [Fr [T2 [Fg E]]]]]]; auto.
      { destruct bgs; [exact I|]. inversion Hna; subst. now apply eq_color_fone. }
      { apply F0. }
      exists g, (Some r). split; [|split; [exact T2|now apply bd_solid]]. apply (Fin (Some r) g T2 E). cbn [bg_has_alpha].
      assert (Hr : c_alpha r = fone). { destruct (tinted_made _ _ _ T1 (Hbg _ eq_refl) Hf) as [|m _ M _ _]; [exact Ha|exact M]. }
      unfold alpha_not_one. rewrite Hr, fone_refl. reflexivity.
  - destruct bgs as [|l ls].
    + exists f0, None. split; [|split; [destruct bleed; [constructor|reflexivity]|constructor]].
      apply (Fin None f0); [destruct bleed; [constructor|reflexivity]|reflexivity|reflexivity].
    + inversion Hf as [|? ? F1 F2]; subst. inversion Hna as [|? ? N1 N2]; subst.
      assert (Halt2 : alternating ls /\ match ls with l2 :: _ => ~ eq_color (Some l) (Some l2) | [] => True end).
      { destruct ls as [|l2 ls]; cbn [alternating] in Halt |- *; tauto. }
      destruct Halt2 as [A1 A2].
      assert (First : exists f1, fine f1 /\ (if bleed then blend f0 l (strength l) None = Ok f1 else f1 = f0) /\
         blend_stack (l :: ls) None None (Some f0) bleed = blend_stack ls (Some l) (Some l) (Some f1) bleed).
      { cbn [blend_stack]. change (get_blended None (Some l) None (flit 1 10)) with (@Ok (option color) (Some l)). cbn [bindr]. pose proof N1 as N1'. apply alpha_not_one_iff in N1'. destruct bleed.
        - destruct (blend_layer f0 l (proj1 F0) F1) as [m2 [Em2 [Hm2 _]]]. exists m2. split; [exact Hm2|]. split; [exact Em2|].
          rewrite strength_blend by exact N1'. rewrite Em2. reflexivity.
        - exists f0. split; [apply F0|]. split; reflexivity. }
      destruct First as [f1 [Ff1 [Ef1 Efirst]]].
      destruct (blend_stack_layers ls (Some l) l f1 bleed F2 N2 A1) as [r [g [T1 [Fr [T2 [Fg E]]]]]]; auto.
      assert (T2' : if bleed then tinted f0 (l :: ls) g else g = f0).
      { destruct bleed; [econstructor; eauto|congruence]. }
      rewrite <- Efirst in E. destruct ls as [|l2 ls].
      * inversion T1; subst. destruct (blend_layer tb r Ht Fr) as [m [Em [Hm Ha]]]. exists g, (Some m). split; [|split; [exact T2'|]].
        -- apply (Fin (Some r) g T2' E). cbn [bg_has_alpha]. apply alpha_not_one_iff in N1. rewrite N1, strength_blend by exact N1. now rewrite Em.
        -- apply bd_bare, bd_film; auto. econstructor; [exact Em|constructor].
      * exists g, (Some r). split; [|split; [exact T2'|]].
        -- apply (Fin (Some r) g T2' E). cbn [bg_has_alpha]. unfold alpha_not_one.
           rewrite (tinted_alpha _ _ _ T1 ltac:(discriminate) F2 F1), fone_refl. reflexivity.
        -- now apply bd_bare, bd_films.
Qed.

(** * The outcome of a write *)
Lemma backdrop_made : forall tb bg bgs b, backdrop tb bg bgs b -> fine tb -> c_bg tb = true ->
  (forall c, bg = Some c -> fine c /\ c_bg c = true /\ (c_alpha c = fone -> by_value c)) ->
  Forall (fun l => fine l /\ c_bg l = true /\ c_alpha l <> fone) bgs -> layer_ok true b.
Proof.
  intros tb bg bgs b H Ht Htb. induction H as [|b ls m Ha T|l m Ha T|l l' ls m Ha T|l ls o H IH]; intros Hbg Hls.
  - intros c E. discriminate.
  - intros c E. injection E as <-. destruct (Hbg b eq_refl) as [B1 [B2 B3]]. destruct (made_value b m) as [V1 V2]; auto; [|split; congruence].
    eapply tinted_made; eauto. eapply Forall_impl; [|exact Hls]. intros x [A _]; exact A.
  - intros c E. injection E as <-. destruct (Hbg l eq_refl) as [B1 [B2 B3]]. inversion T as [|? ? ? ? ? Em T']; subst. inversion T'; subst.
    destruct (blend_made _ _ _ Ht B1 Em) as [M1 [M2 [M3 M4]]]. split; [|congruence]. split; [exact M1|]. split; [exact M2|]. now rewrite M3.
  - intros c E. injection E as <-. destruct (Hbg l eq_refl) as [B1 [B2 B3]]. inversion T as [|? ? ? m1 ? Em T']; subst.
    inversion Hls as [|? ? [L1 [L2 L2']] L3]; subst.
    destruct (blend_made _ _ _ B1 L1 Em) as [M1 [M2 [M3 M4]]].
    assert (V : by_value m1) by (split; [exact M1|]; split; [exact M2|]; now rewrite M3).
    destruct (made_value m1 m) as [V1 V2]; auto; [|split; congruence].
    eapply tinted_made; eauto; [now apply fine_fone|]. eapply Forall_impl; [|exact L3]. intros x [A _]; exact A.
  - inversion Hls as [|? ? [L1 [L2 L2']] L3]; subst. apply IH; auto. intros c E. injection E as <-. split; [exact L1|]. split; [exact L2|].
    intro Ha. contradiction.
Qed.

(** the visible character, computed from the whole list *)
Definition keeps (g : Z * span) : bool := negb (bg_has_alpha (s_bg (snd g)) && clear_glyph g).
Definition visible_of (items : list (Z * span)) : option (Z * span) :=
  match items with [] => None | g :: _ => Some (last (filter keeps items) g) end.
Lemma last_cons_default : forall A (l : list A) a d, last (a :: l) d = last l a.
Proof.
  intros A l. induction l as [|b l IH]; intros a d; [reflexivity|]. change (last (a :: b :: l) d) with (last (b :: l) d). now rewrite !IH.
Qed.
Lemma last_app_cons : forall A (l l' : list A) a d, last (l ++ a :: l') d = last l' a.
Proof.
  intros A l. induction l as [|b l IH]; intros l' a d; [apply last_cons_default|]. cbn [app]. rewrite last_cons_default. apply IH.
Qed.
Lemma filmy_keeps : forall layers bgs, Forall2 filmy layers bgs -> filter keeps layers = filter (fun g => negb (clear_glyph g)) layers.
Proof.
  intros layers bgs H. induction H as [|g l gs ls [H1 H2] H IH]; [reflexivity|]. cbn [filter]. rewrite IH. unfold keeps at 1. rewrite H1.
  cbn [bg_has_alpha]. apply alpha_not_one_iff in H2. rewrite H2. reflexivity.
Qed.
Lemma covers_keeps : forall g, covers g -> keeps g = true.
Proof. intros g H. unfold keeps. now rewrite (solid_alpha _ H). Qed.
Lemma visible_of_stacked : forall items base layers bgs, stacked items base layers bgs -> visible_of items = Some (visible base layers).
Proof.
  intros items base layers bgs [[hidden [-> [Hh Hb]]] [Hl _]].
  assert (E : forall d, covers base -> last (filter keeps (hidden ++ base :: layers)) d = visible base layers).
  { intros d H. rewrite filter_app. cbn [filter]. rewrite (covers_keeps base H), last_app_cons, (filmy_keeps _ _ Hl). reflexivity. }
  destruct Hb as [->|Hb].
  - cbn [app visible_of]. f_equal. cbn [filter]. unfold visible. rewrite <- (filmy_keeps _ _ Hl). destruct (keeps base); [apply last_cons_default|reflexivity].
  - destruct hidden as [|g hidden]; cbn [app visible_of]; f_equal; apply (E _ Hb).
Qed.

Lemma Forall2_imp : forall A B (R S : A -> B -> Prop) l l', (forall a b, R a b -> S a b) -> Forall2 R l l' -> Forall2 S l l'.
Proof. intros A B R S l l' H F. induction F; constructor; auto. Qed.
Lemma translucent_filmy : forall layers glayers bgs, Forall2 film_piece layers glayers -> Forall2 filmy glayers bgs -> Forall2 translucent layers bgs.
Proof.
  intros layers glayers bgs H. revert bgs. induction H as [|i g l l' Hi H IH]; intros bgs F; inversion F as [|? b ? bs [F1 F2] F3]; subst; constructor; auto.
  split; [|exact F2]. destruct Hi as [-> _]. exact F1.
Qed.

Section Cell.
Variables (e : env) (sh : triple -> ecolor) (w h : Z).

Definition tpaint (p : picture) (a : act) : picture := fun q =>
  match a with
  | AWrite data tb _ =>
      match okf (outcome tb (laid_all e w h data) q), visible_of (covering q (flat_map (spots w h) data)) with
      | Some ((_, f, b), _), Some v => (fst v, styled (s_flags (snd v)) (shade_o sh f) (shade_o sh b) rend0)
      | _, _ => p q
      end
  | AClear fill => (fill, rend0)
  | ADraw => p q
  end.

Lemma outcome_films : forall data tb force q, tact_ok w h (AWrite data tb force) -> on_screen w h q ->
  let items := covering q (flat_map (spots w h) data) in
  (items = [] /\ okf (outcome tb (laid_all e w h data) q) = None) \/
  exists base layers bgs t f b, stacked items base layers bgs /\ inked base layers bgs f /\ backdrop tb (s_bg (snd base)) bgs b /\
    okf (outcome tb (laid_all e w h data) q) = Some ((t, Some f, b), false) /\
    shows sh (t, Some f, b) (fst (visible base layers), styled (s_flags (snd (visible base layers))) (shade_o sh (Some f)) (shade_o sh b) rend0) /\
    exists r, t = lead (s_flags (snd (visible base layers))) ++ fst (visible base layers) :: r /\
      (r = [] \/ (r = RESET /\ lead (s_flags (snd (visible base layers))) <> [])).
Proof.
  intros data tb force q [Hd [Ht [Htb [Hs Hq]]]] Hon. specialize (Hq q Hon). cbv zeta in *.
  pose proof (covering_Forall2 _ q _ _ (data_films e w h data Hs)) as CV.
  set (items := covering q (flat_map (spots w h) data)) in *. set (its := covering q (laid_all e w h data)) in *.
  destruct Hq as [E|[gbase [glayers [bgs ST]]]].
  - left. split; [exact E|]. rewrite E in CV. inversion CV as [E1|]. unfold outcome. fold its. rewrite <- E1. reflexivity.
  - right. pose proof ST as ST'. destruct ST as [[hidden [EI [Hh Hb]]] [Hl Halt]]. rewrite EI in CV.
    apply Forall2_app_inv_r in CV. destruct CV as [hid [rest [C1 [C2 EIT]]]]. inversion C2 as [|base ? layers ? Pb Pl]; subst rest.
    assert (Hfine : forall c, s_bg (snd gbase) = Some c -> fine c /\ c_bg c = true /\ (c_alpha c = fone -> by_value c)).
    { destruct Pb as [_ [[_ [_ [_ L]]] _]]. exact L. }
    assert (Hbgs : Forall (fun l => fine l /\ c_bg l = true /\ c_alpha l <> fone) bgs).
    { clear - Pl Hl. revert bgs Hl. induction Pl as [|i g l l' Hi H IH]; intros bgs F; inversion F as [|? b ? bs [F1 F2] F3]; subst; constructor; auto.
      destruct Hi as [_ [[_ [_ [_ L]]] _]]. destruct (L b F1) as [L1 [L2 _]]. auto. }
    pose proof (showing_visible base gbase layers glayers Pb Pl) as V.
    pose proof (translucent_filmy _ _ _ Pl Hl) as TR.
    assert (Fold : fold_left cstep its (None, []) =
      (Some (fst (showing base layers), s_fg (snd (showing base layers)), s_bg (snd base), bleeds_b base layers), bgs)).
    { rewrite EIT. rewrite fold_hidden.
      - now apply fold_films.
      - clear - C1 Hh. induction C1 as [|i g l l' Hi H IH]; constructor; inversion Hh; subst; auto. destruct Hi as [-> _]. assumption.
      - destruct Hb as [->|Hb]; [left; inversion C1; reflexivity|right]. destruct Pb as [-> _]. exact Hb. }
    assert (Eb : s_bg (snd base) = s_bg (snd gbase)) by (destruct Pb as [-> _]; reflexivity).
    set (v := visible gbase glayers) in *. set (i := showing base layers) in *.
    assert (Ev : snd i = snd v) by (destruct V as [-> _]; reflexivity).
    assert (Hfg : forall f, s_fg (snd v) = Some f -> by_value f /\ c_bg f = false) by (destruct V as [_ [[_ [_ [L _]]] _]]; exact L).
    assert (Tail : exists t c, fst i = t ++ [c] /\ c <> NL).
    { destruct i as [ch sp] eqn:Ei. eapply (covering_tail e w h data q ch sp Hd). fold its. rewrite EIT. apply in_app_iff. right.
      rewrite <- Ei. subst i. destruct (showing_in base layers) as [X|X]; [left; now rewrite X|right; exact X]. }
    destruct (finish_films tb (fst i) (s_fg (snd i)) (s_bg (snd base)) bgs (bleeds_b base layers) Ht) as [f [b [E1 [E2 E3]]]].
    { rewrite Eb. intros c Ec. now apply Hfine. }
    { eapply Forall_impl; [|exact Hbgs]. intros x [A _]; exact A. }
    { eapply Forall_impl; [|exact Hbgs]. intros x [_ [_ A]]; exact A. }
    { rewrite Eb. exact Halt. }
    { rewrite Ev. intros f Ef. destruct (Hfg f Ef) as [[F1 [F2 _]] _]. split; [now apply fine_fone|exact F2]. }
    { exact Tail. }
    rewrite Eb in E3. rewrite Ev in E2. change (match s_fg (snd v) with Some f0 => f0 | None => WHITE end) with (ink v) in E2.
    exists gbase, glayers, bgs, (fst i), f, b. split; [exact ST'|].
    assert (Hink : by_value (ink v) /\ c_bg (ink v) = false).
    { unfold ink. destruct (s_fg (snd v)) as [f'|]; [now apply Hfg|]. split; [|reflexivity].
      split; [unfold color_ok, channel_ok; cbn; lia|]. split; [reflexivity|exact Logic.I]. }
    assert (Hf : by_value f /\ c_bg f = false).
    { destruct (bleeds_b base layers); [|subst f; exact Hink].
      assert (M : made (ink v) f).
      { eapply tinted_made; [exact E2| |eapply Forall_impl; [|exact Hbgs]; intros x [A _]; exact A]. destruct Hink as [[A1 [A2 _]] _]. now apply fine_fone. }
      destruct (made_value _ _ M (proj1 Hink)) as [A1 A2]. split; [exact A1|]. rewrite A2. apply Hink. }
    split.
    { unfold inked. fold v. destruct (bleeds_b base layers) eqn:Ebl.
      - left. split; [|exact E2]. unfold bleeds_b in Ebl. unfold veiled.
        pose proof (Forall2_rev _ _ _ _ _ Pl) as R. destruct (rev layers) as [|top r] eqn:Er; [discriminate|].
        inversion R as [|? gtop ? gr Hgt Hgr Eg Eg']; subst. exists (rev gr), gtop. split.
        + rewrite <- (rev_involutive glayers), <- Eg'. reflexivity.
        + apply andb_true_iff in Ebl. destruct Ebl as [A _]. now rewrite <- (piece_clear _ _ Hgt).
      - right. split; [exact E2|]. intros [gls [gtop [EG Cl]]]. rewrite EG in Pl. apply Forall2_app_inv_r in Pl.
        destruct Pl as [ls [tops [P1 [P2 EL]]]]. inversion P2 as [|top ? tp ? Ptop P3]; subst tops. inversion P3; subst tp.
        unfold bleeds_b in Ebl. rewrite EL, rev_app_distr in Ebl. cbn [rev app] in Ebl. rewrite <- EL in Ebl. fold i in Ebl.
        rewrite (piece_clear _ _ Ptop), Cl in Ebl. cbn [andb] in Ebl. apply negb_false_iff, str_eqb_eq in Ebl.
        assert (Ech : fst gtop = fst v).
        { pose proof (piece_strip _ _ Ptop) as S1. pose proof (piece_strip _ _ V) as S2. rewrite Ebl, S2 in S1. now injection S1. }
        unfold clear_glyph in Cl. apply andb_true_iff in Cl. rewrite <- Ech. apply Cl. }
    split; [exact E3|]. split.
    { unfold outcome. fold its. rewrite Fold. cbv iota beta. exact (f_equal (fun x => okf (Some x)) E1). }
    destruct V as [V1 [V2 [V3 [r [V4 V5]]]]]. split; [|exists r; auto].
    split; [intros c Ec; now injection Ec as <-|]. split.
    { eapply backdrop_made; eauto. }
    split; [exact V3|]. exists (s_flags (snd v)), r. cbn [fst snd].
    split; [exact V4|]. split; [tauto|]. split; [reflexivity|discriminate].
Qed.
Lemma tpaint_write : forall p data tb force q, tact_ok w h (AWrite data tb force) -> on_screen w h q ->
  (let items := covering q (flat_map (spots w h) data) in
   match items with [] => tpaint p (AWrite data tb force) q = p q | _ => composited sh tb items (tpaint p (AWrite data tb force) q) end) /\
  match okf (outcome tb (laid_all e w h data) q) with
  | None => tpaint p (AWrite data tb force) q = p q
  | Some (new, nl) => nl = false /\ shows sh new (tpaint p (AWrite data tb force) q)
  end.
Proof.
  intros p data tb force q Ha Hq. destruct (outcome_films data tb force q Ha Hq) as [[E1 E2]|[base [layers [bgs [t [f [b [ST [IK [BD [EO [SH _]]]]]]]]]]]];
    cbv zeta in *; unfold tpaint.
  - rewrite E2, E1. auto.
  - rewrite EO, (visible_of_stacked _ _ _ _ ST). cbn [shade_o option_map] in *. split; [|split; [reflexivity|exact SH]].
    destruct (covering q (flat_map (spots w h) data)) as [|g l] eqn:Ec.
    { destruct ST as [[hidden [EI _]] _]. destruct hidden; discriminate. }
    exists base, layers, bgs, f, b. split; [exact ST|]. split; [exact IK|]. split; [exact BD|]. reflexivity.
Qed.
End Cell.

(** * Histories *)
Section Hist.
Variables (e : env) (sh : triple -> ecolor) (w h : Z) (origin : pos) (g0 : Z -> Z -> ecell) (W0 H0 : Z).
Hypothesis Hsh : shades e sh.
Hypothesis Hfit : 1 <= fst origin /\ 1 <= snd origin /\ fst origin - 1 + w <= W0 /\ snd origin - 1 + h <= H0.
Lemma layerable_fine : forall s, layerable s -> fine_span s.
Proof. intros s [_ [_ [H1 H2]]] c [E|E]; [destruct (H1 c E) as [[A [B _]] _]; now apply fine_fone|now apply H2]. Qed.
Lemma tinv_act : forall a k P, inv e sh w h origin g0 W0 H0 never k P -> tact_ok w h a ->
  inv e sh w h origin g0 W0 H0 never (perform e origin k a) (tpaint e sh w h P a) /\ tpaints sh w h P a (tpaint e sh w h P a).
Proof.
  intros a k P I Ha. destruct a as [data tb force|fill|].
  - split.
    + eapply (inv_write_gen e sh w h origin g0 W0 H0 never never k P); eauto; try apply Ha.
      * destruct Ha as [_ [_ [_ [Hs _]]]]. unfold fine_data. revert Hs. apply Forall_impl. intros en. apply Forall_impl. apply layerable_fine.
      * intros q Hq. now apply (tpaint_write e sh w h P data tb force q Ha Hq).
    + intros q Hq. now apply (tpaint_write e sh w h P data tb force q Ha Hq).
  - split; [|intros q Hq; reflexivity]. now apply (inv_clear e sh w h origin g0 W0 H0 never never k P fill).
  - split; [|intros q Hq; reflexivity]. now apply (inv_draw e sh w h origin g0 W0 H0 Hsh Hfit never k P).
Qed.
Lemma tinv_run : forall acts k P, inv e sh w h origin g0 W0 H0 never k P -> Forall (tact_ok w h) acts ->
  exists P', inv e sh w h origin g0 W0 H0 never (fold_left (perform e origin) acts k) P' /\ tpainted sh w h P acts P'.
Proof.
  intro acts. induction acts as [|a acts IH]; intros k P I Ha; [exists P; split; [exact I|intros q _; reflexivity]|].
  inversion Ha as [|? ? H1 H2]; subst. destruct (tinv_act a k P I H1) as [I1 T1]. destruct (IH _ _ I1 H2) as [P' [I2 T2]].
  exists P'. split; [exact I2|]. exists (tpaint e sh w h P a). auto.
Qed.
End Hist.
Lemma films_drawn : forall e sh w h cursor fill origin m acts, shades e sh -> is_ctl fill = false ->
  at_rest m -> fits w h origin m -> Forall (tact_ok w h) acts ->
  let '(s, _, m') := fold_left (perform e origin) (acts ++ [ADraw]) (new_screen w h cursor [fill], [], m) in
  exists p, tpainted sh w h (blank fill) acts p /\
  (forall q, on_screen w h q -> seen origin m' q = (fst (p q), snd (p q), [])) /\
  (forall X Y, ~ on_screen w h (X - fst origin + 1, Y - snd origin + 1) -> e_grid m' X Y = e_grid m X Y) /\
  at_rest m' /\ sc_buf s = [].
Proof.
  intros e sh w h cursor fill origin m acts Hsh Hfill Hm Hf Ha.
  assert (I0 : inv e sh w h origin (e_grid m) (e_w m) (e_h m) never (new_screen w h cursor [fill], [], m) (blank fill)) by (apply inv_start; auto).
  destruct (tinv_run e sh w h origin (e_grid m) (e_w m) (e_h m) Hsh Hf acts _ _ I0 Ha) as [P [I1 TP]].
  rewrite fold_left_app. cbn [fold_left]. set (k := fold_left (perform e origin) acts _) in *.
  destruct (inv_draw e sh w h origin (e_grid m) (e_w m) (e_h m) Hsh Hf never k _ I1) as [I2 S].
  assert (B : sc_buf (fst (fst (perform e origin k ADraw))) = []).
  { destruct k as [[s c] m0]. cbn [perform]. unfold render. destruct origin. reflexivity. }
  destruct (perform e origin k ADraw) as [[s c'] m'] eqn:E. cbn [fst snd] in *. exists P. split; [exact TP|].
  split; [intros q Hq; destruct (S q Hq) as [A|[[] _]]; exact A|]. split; [intros X Y HX; apply (i_outside _ _ _ _ _ _ _ _ _ _ _ I2); exact HX|].
  split; [apply (i_rest _ _ _ _ _ _ _ _ _ _ _ I2)|exact B].
Qed.

(** * The picture is determined *)
Lemma filmy_fun : forall layers bgs bgs', Forall2 filmy layers bgs -> Forall2 filmy layers bgs' -> bgs = bgs'.
Proof.
  intros layers bgs bgs' H. revert bgs'. induction H as [|g l gs ls [H1 _] H IH]; intros bgs' H'; inversion H' as [|? ? ? ? [H1' _] H'']; subst; [reflexivity|].
  f_equal; [congruence|auto].
Qed.
Lemma filmy_not_covers : forall layers bgs g, Forall2 filmy layers bgs -> In g layers -> covers g -> False.
Proof.
  intros layers bgs g H. induction H as [|i l gs ls [H1 H2] H IH]; intros Hi Hc; [destruct Hi|].
  destruct Hi as [->|Hi]; [exact (H2 (Hc l H1))|now apply IH].
Qed.
Lemma stacked_fun : forall items base layers bgs base' layers' bgs', stacked items base layers bgs -> stacked items base' layers' bgs' ->
  base = base' /\ layers = layers' /\ bgs = bgs'.
Proof.
  intros items base layers bgs base' layers' bgs' [[hid [E [H1 H2]]] [H3 _]] [[hid' [E' [H1' H2']]] [H3' _]].
  assert (G : base = base' /\ layers = layers').
  { rewrite E in E'. clear E. revert hid' E' H1' H2'. induction hid as [|g hid IH]; intros hid' E' H1' H2'.
    - destruct hid' as [|g' hid']; cbn [app] in E'; [injection E'; auto|]. exfalso. injection E' as -> E'.
      destruct H2' as [H2'|H2']; [discriminate|]. apply (filmy_not_covers layers bgs base' H3); [|exact H2'].
      rewrite E'. apply in_app_iff. right. now left.
    - inversion H1 as [|? ? K1 K2]; subst. destruct H2 as [H2|H2]; [discriminate|].
      destruct hid' as [|g' hid']; cbn [app] in E'.
      + exfalso. injection E' as E1 E2. apply (filmy_not_covers layers' bgs' base H3'); [|exact H2]. rewrite <- E2. apply in_app_iff. right. now left.
      + injection E' as -> E'. inversion H1'; subst. destruct H2' as [H2'|H2']; [discriminate|]. apply (IH K2 (or_intror H2) hid'); auto. }
  destruct G as [-> ->]. split; [reflexivity|]. split; [reflexivity|]. eapply filmy_fun; eauto.
Qed.
Lemma backdrop_fun : forall tb bg bgs b b', backdrop tb bg bgs b -> backdrop tb bg bgs b' -> b = b'.
Proof.
  intros tb bg bgs b b' H. revert b'. induction H as [|b ls m Ha T|l m Ha T|l l' ls m Ha T|l ls o H IH]; intros b' H'; inversion H'; subst; auto; try contradiction; try congruence; f_equal; eapply tinted_fun; eauto.
Qed.
Lemma same_look_refl : forall v, same_look v v. Proof. intro v. split; auto. Qed.
Lemma composited_fun : forall sh tb items v v', composited sh tb items v -> composited sh tb items v' -> same_look v v'.
Proof.
  intros sh tb items v v' [base [layers [bgs [f [b [ST [IK [BD ->]]]]]]]] [base' [layers' [bgs' [f' [b' [ST' [IK' [BD' ->]]]]]]]].
  destruct (stacked_fun _ _ _ _ _ _ _ ST ST') as [<- [<- <-]]. rewrite <- (backdrop_fun _ _ _ _ _ BD BD').
  split; [reflexivity|]. split; [reflexivity|]. split; [reflexivity|]. cbn [fst]. intro Hsp.
  assert (Ef : f = f'); [|now rewrite Ef].
  destruct IK as [[V T]|[E N]], IK' as [[V' T']|[E' N']].
  - eapply tinted_fun; eauto.
  - rewrite (N' V) in Hsp. discriminate.
  - rewrite (N V') in Hsp. discriminate.
  - congruence.
Qed.
Lemma tpainted_fun : forall sh w h acts p1 p1' p2 p2', (forall q, on_screen w h q -> same_look (p1 q) (p1' q)) ->
  tpainted sh w h p1 acts p2 -> tpainted sh w h p1' acts p2' -> forall q, on_screen w h q -> same_look (p2 q) (p2' q).
Proof.
  intros sh w h acts. induction acts as [|a acts IH]; intros p1 p1' p2 p2' H0 H H' q Hq; cbn [tpainted] in *.
  - rewrite (H q Hq), (H' q Hq). auto.
  - destruct H as [m [M1 M2]], H' as [m' [M1' M2']]. eapply (IH m m'); eauto. intros q' Hq'. specialize (M1 q' Hq'). specialize (M1' q' Hq').
    destruct a as [data tb force|fill|]; cbv zeta in *.
    + destruct (covering q' (flat_map (spots w h) data)) as [|g l]; [rewrite M1, M1'; auto|]. eapply composited_fun; eauto.
    + rewrite M1, M1'. apply same_look_refl.
    + rewrite M1, M1'. auto.
Qed.
Lemma films_determined : forall sh w h fill acts p p', tpainted sh w h (blank fill) acts p -> tpainted sh w h (blank fill) acts p' ->
  forall q, on_screen w h q -> same_look (p q) (p' q).
Proof. intros. eapply tpainted_fun; eauto. intros. apply same_look_refl. Qed.
