(** Drawing: histories of writes, clears and draws. *)
From Coq Require Import ZArith Reals List Bool Lia String Permutation Sorting.Sorted.
From Verif Require Import PyBase PyLemmas F64 SpaceModel ColorModel ColorSpec ColorProofs AnsiRe SpanModel Vt SpanSpec
  SpanProofs SpanProofs2 ScreenModel ScreenSpec ScreenProofs ScreenProofs2 ScreenProofs3 ScreenProofs4 ScreenProofs5 ScreenProofs6 ScreenProofs7 ScreenProofs8 DrawSpec DrawProofs.
Import ListNotations.
Open Scope Z_scope.

(** * Characters of a line *)
Definition glyph_piece (i : str * span) (g : Z * span) : Prop :=
  snd i = snd g /\ drawable (snd g) /\ is_ctl (fst g) = false /\
  exists r, fst i = lead (s_flags (snd g)) ++ fst g :: r /\ (r = [] \/ r = RESET).
Lemma Forall2_nth : forall A B (R : A -> B -> Prop) l l', List.length l = List.length l' ->
  (forall k b, nth_error l' k = Some b -> exists a, nth_error l k = Some a /\ R a b) -> Forall2 R l l'.
Proof.
  intros A B R l. induction l as [|a l IH]; intros [|b l'] HL H; try discriminate; constructor.
  - destruct (H O b eq_refl) as [a' [E Hr]]. injection E as <-. exact Hr.
  - apply IH; [now injection HL|]. intros k b' E. exact (H (S k) b' E).
Qed.
Lemma no_flags_lead : forall f, (forall k, get_flag k f = false) -> lead f = [].
Proof.
  intros f H. unfold lead, csi_or_empty.
  assert (E : existsb (fun k => get_flag k f) all_flags = false).
  { apply not_true_iff_false. intro E. apply existsb_exists in E. destruct E as [k [_ E]]. now rewrite H in E. }
  apply colorless_nil in E. now rewrite E.
Qed.
Lemma span_glyphs : forall e s, drawable s ->
  Forall2 glyph_piece (map (fun ch => (ch, s)) (get_characters e s true true)) (map (fun c => (c, s)) (s_text s)).
Proof.
  intros e s D. destruct (characters_spec e s true true) as [HL HN]. apply Forall2_nth; [now rewrite !map_length|].
  intros k [c s'] E. rewrite nth_error_map in E. destruct (nth_error (s_text s) k) as [c'|] eqn:Ec; [|discriminate].
  cbn in E. injection E as <- <-. eexists. split; [apply map_nth_error, HN, Ec|].
  unfold glyph_piece. cbn [fst snd]. split; [reflexivity|]. split; [exact D|]. destruct D as [D1 [D2 _]].
  split; [unfold printable in D1; rewrite Forall_forall in D1; apply D1; eapply nth_error_In; eauto|].
  cbn [layer_sequences]. change (span_colorless s) with (lead (s_flags s)). unfold entry. cbn [orb].
  destruct (k =? List.length (s_text s) - 1)%nat; [|exists []; auto].
  destruct (s_reset s) eqn:Er; cbn [andb].
  - destruct (str_eqb (lead (s_flags s)) []) eqn:El; cbn [negb].
    + apply str_eqb_eq in El. rewrite El. exists []. auto.
    + exists RESET. auto.
  - rewrite (no_flags_lead _ (D2 eq_refl)). exists []. auto.
Qed.
Lemma line_glyphs : forall e line, Forall drawable line -> Forall2 glyph_piece (pieces e line) (glyphs line).
Proof.
  intros e line H. unfold pieces, glyphs. induction H as [|s line Hs Hl IH]; [constructor|].
  cbn [flat_map]. apply Forall2_app; [now apply span_glyphs|exact IH].
Qed.
Definition at_same (R : (str * span) -> (Z * span) -> Prop) (a : pos * (str * span)) (b : pos * (Z * span)) : Prop :=
  fst a = fst b /\ R (snd a) (snd b).
Lemma number_Forall2 : forall R w h l l' p, Forall2 R l l' -> Forall2 (at_same R) (number w h p l) (number w h p l').
Proof.
  intros R w h l l' p H. revert p. induction H as [|a b l l' Hab Hl IH]; intro p; cbn [number]; [constructor|].
  destruct (p <? w * h); constructor; [split; auto|]. apply IH.
Qed.
Lemma data_glyphs : forall e w h data, Forall (fun entry => Forall drawable (snd entry)) data ->
  Forall2 (at_same glyph_piece) (laid_all e w h data) (flat_map (spots w h) data).
Proof.
  intros e w h data H. unfold laid_all. induction H as [|[[x y] line] data Hl Hd IH]; [constructor|].
  cbn [flat_map]. apply Forall2_app; [|exact IH]. unfold laid, spots. destruct (_ && _); [|constructor].
  apply number_Forall2. now apply line_glyphs.
Qed.
Lemma covering_Forall2 : forall R q l l', Forall2 (at_same R) l l' -> Forall2 R (covering q l) (covering q l').
Proof.
  intros R q l l' H. unfold covering. induction H as [|a b l l' [E Hab] Hl IH]; [constructor|].
  cbn [filter]. rewrite E. destruct (pos_eqb (fst b) q); cbn [map]; [constructor; auto|exact IH].
Qed.
Lemma Forall2_rev : forall A B (R : A -> B -> Prop) l l', Forall2 R l l' -> Forall2 R (rev l) (rev l').
Proof.
  intros A B R l l' H. induction H as [|a b l l' Hab Hl IH]; [constructor|].
  cbn [rev]. apply Forall2_app; [exact IH|]. constructor; [exact Hab|constructor].
Qed.
Lemma piece_shows : forall sh i g, glyph_piece i g -> shows sh (plain_cell i) (painted sh g).
Proof.
  intros sh [ch s] [c s'] [E [D [Hc [r [Et Hr]]]]]. cbn [fst snd] in *. subst s'. destruct D as [_ [_ [D3 D4]]].
  unfold shows, plain_cell, painted. cbn [fst snd].
  assert (W : by_value WHITE /\ c_bg WHITE = false).
  { split; [|reflexivity]. split; [unfold color_ok, channel_ok; cbn; lia|]. split; [reflexivity|exact I]. }
  split; [|split; [|split; [exact Hc|]]].
  - intros k Ek. injection Ek as <-. destruct (s_fg s) as [f|]; [now apply D3|exact W].
  - intros k Ek. now apply D4.
  - exists (s_flags s), r. split; [exact Et|]. split; [exact Hr|]. split; [|discriminate].
    cbn [shade_o option_map]. destruct (s_fg s), (s_bg s); reflexivity.
Qed.

Lemma drawable_fine : forall s, drawable s -> fine_span s.
Proof.
  intros s [_ [_ [H1 H2]]] c [E|E]; [destruct (H1 c E) as [[A [B _]] _]|destruct (H2 c E) as [[A [B _]] _]]; now apply fine_fone.
Qed.
Lemma drawable_opaque : forall s, drawable s -> opaque_span s.
Proof. intros s [_ [_ [H1 H2]]]. split; intros c E; [destruct (H1 c E) as [[_ [A _]] _]|destruct (H2 c E) as [[_ [A _]] _]]; exact A. Qed.

(** * The invariant *)
Section Inv.
Variables (e : env) (sh : triple -> ecolor) (w h : Z) (origin : pos) (g0 : Z -> Z -> ecell) (W0 H0 : Z).
Hypothesis Hsh : shades e sh.
Definition outside (X Y : Z) : Prop := ~ on_screen w h (X - fst origin + 1, Y - snd origin + 1).

(** [stale]: cells a full redraw showed without their colors, and that have not changed since *)
Definition plainly (stale : pos -> Prop) (P : picture) (q : pos) (c : ecell) : Prop :=
  c = (fst (P q), snd (P q), []) \/ (stale q /\ c = (fst (P q), rend0, [])).
Definition never : pos -> Prop := fun _ => False.
Record inv (stale : pos -> Prop) (k : world) (P : picture) : Prop := {
  i_w : sc_w (fst (fst k)) = w;
  i_h : sc_h (fst (fst k)) = h;
  i_shaped : shaped (fst (fst k));
  i_off : sc_off (fst (fst k)) = 0;
  i_keyed : keyed (fst (fst k));
  i_cache : cache_ok e (snd (fst k));
  i_rest : at_rest (snd k);
  i_size : e_w (snd k) = W0 /\ e_h (snd k) = H0;
  i_cell : forall q, on_screen w h q -> exists c, cell_at (fst (fst k)) q = Some c /\ shows sh c (P q);
  i_pending : forall q t, pending (fst (fst k)) q = Some t -> on_screen w h q /\ exists c, t = drawn e c /\ shows sh c (P q);
  i_shown : forall q, on_screen w h q -> pending (fst (fst k)) q = None -> plainly stale P q (seen origin (snd k) q);
  i_outside : forall X Y, outside X Y -> e_grid (snd k) X Y = g0 X Y
}.
Hypothesis Hfit : 1 <= fst origin /\ 1 <= snd origin /\ fst origin - 1 + w <= W0 /\ snd origin - 1 + h <= H0.

Lemma fill_shows : forall g, is_ctl g = false -> shows sh ([g], None, None) (g, rend0).
Proof.
  intros g Hg. split; [discriminate|]. split; [discriminate|]. split; [exact Hg|]. exists no_flags, []. cbn [fst snd shade_o option_map].
  split; [reflexivity|]. split; [auto|]. split; [now rewrite styled_none|auto].
Qed.
Lemma fill_drawn : forall t, t = drawn e (t, None, None). Proof. reflexivity. Qed.

Lemma buf_get_in : forall q t d, buf_get q d = Some t -> In (q, t) d.
Proof.
  intros q t d. induction d as [|[q' t'] d IH]; cbn; [discriminate|]. destruct (pos_eqb q' q) eqn:E.
  - apply pos_eqb_iff in E. subst q'. intro H. injection H as <-. auto.
  - intro H. right. auto.
Qed.
Lemma in_buf_get : forall q t d, NoDup (map fst d) -> In (q, t) d -> buf_get q d = Some t.
Proof.
  intros q t d. induction d as [|[q' t'] d IH]; cbn; [tauto|]. intros N [E|E].
  - injection E as -> ->. now rewrite pos_eqb_refl.
  - inversion N as [|? ? N1 N2]; subst. destruct (pos_eqb q' q) eqn:Eq.
    + apply pos_eqb_iff in Eq. subst q'. exfalso. apply N1. apply in_map_iff. now exists (q, t).
    + auto.
Qed.

Lemma inv_start : forall st cursor fill m, is_ctl fill = false -> at_rest m -> e_w m = W0 -> e_h m = H0 ->
  (forall X Y, outside X Y -> e_grid m X Y = g0 X Y) -> inv st (new_screen w h cursor [fill], [], m) (blank fill).
Proof.
  intros st cursor fill m Hfill Hm HW HH HG. destruct (new_screen_shape w h cursor [fill]) as [S K].
  assert (C : forall q, on_screen w h q -> cell_at (new_screen w h cursor [fill]) q = Some ([fill], None, None)).
  { intros q Hq. unfold new_screen. rewrite resize_cell by exact Hq. unfold cell_at. cbn [sc_cells].
    replace (mget [] (fst q) (snd q)) with (@None cell); [now destruct (_ && _)|].
    unfold mget. now destruct (Z.to_nat (snd q)). }
  assert (Pn : forall q, pending (new_screen w h cursor [fill]) q = if (0 <=? fst q) && (fst q <? w) && (0 <=? snd q) && (snd q <? h) then Some [fill] else None).
  { intro q. unfold new_screen. rewrite resize_pending. reflexivity. }
  split; cbn [fst snd]; auto.
  - constructor.
  - intros q Hq. exists ([fill], None, None). split; [auto|now apply fill_shows].
  - intros q t E. rewrite Pn in E. destruct (_ && _) eqn:Eb; [|discriminate]. injection E as <-.
    rewrite !andb_true_iff, !Z.leb_le, !Z.ltb_lt in Eb. split; [unfold on_screen; lia|].
    exists ([fill], None, None). split; [reflexivity|now apply fill_shows].
  - intros q [Q1 Q2] E. rewrite Pn in E. rewrite (proj2 (Z.leb_le 0 (fst q))), (proj2 (Z.leb_le 0 (snd q))), (proj2 (Z.ltb_lt (fst q) w)), (proj2 (Z.ltb_lt (snd q) h)) in E by lia. discriminate.
Qed.

Lemma inv_clear : forall st st' k P fill, inv st k P -> is_ctl fill = false -> inv st' (perform e origin k (AClear fill)) (paint_act sh w h P (AClear fill)).
Proof.
  intros st st' [[s c] m] P fill I Hfill. destruct I as [I1 I2 I3 I4 I5 I6 I7 I8 I9 I10 I11 I12]. cbn [fst snd] in *.
  destruct (clear_all s [fill]) as [C1 [C2 [C3 [C4 [C5 C6]]]]]. rewrite I1, I2 in *.
  cbn [perform paint_act]. split; cbn [fst snd]; auto.
  - pose proof (resize_keyed s (sc_w s) (sc_h s) [fill] false I5) as K. exact K.
  - intros q Hq. destruct (C5 q Hq) as [A B]. eexists. split; [exact A|]. now apply fill_shows.
  - intros q t E. assert (Hq : on_screen w h q).
    { assert (D : on_screen w h q \/ ~ on_screen w h q) by (unfold on_screen; lia). destruct D as [D|D]; auto.
      rewrite C6 in E by exact D. now apply (I10 q t). }
    split; auto. destruct (C5 q Hq) as [A B]. rewrite B in E. injection E as <-.
    exists ([fill], None, None). split; [reflexivity|now apply fill_shows].
  - intros q Hq E. destruct (C5 q Hq) as [A B]. rewrite B in E. discriminate.
Qed.

(** a write whose outcome shows the picture [P'] *)
Lemma inv_write_gen : forall (st st' : pos -> Prop) k (P P' : picture) data tb force, inv st k P ->
  Forall (calm_entry w h) data -> fine tb -> fine_data data ->
  (forall q, on_screen w h q -> match okf (outcome tb (laid_all e w h data) q) with
     | None => P' q = P q
     | Some (new, nl) => nl = false /\ shows sh new (P' q)
     end) ->
  (forall q, st q -> P' q = P q -> st' q) ->
  inv st' (perform e origin k (AWrite data tb force)) P'.
Proof.
  intros st st' [[s c] m] P P' data tb force I Hd Ht Hfine HO Hst. destruct I as [I1 I2 I3 I4 I5 I6 I7 I8 I9 I10 I11 I12]. cbn [fst snd] in *.
  assert (Hcalm : calm_write s data) by (split; [exact I4|rewrite I1, I2; exact Hd]).
  destruct (write_bulk_effect e c s data tb force I6 I3 Hcalm Ht Hfine) as [s' [c' [n [E [Hc' WE]]]]].
  cbn [perform]. rewrite E. destruct (we_size _ _ _ _ _ _ WE) as [S1 [S2 [S3 S4]]].
  assert (CELL : forall q, on_screen w h q -> exists old new, cell_at s q = Some old /\ cell_at s' q = Some new /\ shows sh old (P q) /\
     shows sh new (P' q) /\ ((pending s' q = pending s q /\ P' q = P q) \/ pending s' q = Some (drawn e new))).
  { intros q Hq. destruct (I9 q Hq) as [old [Eold Sold]]. exists old.
    assert (Hq' : on_screen (sc_w s) (sc_h s) q) by (rewrite I1, I2; exact Hq).
    pose proof (we_cell _ _ _ _ _ _ WE q old Hq' Eold) as G. rewrite I1, I2 in G. specialize (HO q Hq).
    destruct (okf (outcome tb (laid_all e w h data) q)) as [[new nl]|].
    - destruct HO as [-> Snew]. destruct G as [G1 G2]. destruct (cell_eqb new old) eqn:Eq.
      + apply same_cell_iff in Eq. pose proof (shows_det sh _ _ _ _ Eq Snew Sold) as Ev. destruct (G1 Eq) as [A B].
        exists old. rewrite Ev. auto 10.
      + assert (N : ~ same_cell new old) by (intro Hsame; apply same_cell_iff in Hsame; congruence).
        destruct (G2 N) as [A B]. exists new. rewrite drawn_entry in B. auto 10.
    - destruct G as [G1 G2]. exists old. rewrite HO. auto 10. }
  split; cbn [fst snd]; auto; try congruence.
  - apply WE.
  - apply (we_keyed _ _ _ _ _ _ WE). exact I5.
  - intros q Hq. destruct (CELL q Hq) as [old [new [A1 [A2 [A3 [A4 A5]]]]]]. eauto.
  - intros q t Et.
    assert (D : on_screen w h q \/ ~ on_screen w h q) by (unfold on_screen; lia). destruct D as [Hq|Hq].
    + split; auto. destruct (CELL q Hq) as [old [new [A1 [A2 [A3 [A4 [[A5 A6]|A5]]]]]]].
      * rewrite A6. apply (I10 q t). congruence.
      * exists new. split; [congruence|exact A4].
    + rewrite (we_off _ _ _ _ _ _ WE) in Et by (rewrite I1, I2; exact Hq). exfalso. apply Hq. apply (I10 q t Et).
  - intros q Hq En. destruct (CELL q Hq) as [old [new [A1 [A2 [A3 [A4 [[A5 A6]|A5]]]]]]]; [|congruence].
    assert (En' : pending s q = None) by congruence. unfold plainly. rewrite A6. destruct (I11 q Hq En') as [A7|[A7 A8]]; [left; exact A7|].
    right. split; [apply (Hst q A7 A6)|exact A8].
Qed.
Lemma inv_write : forall (st st' : pos -> Prop) k P data tb force, inv st k P -> act_ok w h (AWrite data tb force) ->
  (forall q, st q -> paint_act sh w h P (AWrite data tb force) q = P q -> st' q) ->
  inv st' (perform e origin k (AWrite data tb force)) (paint_act sh w h P (AWrite data tb force)).
Proof.
  intros st st' k P data tb force I [Hd [Ht Hs]] Hst.
  assert (Hfine : fine_data data).
  { unfold fine_data. revert Hs. apply Forall_impl. intros en. apply Forall_impl. apply drawable_fine. }
  assert (Hop : opaque_data data).
  { unfold opaque_data. revert Hs. apply Forall_impl. intros en. apply Forall_impl. apply drawable_opaque. }
  apply (inv_write_gen st st' k P); auto. intros q Hq. rewrite outcome_opaque by auto. cbn [paint_act].
  pose proof (Forall2_rev _ _ _ _ _ (covering_Forall2 _ q _ _ (data_glyphs e w h data Hs))) as CV.
  inversion CV as [E1 E2|i g l l' Hig Hl E1 E2]; cbn [okf]; [reflexivity|].
  split; [reflexivity|]. now apply piece_shows.
Qed.

Lemma inv_draw : forall st k P, inv st k P -> inv st (perform e origin k ADraw) (paint_act sh w h P ADraw) /\
  forall q, on_screen w h q -> plainly st P q (seen origin (snd (perform e origin k ADraw)) q).
Proof.
  intros st [[s c] m] P I. destruct I as [I1 I2 I3 I4 I5 I6 I7 I8 I9 I10 I11 I12]. cbn [fst snd] in *.
  destruct (render_spec s origin I5) as [items [Perm [Sorted R]]]. cbn [perform].
  destruct (render s origin false) as [out s'] eqn:Er. destruct R as [_ [Hout [Es' _]]].
  assert (Nd : NoDup (map fst items)).
  { apply (Permutation_NoDup (l := map fst (sc_buf s))); [apply Permutation_map, Permutation_sym, Perm|exact I5]. }
  assert (Hin : forall q, In q (map fst items) <-> pending s q <> None).
  { intro q. rewrite in_map_iff. split.
    - intros [[q' t] [E Hi]]. cbn in E. subst q'. unfold pending. rewrite (in_buf_get q t); [discriminate|exact I5|].
      eapply Permutation_in; eauto.
    - intro H. destruct (pending s q) as [t|] eqn:Ep; [|congruence]. apply buf_get_in in Ep. exists (q, t). split; auto.
      eapply Permutation_in; [apply Permutation_sym|]; eauto. }
  assert (Hi : Forall (shows_item e sh w h P) items).
  { apply Forall_forall. intros [q t] Hi. assert (Ep : pending s q = Some t).
    { unfold pending. apply in_buf_get; [exact I5|]. eapply Permutation_in; eauto. }
    destruct (I10 q t Ep) as [A [cl [B C]]]. split; [exact A|]. exists cl. auto. }
  assert (Hf : fits w h (fst origin, snd origin) m).
  { unfold fits. cbn [fst snd]. destruct I8 as [-> ->]. exact Hfit. }
  destruct (draw_items e sh w h (fst origin) (snd origin) Hsh P items None m Hi Nd I7 Hf) as [R1 [R2 [R3 [_ [R4 R5]]]]].
  { intros p Hp. discriminate. }
  assert (Em : emit (fst origin) (snd origin) None items = emitted origin items) by reflexivity.
  rewrite Em in *. set (m1 := vt (emitted origin items) m) in *.
  assert (V : vt out m = m1).
  { destruct Hout as [-> | ->]; [reflexivity|]. rewrite vt_app. fold m1. change [27; 91; 48; 109] with RESET.
    destruct R1 as [Q1 [Q2 Q3]]. rewrite vt_reset by exact Q1. rewrite <- Q2. apply set_rend_id. }
  rewrite V. cbn [snd fst].
  assert (SEEN : forall q, on_screen w h q -> plainly st P q (seen origin m1 q)).
  { intros q Hq. destruct (pending s q) as [t|] eqn:Ep.
    - assert (Hq' : In q (map fst items)) by (apply Hin; congruence). left. destruct origin. exact (R4 q Hq').
    - replace (seen origin m1 q) with (seen origin m q); [exact (I11 q Hq Ep)|]. symmetry. unfold seen. apply R5. intro Hq'. apply Hin in Hq'. apply Hq'.
      replace (fst q + fst origin - 1 - fst origin + 1, snd q + snd origin - 1 - snd origin + 1) with q; [exact Ep|].
      destruct q; cbn; f_equal; lia. }
  split; [|exact SEEN]. subst s'. cbn [paint_act]. split; cbn [fst snd sc_w sc_h sc_off]; auto.
  - constructor.
  - destruct I8. split; congruence.
  - intros q t E. discriminate E.
  - intros X Y Ho. rewrite <- I12 by exact Ho. apply R5. intro Hq. apply Ho. apply Hin in Hq.
    destruct (pending s (X - fst origin + 1, Y - snd origin + 1)) as [t|] eqn:Ep; [|congruence]. apply (I10 _ _ Ep).
Qed.

Lemma inv_weaken : forall (st st' : pos -> Prop) k P, (forall q, st q -> st' q) -> inv st k P -> inv st' k P.
Proof.
  intros st st' k P H [I1 I2 I3 I4 I5 I6 I7 I8 I9 I10 I11 I12]. split; auto.
  intros q Hq E. destruct (I11 q Hq E) as [A|[A B]]; [left; exact A|right; split; [now apply H|exact B]].
Qed.
Lemma inv_act : forall (st st' : pos -> Prop) a k P, inv st k P -> act_ok w h a -> (forall q, st q -> paint_act sh w h P a q = P q -> st' q) ->
  inv st' (perform e origin k a) (paint_act sh w h P a).
Proof.
  intros st st' a k P I Ha H. destruct a as [data tb force|fill|].
  - eapply inv_write; eauto.
  - eapply inv_clear; eauto.
  - apply inv_weaken with (st := st); [intros q Hq; now apply H|]. now apply inv_draw.
Qed.
Lemma inv_run : forall acts k P, inv never k P -> Forall (act_ok w h) acts ->
  inv never (fold_left (perform e origin) acts k) (fold_left (paint_act sh w h) acts P).
Proof.
  intro acts. induction acts as [|a acts IH]; intros k P I Ha; [exact I|]. inversion Ha as [|? ? H1 H2]; subst.
  cbn [fold_left]. apply IH; [|exact H2]. apply inv_act with (st := never); auto.
Qed.
End Inv.

(** * The theorem *)
Lemma drawing : forall e sh w h cursor fill origin m acts, shades e sh -> is_ctl fill = false ->
  at_rest m -> fits w h origin m -> Forall (act_ok w h) acts ->
  let '(s, _, m') := fold_left (perform e origin) (acts ++ [ADraw]) (new_screen w h cursor [fill], [], m) in
  let p := fold_left (paint_act sh w h) acts (blank fill) in
  (forall q, on_screen w h q -> seen origin m' q = (fst (p q), snd (p q), [])) /\
  (forall X Y, ~ on_screen w h (X - fst origin + 1, Y - snd origin + 1) -> e_grid m' X Y = e_grid m X Y) /\
  at_rest m' /\ sc_buf s = [].
Proof.
  intros e sh w h cursor fill origin m acts Hsh Hfill Hm Hf Ha.
  assert (I0 : inv e sh w h origin (e_grid m) (e_w m) (e_h m) never (new_screen w h cursor [fill], [], m) (blank fill)) by (apply inv_start; auto).
  pose proof (inv_run e sh w h origin (e_grid m) (e_w m) (e_h m) Hsh Hf acts _ _ I0 Ha) as I1.
  rewrite fold_left_app. cbn [fold_left]. set (k := fold_left (perform e origin) acts _) in *.
  destruct (inv_draw e sh w h origin (e_grid m) (e_w m) (e_h m) Hsh Hf never k _ I1) as [I2 S].
  assert (B : sc_buf (fst (fst (perform e origin k ADraw))) = []).
  { destruct k as [[s c] m0]. cbn [perform]. unfold render. destruct origin. reflexivity. }
  destruct (perform e origin k ADraw) as [[s c'] m'] eqn:E. cbn [fst snd] in *. cbv zeta.
  split; [intros q Hq; destruct (S q Hq) as [A|[[] _]]; exact A|]. split; [intros X Y HX; apply (i_outside _ _ _ _ _ _ _ _ _ _ _ I2); exact HX|].
  split; [apply (i_rest _ _ _ _ _ _ _ _ _ _ _ I2)|exact B].
Qed.
