(** Lemmas: Spans written by themselves. *)
From Coq Require Import ZArith Reals List Bool Lia String.
From Verif Require Import PyBase PyLemmas F64 SpaceModel ColorModel ColorSpec AnsiRe SpanModel Vt SpanSpec
  ScreenModel ScreenSpec DrawSpec DrawProofs2 TileSpec TileProofs PenSpec PenProofs PenProofs2 PenProofs3 LoneSpec.
Import ListNotations.
Open Scope Z_scope.
Open Scope list_scope.

Definition one (s : span) (c : Z) : span := mkSpan [c] (s_fg s) (s_bg s) (s_link s) (s_flags s) true.
Lemma iter_one : forall s, span_iter s = map (one s) (s_text s).
Proof. reflexivity. Qed.
Lemma one_drawable : forall s, inkable s -> Forall drawable (span_iter s).
Proof.
  intros s [H1 [H2 H3]]. rewrite iter_one. apply Forall_map. revert H1. apply Forall_impl. intros c Hc.
  split; [constructor; [exact Hc|constructor]|]. split; [discriminate|]. split; assumption.
Qed.
Lemma lone_act_ok : forall w h p s tb f, lone_ok w h (LWrite p s tb f) -> act_ok w h (AWrite [(p, span_iter s)] tb f).
Proof.
  intros w h [x y] s tb f [H1 [H2 [H3 H4]]]. split; [|split; [exact H3|constructor; [now apply one_drawable|constructor]]].
  constructor; [|constructor]. split; [exact H1|]. rewrite iter_one. split.
  - apply Forall_map. destruct H2 as [H2 _]. revert H2. apply Forall_impl. intros c Hc [E|[]]. subst c. discriminate.
  - destruct (s_text s) as [|c [|c' r]]; [exact Logic.I|exact Logic.I|]. cbn [map]. intros Hx Hy.
    change (zlen (s_text (one s c))) with 1. apply H4; try assumption. unfold zlen. cbn [List.length]. lia.
Qed.
(** the same picture *)
Lemma lone_paint : forall sh w h p s tb f P q,
  paint_act sh w h P (AWrite [(p, span_iter s)] tb f) q = paint_act sh w h P (AWrite [(p, [s])] tb f) q.
Proof.
  intros sh w h [x y] s tb f P q. cbn [paint_act flat_map]. rewrite !app_nil_r. unfold spots. destruct (_ && _); [|reflexivity].
  assert (G : Forall2 (fun g g' => painted sh g = painted sh g') (glyphs (span_iter s)) (glyphs [s])).
  { unfold glyphs. cbn [flat_map]. rewrite app_nil_r, iter_one. induction (s_text s) as [|c t IH]; [constructor|].
    cbn [map flat_map app]. constructor; [reflexivity|exact IH]. }
  pose proof (Forall2_rev _ _ _ _ _ (covering_related _ _ _ q _ _ (number_related _ _ _ w h _ _ (y * w + x) G))) as CV.
  revert CV. generalize (rev (covering q (number w h (y * w + x) (glyphs (span_iter s))))).
  generalize (rev (covering q (number w h (y * w + x) (glyphs [s])))). intros l' l CV. destruct CV as [|g g' l l' Hg Hl]; [reflexivity|exact Hg].
Qed.

(** * Clean cells: attributes end in the cell *)
Definition clean (i : ink) : Prop := tile_ends (ink_tile i) = true \/ styled (tile_flags (ink_tile i)) None None rend0 = rend0.
Lemma one_clean : forall s c, Forall clean (span_inks (one s c)).
Proof.
  intros s c. unfold span_inks. cbn [one s_text s_flags s_reset worn_tiles map]. constructor; [|constructor]. unfold clean. cbn [ink_tile tile_ends tile_flags].
  destruct (existsb _ _) eqn:E; [now left|right]. destruct (s_flags s) as [b1 b2 b3 b4 b5 b6 b7 b8 b9 o]. cbn in E.
  rewrite !orb_false_iff in E. unfold styled. cbn. decompose [and] E. subst. reflexivity.
Qed.
Lemma number_clean : forall w h l p, Forall clean l -> Forall (fun i => clean (snd i)) (number w h p l).
Proof. intros w h l. induction l as [|a l IH]; intros p H; [constructor|]. inversion H; subst. cbn [number]. destruct (_ <? _); constructor; auto. Qed.
Lemma lone_spots_clean : forall w h p s, Forall (fun i => clean (snd i)) (ink_spots w h (p, span_iter s)).
Proof.
  intros w h [x y] s. unfold ink_spots. destruct (_ && _); [|constructor]. apply number_clean. rewrite iter_one.
  induction (s_text s) as [|c t IH]; [constructor|]. cbn [map flat_map]. apply Forall_app. split; [apply one_clean|exact IH].
Qed.
Lemma clean_pen : forall w (T : tiling), (forall q, tile_ends (T q) = true \/ styled (tile_flags (T q)) None None rend0 = rend0) ->
  forall n, pen_at w T rend0 n = rend0.
Proof.
  intros w T H n. induction n as [|n IH]; [reflexivity|]. cbn [pen_at]. rewrite IH. unfold pen_after.
  destruct (H (nth_pos w n)) as [-> | E]; [reflexivity|]. rewrite E. now destruct (tile_ends _).
Qed.
Lemma drawing_pen0 : forall w D n, d_pen D = rend0 -> drawing_pen w D n = rend0.
Proof. intros w D n H. induction n as [|n IH]; [exact H|]. cbn [drawing_pen]. destruct (_ && _); [reflexivity|exact IH]. Qed.

Section Lone.
Variables (sh : triple -> ecolor) (w h : Z).
Record lone_inv (red : bool) (D : display) (P : picture) : Prop := {
  li_pen : d_pen D = rend0;
  li_clean : forall q, clean (d_ink D q);
  li_look : forall q, ink_look sh (P q) (d_ink D q);
  li_seen : forall q, d_due D q = false -> d_seen D q = (fst (P q), snd (P q), []) \/ (red = true /\ d_seen D q = (fst (P q), uncolored (snd (P q)), []))
}.
Definition redraws (a : lone_act) : bool := match a with LRedraw => true | _ => false end.
Lemma look_uncolored : forall v i, ink_look sh v i -> styled (tile_flags (ink_tile i)) None None rend0 = uncolored (snd v) /\ tile_char (ink_tile i) = fst v.
Proof. intros v i H. unfold ink_look, inked in H. injection H as H1 H2. rewrite <- H2, H1. split; reflexivity. Qed.
Lemma lone_step : forall red D P a, lone_inv red D P -> lone_ok w h a ->
  lone_inv (red || redraws a) (show_event sh w h D (by_itself a)) (paint_act sh w h P (in_list a)).
Proof.
  intros red D P a [I1 I2 I3 I4] Ha. destruct a as [p s tb f|fill| |]; cbn [redraws]; rewrite ?orb_false_r, ?orb_true_r.
  - pose proof (lone_act_ok w h p s tb f Ha) as Hok.
    assert (L : forall q, ink_look sh (paint_act sh w h P (in_list (LWrite p s tb f)) q) (d_ink (show_event sh w h D (by_itself (LWrite p s tb f))) q)).
    { intro q. pose proof (ink_look_act sh w h (AWrite [(p, span_iter s)] tb f) P D Hok I3 q) as L. rewrite lone_paint in L. exact L. }
    split; [exact I1| |exact L|].
    + intro q. cbn [by_itself show_event d_ink flat_map]. rewrite app_nil_r. pose proof (lone_spots_clean w h p s) as C.
      destruct (rev (covering q (ink_spots w h (p, span_iter s)))) as [|i r] eqn:E; [apply I2|].
      assert (Hi : In i (covering q (ink_spots w h (p, span_iter s)))) by (apply in_rev; rewrite E; now left).
      unfold covering in Hi. apply in_map_iff in Hi. destruct Hi as [[q0 i0] [E0 Hi]]. cbn in E0. subst i0. apply filter_In in Hi. destruct Hi as [Hi _].
      rewrite Forall_forall in C. exact (C _ Hi).
    + intros q Hd. specialize (L q). cbn [by_itself show_event d_due d_seen d_ink] in *. rewrite orb_false_iff, negb_false_iff in Hd. destruct Hd as [Hd Hsame].
      apply same_ink_iff in Hsame. rewrite Hsame in L. specialize (I3 q). assert (E : paint_act sh w h P (in_list (LWrite p s tb f)) q = P q).
      { revert L I3. generalize (paint_act sh w h P (in_list (LWrite p s tb f)) q) (P q). intros u v L I3. unfold ink_look in *. rewrite L in I3.
        destruct u as [u1 u2], v as [v1 v2]. cbn [fst snd] in I3. congruence. }
      rewrite E. now apply I4.
  - split; cbn [by_itself in_list show_event paint_act d_pen d_ink d_due d_seen]; try discriminate; auto.
    + intro q. right. reflexivity.
    + intro q. reflexivity.
  - split; cbn [by_itself in_list show_event paint_act d_pen d_ink d_due d_seen]; auto.
    intros q _. destruct (d_due D q) eqn:E; [|now apply I4]. left. rewrite drawing_pen0 by exact I1. apply I3.
  - assert (PA : forall n, pen_at w (tiles_of D) (d_pen D) n = rend0) by (rewrite I1; apply clean_pen; intro q; apply I2).
    split; cbn [by_itself in_list show_event paint_act d_pen d_ink d_due d_seen]; auto.
    intros q _. right. split; [reflexivity|]. rewrite PA. unfold tiles_of. destruct (look_uncolored _ _ (I3 q)) as [-> ->]. reflexivity.
Qed.
Lemma lone_run : forall acts red D P, lone_inv red D P -> Forall (lone_ok w h) acts ->
  lone_inv (red || existsb redraws acts) (fold_left (show_event sh w h) (map by_itself acts) D) (fold_left (paint_act sh w h) (map in_list acts) P).
Proof.
  intro acts. induction acts as [|a acts IH]; intros red D P I F; [rewrite orb_false_r; exact I|]. inversion F; subst. cbn [map fold_left existsb].
  rewrite orb_assoc. apply IH; [|assumption]. now apply lone_step.
Qed.
End Lone.
Lemma lone_event_ok : forall w h a, lone_ok w h a -> event_ok w h (by_itself a).
Proof.
  intros w h [p s tb f|fill| |] H; cbn [by_itself]; try exact Logic.I; [|exact H]. apply act_event_ok. now apply lone_act_ok.
Qed.

Section Program.
Variables (e : env) (sh : triple -> ecolor) (w h : Z) (cursor : pos) (fill : Z) (origin : pos) (m : emu) (acts : list lone_act).
Hypothesis Hsh : shades e sh.
Hypothesis Hfill : is_ctl fill = false.
Hypothesis Hm : at_rest m.
Hypothesis Hfit : fits w h origin m.
Hypothesis Hacts : Forall (lone_ok w h) acts.
Lemma lone_program : forall a, (a = LDraw \/ a = LRedraw) ->
  let '(_, _, m') := fold_left (perform_event e origin) (map by_itself (acts ++ [a])) (new_screen w h cursor [fill], [], m) in
  let p := fold_left (paint_act sh w h) (map in_list acts) (blank fill) in
  (forall q, on_screen w h q -> seen origin m' q = (fst (p q), snd (p q), []) \/
     ((exists b, In b (acts ++ [a]) /\ redraws b = true) /\ seen origin m' q = (fst (p q), uncolored (snd (p q)), []))) /\
  (a = LRedraw -> forall q, on_screen w h q -> seen origin m' q = (fst (p q), uncolored (snd (p q)), [])) /\
  (forall X Y, ~ on_screen w h (X - fst origin + 1, Y - snd origin + 1) -> e_grid m' X Y = e_grid m X Y) /\ at_rest m'.
Proof.
  intros a Ha. assert (Hm' : listening m) by (destruct Hm as [A [B C]]; split; assumption).
  assert (HA : Forall (lone_ok w h) (acts ++ [a])) by (apply Forall_app; split; [exact Hacts|constructor; [destruct Ha; subst a; exact Logic.I|constructor]]).
  assert (HV : Forall (event_ok w h) (map by_itself (acts ++ [a]))) by (apply Forall_map; revert HA; apply Forall_impl; intros b; apply lone_event_ok).
  pose proof (shown_exactly e sh w h cursor fill origin m _ Hsh Hfill Hm' Hfit HV) as S.
  destruct (fold_left (perform_event e origin) _ _) as [[s c] m']. cbv zeta in *. destruct S as [S1 [S2 [S3 [[S4 S5] _]]]].
  assert (I0 : lone_inv sh false (first_display fill origin m) (blank fill)).
  { split; cbn [first_display d_pen d_ink d_due d_seen]; [apply Hm|intro; right; reflexivity|intro; reflexivity|discriminate]. }
  pose proof (lone_run sh w h acts _ _ _ I0 Hacts) as IA.
  set (p := fold_left (paint_act sh w h) (map in_list acts) (blank fill)) in *.
  set (DA := fold_left (show_event sh w h) (map by_itself acts) (first_display fill origin m)) in *.
  set (D := fold_left (show_event sh w h) (map by_itself (acts ++ [a])) (first_display fill origin m)) in *.
  assert (ED : D = show_event sh w h DA (by_itself a)) by (unfold D; rewrite map_app, fold_left_app; reflexivity).
  assert (OKa : lone_ok w h a) by (destruct Ha; subst a; exact Logic.I).
  pose proof (lone_step sh w h _ _ _ a IA OKa) as IB. rewrite <- ED in IB.
  assert (EP : paint_act sh w h p (in_list a) = p) by (destruct Ha; subst a; reflexivity). rewrite EP in IB. destruct IB as [B1 B2 B3 B4].
  assert (ND : forall q, d_due D q = false) by (intro q; rewrite ED; destruct Ha; subst a; reflexivity).
  split; [|split; [|split; [exact S2|split; [exact S4|split; [rewrite S3; exact B1|exact S5]]]]].
  - intros q Hq. rewrite S1 by exact Hq. destruct (B4 q (ND q)) as [X|[R X]]; [now left|right]. split; [|exact X].
    cbn [orb] in R. apply orb_true_iff in R. destruct R as [R|R].
    + apply existsb_exists in R. destruct R as [b [Hb R]]. exists b. split; [apply in_app_iff; now left|exact R].
    + exists a. split; [apply in_app_iff; right; now left|exact R].
  - intros -> q Hq. rewrite S1 by exact Hq. rewrite ED. cbn [by_itself show_event d_seen].
    destruct IA as [A1 A2 A3 A4]. assert (PA : forall n, pen_at w (tiles_of DA) (d_pen DA) n = rend0) by (rewrite A1; apply clean_pen; intro; apply A2).
    rewrite PA. unfold tiles_of. destruct (look_uncolored _ _ _ (A3 q)) as [-> ->]. reflexivity.
Qed.
Lemma lone_drawing : Forall no_redraw acts ->
  let '(_, _, m') := fold_left (perform_event e origin) (map by_itself (acts ++ [LDraw])) (new_screen w h cursor [fill], [], m) in
  let p := fold_left (paint_act sh w h) (map in_list acts) (blank fill) in
  (forall q, on_screen w h q -> seen origin m' q = (fst (p q), snd (p q), [])) /\
  (forall X Y, ~ on_screen w h (X - fst origin + 1, Y - snd origin + 1) -> e_grid m' X Y = e_grid m X Y) /\ at_rest m'.
Proof.
  intro NR. pose proof (lone_program LDraw (or_introl eq_refl)) as L. destruct (fold_left (perform_event e origin) _ _) as [[s c] m']. cbv zeta in *.
  destruct L as [L1 [_ [L3 L4]]]. split; [|auto]. intros q Hq. destruct (L1 q Hq) as [X|[[b [Hb R]] _]]; [exact X|].
  apply in_app_iff in Hb. rewrite Forall_forall in NR. destruct Hb as [Hb|[<-|[]]]; [|discriminate]. specialize (NR b Hb). destruct b; try discriminate. destruct NR.
Qed.
Lemma lone_redraw :
  let '(_, _, m') := fold_left (perform_event e origin) (map by_itself (acts ++ [LRedraw])) (new_screen w h cursor [fill], [], m) in
  let p := fold_left (paint_act sh w h) (map in_list acts) (blank fill) in
  (forall q, on_screen w h q -> seen origin m' q = (fst (p q), uncolored (snd (p q)), [])) /\
  (forall X Y, ~ on_screen w h (X - fst origin + 1, Y - snd origin + 1) -> e_grid m' X Y = e_grid m X Y) /\ at_rest m'.
Proof.
  pose proof (lone_program LRedraw (or_intror eq_refl)) as L. destruct (fold_left (perform_event e origin) _ _) as [[s c] m']. cbv zeta in *.
  destruct L as [_ [L2 L3]]. split; [now apply L2|exact L3].
Qed.
Lemma lone_any : 
  let '(_, _, m') := fold_left (perform_event e origin) (map by_itself (acts ++ [LDraw])) (new_screen w h cursor [fill], [], m) in
  let p := fold_left (paint_act sh w h) (map in_list acts) (blank fill) in
  (forall q, on_screen w h q -> seen origin m' q = (fst (p q), snd (p q), []) \/ seen origin m' q = (fst (p q), uncolored (snd (p q)), [])) /\ at_rest m'.
Proof.
  pose proof (lone_program LDraw (or_introl eq_refl)) as L. destruct (fold_left (perform_event e origin) _ _) as [[s c] m']. cbv zeta in *.
  destruct L as [L1 [_ [_ L4]]]. split; [|exact L4]. intros q Hq. destruct (L1 q Hq) as [X|[_ X]]; auto.
Qed.
End Program.
