(** Proofs about whole programs over color objects: while the color space stays as it is, the
    caches cannot be seen. *)
From Coq Require Import ZArith List Bool Lia String.
From Verif Require Import PyBase PyLemmas F64 SpaceModel ColorModel ColorProofs2 SpanModel ScreenModel
  ScreenProofs ObjModel ObjSpec ObjProofs ObjProofs2.
Open Scope Z_scope.

(** * Screens *)
Record screenR (H : list color) (a : oscreen) (b : screen) : Prop := {
  scr_w : sco_w a = sc_w b;
  scr_h : sco_h a = sc_h b;
  scr_cells : matR (cellR H) (sco_cells a) (sc_cells b);
  scr_buf : sco_buf a = sc_buf b;
  scr_cursor : sco_cursor a = sc_cursor b;
  scr_off : sco_off a = sc_off b
}.
Lemma screenR_app : forall H l a b, screenR H a b -> screenR (H ++ l) a b.
Proof.
  intros H l a b [A B C D E F]. constructor; auto. eapply matR_impl; [|exact C]. intros. now apply cellR_app.
Qed.
Lemma fill_row_R : forall H w fill, Forall2 (cellR H) (ofill_row w fill) (fill_row w fill).
Proof.
  intros H w fill. unfold ofill_row, fill_row. generalize (range w). intro l. induction l; cbn; constructor; auto. repeat split.
Qed.
Lemma overlay_row_R : forall H n n' o o', Forall2 (cellR H) n n' -> Forall2 (cellR H) o o' ->
  Forall2 (cellR H) (ooverlay_row n o) (overlay_row n' o').
Proof.
  intros H n n' o o' Hn. revert o o'. induction Hn as [|x y n n' Hx Hn IH]; intros o o' Ho; cbn; [constructor|].
  destruct Ho; constructor; auto.
Qed.
Lemma overlay_R : forall H n n' o o', matR (cellR H) n n' -> matR (cellR H) o o' ->
  matR (cellR H) (ooverlay n o) (overlay n' o').
Proof.
  intros H n n' o o' Hn. revert o o'. induction Hn as [|x y n n' Hx Hn IH]; intros o o' Ho; cbn; [constructor|].
  destruct Ho as [|r r' o o' Hr Ho]; constructor; auto; [now apply overlay_row_R|now apply IH].
Qed.
Lemma resize_R : forall H a b sz fill keep, screenR H a b -> screenR H (oresize a sz fill keep) (resize b sz fill keep).
Proof.
  intros H a b [w h] fill keep [A B C D E F]. unfold oresize, resize.
  assert (M : matR (cellR H) (map (fun _ => ofill_row w fill) (range h)) (map (fun _ => fill_row w fill) (range h))).
  { generalize (range h). intro l. induction l; cbn; constructor; auto. apply fill_row_R. }
  constructor; cbn; auto; [|now rewrite D]. destruct keep; auto. now apply overlay_R.
Qed.
Lemma clear_R : forall H a b fill, screenR H a b -> screenR H (oclear a fill) (clear b fill).
Proof.
  intros H a b fill S. pose proof (resize_R H a b (sco_w a, sco_h a) fill false S) as P.
  destruct S as [A B C D E F]. unfold oclear, clear. rewrite <- A, <- B.
  destruct P as [A' B' C' D' E' F']. constructor; auto.
Qed.
Lemma redraw_R : forall H m m' x y, matR (cellR H) m m' -> oredraw_rows x y m = redraw_rows x y m'.
Proof.
  intros H m m' x y M. revert y. induction M as [|r r' m m' Hr M IH]; intro y; cbn [oredraw_rows redraw_rows]; auto.
  rewrite IH. f_equal. apply (f_equal (fun z => z ++ redraw_rows x (y + 1) m')). apply (f_equal (@concat Z)).
  clear -Hr. induction Hr as [|a b r r' [E _] Hr IH]; cbn; auto. now rewrite IH, E.
Qed.
Lemma render_R : forall H a b o rd, screenR H a b ->
  fst (orender a o rd) = fst (render b o rd) /\ screenR H (snd (orender a o rd)) (snd (render b o rd)).
Proof.
  intros H a b [x y] rd [A B C D E F]. unfold orender, render.
  rewrite (redraw_R H _ _ x y C), D. destruct rd; cbn [fst snd]; split; auto; constructor; auto.
Qed.
Lemma new_screen_R : forall H w h c fill, screenR H (onew_screen w h c fill) (new_screen w h c fill).
Proof. intros. unfold onew_screen, new_screen. apply resize_R. constructor; cbn; auto. constructor. Qed.

Lemma set_chars_good : forall e w c, good e w -> good e (set_chars c w).
Proof. intros e [o b h] c [A B C D E F]. constructor; auto. Qed.

Lemma cache_grow : forall w w' e a b, grows w w' -> cacheR (vals w) e a b -> cacheR (vals w') e a b.
Proof. intros w w' e a b [l ->] H. now apply cacheR_app. Qed.

Lemma write_R : forall e w sc scv data datav tb tbv chv, good e w -> screenR (vals w) sc scv ->
  dataR (vals w) e data datav -> R (vals w) tb tbv -> cacheR (vals w) e (w_chars w) chv ->
  let '(sc1, w1, r1) := owrite_bulk e sc data tb w in
  let '(sc2, ch2, r2) := write_bulk e chv scv datav tbv false in
  good e w1 /\ grows w w1 /\ screenR (vals w1) sc1 sc2 /\ cacheR (vals w1) e (w_chars w1) ch2 /\ r1 = r2.
Proof.
  intros e w sc scv data datav tb tbv chv G [A B C D E F] Dt Ht Ch. unfold owrite_bulk, write_bulk.
  rewrite <- A, <- B, <- D, <- E, <- F. set (wd := sco_w sc). set (h := sco_h sc).
  set (st := mkOW _ _ _ _ _). set (stv := mkW _ _ _ _ _).
  assert (S : wsR w e st stv).
  { constructor; cbn; auto; apply matR_blank; cbn; auto. }
  destruct (all_R w e wd h data datav st stv Dt S) as [S1 ER].
  destruct (oplace_all (w_objs w) wd h data st) as [st1 [?|x]];
    destruct (place_all e wd h datav stv) as [stv1 [?|xv]]; cbn [fst snd] in S1, ER; try discriminate;
    destruct S1 as [W1 W2 W3 W4 W5].
  - set (w0 := set_chars (ow_cache st1) w).
    pose proof (commit_R e (ow_wm st1) (ws_wm stv1) w0 tb tbv (ow_am st1) (ws_am stv1) 0 (ow_cells st1) (ws_cells stv1)
      (sco_buf sc) 0 (set_chars_good _ _ _ G) Ht W1 W2 W3) as P.
    destruct (ocommit e tb (ow_wm st1) (ow_am st1) 0 (ow_cells st1) (sco_buf sc) 0 w0) as [[[[c1 b1] n1] w1] ex1].
    destruct (commit e tbv (ws_wm stv1) (ws_am stv1) 0 (ws_cells stv1) (sco_buf sc) 0) as [[[c2 b2] n2] ex2].
    destruct P as [G1 [Gr1 [C1 [M1 [<- [<- <-]]]]]].
    assert (Gr : grows w w1) by exact Gr1.
    split; auto. split; auto. split; [constructor; cbn; auto|]. split; auto.
    rewrite C1. cbn [w0 set_chars w_chars]. eapply cache_grow; eauto.
  - injection ER as ->. split; [now apply set_chars_good|]. split; [exact (grows_refl w)|].
    split; [constructor; cbn; auto|]. split; auto.
Qed.

(** * Programs *)
Record machineR (m : machine) (p : plain) : Prop := {
  mr_good : good (m_env m) (m_world m);
  mr_env : m_env m = p_env p;
  mr_colors : Forall2 (R (vals (m_world m))) (m_colors m) (p_colors p);
  mr_spans : Forall2 (spanR (vals (m_world m)) (m_env m)) (m_spans m) (p_spans p);
  mr_screen : screenR (vals (m_world m)) (m_screen m) (p_screen p);
  mr_chars : cacheR (vals (m_world m)) (m_env m) (w_chars (m_world m)) (p_cache p)
}.
Lemma colors_grow : forall w w' a b, grows w w' -> Forall2 (R (vals w)) a b -> Forall2 (R (vals w')) a b.
Proof. intros w w' a b [l ->] H. induction H; constructor; auto. now apply R_app. Qed.
Lemma spans_grow : forall w w' e a b, grows w w' -> Forall2 (spanR (vals w) e) a b -> Forall2 (spanR (vals w') e) a b.
Proof. intros w w' e a b [l ->] H. induction H; constructor; auto. now apply spanR_app. Qed.
Lemma screen_grow : forall w w' a b, grows w w' -> screenR (vals w) a b -> screenR (vals w') a b.
Proof. intros w w' a b [l ->] H. now apply screenR_app. Qed.
Lemma machine_grow : forall w w' cs ss sc e csv ssv scv chv, good e w' -> grows w w' -> w_chars w' = w_chars w ->
  Forall2 (R (vals w)) cs csv -> Forall2 (spanR (vals w) e) ss ssv -> screenR (vals w) sc scv ->
  cacheR (vals w) e (w_chars w) chv -> machineR (mkMachine w' cs ss sc e) (mkPlain csv ssv scv chv e).
Proof.
  intros. constructor; cbn; auto.
  - eapply colors_grow; eauto.
  - eapply spans_grow; eauto.
  - eapply screen_grow; eauto.
  - rewrite H1. eapply cache_grow; eauto.
Qed.
Lemma step_R : forall o m p, match o with OSpace _ => False | _ => True end -> machineR m p ->
  machineR (fst (ostep o m)) (fst (plain_step o p)) /\ snd (ostep o m) = snd (plain_step o p).
Proof.
  intros o [w cs ss sc e] [csv ssv scv chv ev] K MR. pose proof MR as [G Ev Cs Ss Sc Ch].
  cbn [m_env m_world m_colors m_spans m_screen p_env p_colors p_spans p_screen p_cache] in *. subst ev.
  destruct o; cbn [ostep plain_step]; try contradiction.
  - pose proof (cop_agrees e w cs csv c G Cs) as A. unfold agrees in A.
    destruct (run_cop e cs c w) as [w1 [r|x]]; destruct (plain_cop e csv c) as [v|y]; try tauto.
    + destruct A as [G1 [Gr [C1 HR]]]. split; auto. cbn [fst].
      pose proof (machine_grow w w1 cs ss sc e csv ssv scv chv G1 Gr C1 Cs Ss Sc Ch) as [M1 M2 M3 M4 M5 M6].
      constructor; auto. cbn in *. apply Forall2_app; auto.
    + destruct A as [G1 [Gr [C1 ->]]]. split; auto. cbn [fst]. eapply machine_grow; eauto.
  - split; auto. cbn [snd]. pose proof (getc_R _ _ _ _ _ i Cs) as N.
    destruct (getc cs i), (getc csv i); cbn in N; try tauto; [|now subst]. now rewrite (R_val _ _ _ N).
  - pose proof (getc_R _ _ _ _ _ i Cs) as N.
    destruct (getc cs i) as [r|x], (getc csv i) as [c|y]; cbn in N; try tauto; [|now subst].
    pose proof (ansi_agrees e w r c G N) as A. unfold agrees in A.
    destruct (oansi e r w) as [w1 [a|x]]; [|tauto]. destruct A as [G1 [Gr [C1 ->]]]. split; auto.
    cbn [fst]. eapply machine_grow; eauto.
  - pose proof (getopt_R _ _ _ fg Cs) as N1. pose proof (getopt_R _ _ _ bg Cs) as N2. unfold bindW, liftW.
    destruct (getopt cs fg) as [a|x], (getopt csv fg) as [av|xv]; cbn in N1; try tauto.
    2:{ subst. split; auto. }
    destruct (getopt cs bg) as [b|x], (getopt csv bg) as [bv|xv]; cbn in N2; try tauto.
    2:{ subst. split; auto. }
    pose proof (new_span_agrees e w text a b av bv link f reset G N1 N2) as A. unfold agrees in A.
    destruct (new_span e text a b link f reset w) as [w1 [s|x]]; [|tauto].
    destruct A as [G1 [Gr [C1 HR]]]. split; auto. cbn [fst].
    pose proof (machine_grow w w1 cs ss sc e csv ssv scv chv G1 Gr C1 Cs Ss Sc Ch) as [M1 M2 M3 M4 M5 M6].
    constructor; auto. cbn in *. apply Forall2_app; auto.
  - split; auto. cbn [snd]. pose proof (getc_R _ _ _ _ _ k Ss) as N.
    destruct (getc ss k), (getc ssv k); cbn in N; try tauto; [|now subst]. now rewrite (sr_computed _ _ _ _ N).
  - pose proof (getc_R _ _ _ _ _ k Ss) as N.
    destruct (getc ss k) as [s|x], (getc ssv k) as [sv|xv]; cbn in N; try tauto; [|now subst].
    destruct (characters_R (w_objs w) e (w_chars w) chv s sv exclude always Ch N) as [E1 E2].
    destruct (ocharacters (w_objs w) (w_chars w) s exclude always) as [l c].
    destruct (cached_characters e chv sv exclude always) as [l' c']. cbn [fst snd] in *. subst l'.
    split; auto. constructor; cbn; auto. now apply set_chars_good.
  - pose proof (getdata_R _ _ _ _ _ data Ss) as N1. pose proof (getopt_R _ _ _ tb Cs) as N2.
    destruct (getdata ss data) as [d|x], (getdata ssv data) as [dv|xv]; cbn in N1; try tauto.
    2:{ subst. split; auto. }
    destruct (getopt cs tb) as [t|x], (getopt csv tb) as [tv|xv]; cbn in N2; try tauto.
    2:{ subst. split; auto. }
    assert (HT : R (vals w) (match t with Some t => t | None => BLACK_REF end) (match tv with Some t => t | None => BLACK end)).
    { destruct t, tv; cbn in N2; try contradiction; auto. apply G. }
    pose proof (write_R e w sc scv d dv _ _ chv G Sc N1 HT Ch) as P.
    destruct (owrite_bulk e sc d _ w) as [[sc1 w1] r1]. destruct (write_bulk e chv scv dv _ false) as [[sc2 ch2] r2].
    destruct P as [G1 [Gr [S1 [C1 <-]]]]. split; auto. cbn [fst]. constructor; cbn; auto;
      [eapply colors_grow|eapply spans_grow]; eauto.
  - split; auto. cbn [fst]. constructor; cbn; auto. now apply clear_R.
  - split; auto. cbn [fst]. constructor; cbn; auto. now apply resize_R.
  - destruct (render_R _ _ _ origin redraw Sc) as [E1 E2].
    destruct (orender sc origin redraw) as [t1 s1]. destruct (render scv origin redraw) as [t2 s2]. cbn [fst snd] in *.
    subst t2. split; auto. constructor; cbn; auto.
Qed.
Lemma run_R : forall l m p, keeps_space l -> machineR m p ->
  machineR (fst (orun l m)) (fst (plain_run l p)) /\ snd (orun l m) = snd (plain_run l p).
Proof.
  intros l. induction l as [|o l IH]; intros m p K MR; cbn [orun plain_run]; auto.
  inversion K as [|? ? K1 K2]; subst. destruct (step_R o m p K1 MR) as [M1 E1].
  destruct (ostep o m) as [m1 a]. destruct (plain_step o p) as [p1 a']. cbn [fst snd] in *. subst a'.
  destruct (IH m1 p1 K2 M1) as [M2 E2]. destruct (orun l m1) as [m2 t]. destruct (plain_run l p1) as [p2 t'].
  cbn [fst snd] in *. now subst.
Qed.
Lemma world0_good : forall e, good e world0.
Proof.
  intro e. constructor; try reflexivity.
  - assert (Fr : forall c, obj_ok e (vals world0) (fresh_obj c)).
    { intro c. split; [discriminate|]. split; [discriminate|]. split; [discriminate|]. intros g ks []. }
    cbn [world0 w_objs map]. constructor; [apply Fr|]. constructor; [apply Fr|]. constructor; [apply Fr|].
    constructor; [apply Fr|constructor].
  - constructor.
Qed.
Lemma start_R : forall e w h, machineR (machine0 e w h) (plain0 e w h).
Proof.
  intros. constructor; [apply world0_good|reflexivity|constructor|constructor|apply new_screen_R|constructor].
Qed.
Theorem caches_hidden : forall e w h prog, keeps_space prog ->
  snd (orun prog (machine0 e w h)) = snd (plain_run prog (plain0 e w h)).
Proof. intros e w h prog K. apply run_R; auto. apply start_R. Qed.
