(** Lemmas about Terminal.export_svg. *)
From Coq Require Import ZArith Reals List Bool String Lia Lra.
From Flocq Require Import Core.Raux.
From Verif Require Import PyBase PyLemmas F64 SpaceModel ColorModel ColorSpec AnsiRe SpanModel Vt SpanSpec ScreenModel ScreenSpec
  ScreenProofs4 GreySpec SvgSpec SvgDocModel SvgDocSpec SvgGeoModel SvgGeoSpec ReprModel ReprSpec SvgTextModel SvgTextSpec SvgTextProofs DrawSpec DrawProofs2 RedrawSpec
  CoreModel TermModel TermSpec TermProofs SessionSpec SessionProofs ViewSpec ViewProofs ViewProofs2 ViewProofs3 ExportModel ExportSpec.
Import ListNotations.
Open Scope list_scope.

(** * Numbers *)
Open Scope R_scope.
Lemma placed_edges : forall fs p n w h wt ht, font fs -> placed fs p n -> (0 <= p_column p)%Z -> (0 <= p_row p)%Z -> (zlen (s_text (p_span p)) <= 8192)%Z ->
  about wt (IZR w * (IZR fs * em_width) + 32) (/ 1000) -> about ht (IZR h * (IZR fs * em_height) + 32) (/ 1000) ->
  ((fs <= 94)%Z -> (ends_at p <= w)%Z -> (p_row p < h)%Z -> inside wt ht n) /\
  (17 <= IZR (ends_at p - w) * (IZR fs * em_width) -> past_right wt n) /\
  (17 + IZR fs / 10 <= IZR (p_row p + 1 - h) * (IZR fs * em_height) -> past_bottom ht n).
Proof.
  intros fs p n w h wt ht F [[x [X1 X2]] [[y [Y1 Y2]] [[wd [W1 W2]] [[hd [H1 H2]] _]]]] C0 R0 L [W [A1 A2]] [H [B1 B2]].
  set (k := zlen (s_text (p_span p))) in *.
  assert (K : 0 <= IZR k <= 8192) by (split; apply IZR_le; [unfold k, zlen; lia|exact L]).
  assert (Fs : 1 <= IZR fs <= 1024) by (unfold font in F; split; apply IZR_le; lia).
  apply Rabs_le_inv in X2, Y2, W2, H2, A2, B2. unfold em_width, em_height in *.
  set (cw := IZR fs * (60167 / 100000)) in *. set (ch := IZR fs * (1265 / 1000)) in *.
  assert (Cw : 0 < cw) by (unfold cw; lra). assert (Ch : ch = IZR fs * (1265 / 1000)) by reflexivity.
  assert (E1 : (IZR (p_column p) + IZR k) * cw = IZR (p_column p) * cw + IZR k * cw) by ring.
  assert (Rs : 0 <= raise fs (s_text (p_span p)) <= 17 / 100 * IZR fs) by (unfold raise; destruct (all_blocks _); lra).
  split; [|split].
  - intros F94 E Rh. apply IZR_le in F94. exists x, y, wd, hd, W, H. do 6 (split; [assumption|]).
    assert (P1 : (IZR (p_column p) + IZR k) * cw <= IZR w * cw).
    { apply Rmult_le_compat_r; [lra|]. rewrite <- plus_IZR. apply IZR_le. exact E. }
    assert (P2 : (IZR (p_row p) + 1) * ch <= IZR h * ch).
    { apply Rmult_le_compat_r; [lra|]. rewrite <- plus_IZR. apply IZR_le. lia. }
    assert (P3 : 0 <= IZR (p_column p) * cw) by (apply Rmult_le_pos; [apply IZR_le; lia|lra]).
    assert (P4 : 0 <= IZR (p_row p) * ch) by (apply Rmult_le_pos; [apply IZR_le; lia|lra]).
    repeat split; lra.
  - intro E. exists x, wd, W. do 3 (split; [assumption|]). unfold ends_at in E. fold k in E. rewrite minus_IZR, plus_IZR in E. lra.
  - intro E. exists y, hd, H. do 3 (split; [assumption|]). rewrite minus_IZR, plus_IZR in E. lra.
Qed.
Lemma all_edges : forall fs w h wt ht l nl, font fs -> Forall2 (placed fs) l nl ->
  Forall (fun p => (0 <= p_column p /\ 0 <= p_row p /\ zlen (s_text (p_span p)) <= 8192)%Z) l ->
  about wt (IZR w * (IZR fs * em_width) + 32) (/ 1000) -> about ht (IZR h * (IZR fs * em_height) + 32) (/ 1000) ->
  Forall2 (fun p n => ((fs <= 94)%Z -> (ends_at p <= w)%Z -> (p_row p < h)%Z -> inside wt ht n) /\
    (17 <= IZR (ends_at p - w) * (IZR fs * em_width) -> past_right wt n) /\
    (17 + IZR fs / 10 <= IZR (p_row p + 1 - h) * (IZR fs * em_height) -> past_bottom ht n)) l nl.
Proof.
  intros fs w h wt ht l nl F P. induction P as [|p n l nl Hp P IH]; intros A B C; constructor.
  - inversion A as [|? ? [A1 [A2 A3]] A4]; subst. exact (placed_edges fs p n w h wt ht F Hp A1 A2 A3 B C).
  - inversion A; subst. apply IH; auto.
Qed.

(** * The method *)
Open Scope Z_scope.
Lemma export_reads : forall fuel fs dfg dbg own later v s e doc1 w1 h1 ids p, color_env v s = Ok e ->
  t_listeners s = map LNote ids -> t_prev s = Some p ->
  w1 = fst (te_size v) -> h1 = snd (te_size later) ->
  export_text e (t_screen s) w1 h1 fs (chosen dfg own) (chosen dbg (t_bgcol s)) = Ok doc1 ->
  texport fuel fs dfg dbg own later v s = (do_calls fuel s [(v, CWidth); (later, CHeight)], Ok doc1).
Proof.
  intros fuel fs dfg dbg own later v s e doc1 w1 h1 ids p He L Pv -> -> X. unfold texport. rewrite He.
  unfold export_text in X. destruct (export_svg_with_styles _ _ _ _ _) as [r|] eqn:E; [|discriminate X]. cbn [bindr] in X. injection X as <-.
  unfold do_calls. cbn [fold_left do_call]. unfold twidth, theight, bindM, retM.
  rewrite (size_notes fuel v s ids p L Pv). cbn [fst].
  match goal with |- context [size fuel later ?s1] => rewrite (size_notes fuel later s1 ids (te_size v) L eq_refl) end.
  reflexivity.
Qed.
Lemma same_window : forall fuel v later s p, t_prev s = Some p -> te_size v = p -> te_size later = p ->
  do_calls fuel s [(v, CWidth); (later, CHeight)] = s.
Proof.
  intros fuel v later s p Pv Ev El. unfold do_calls. cbn [fold_left do_call]. unfold twidth, theight, bindM, retM.
  assert (R : forall v, te_size v = p -> size fuel v s = (s, Ok p)).
  { intros u Eu. assert (Q : size_eqb (te_size u) p = true) by (apply size_eqb_iff; exact Eu).
    destruct fuel; cbn [size]; rewrite Pv, Q; unfold retM; rewrite Eu; destruct s; cbn in Pv; subst; reflexivity. }
  rewrite (R v Ev). cbn [fst]. rewrite (R later El). reflexivity.
Qed.

(** * Programs *)
Section Steps.
Variables (v : tenv) (e : env) (bg tb : color) (w h : Z) (ids : list Z) (sz : Z * Z).
Hypothesis Hv : peaceful v.
Definition m0 : emu := emu0 w h.
Record busy (s : tstate) : Prop := {
  b_env : color_env v s = Ok e;
  b_bg : t_bgcol s = bg;
  b_tb : as_background bg true None = Ok tb;
  b_origin : t_origin s = (1, 1);
  b_prev : t_prev s = Some sz;
  b_listeners : t_listeners s = map LNote ids;
  b_log : t_log s = [];
  b_forced : t_forced s = None
}.
Definition view (s : tstate) : world := (t_screen s, TermModel.t_cache s, vt (t_out s) m0).
Lemma draw_step : forall s, busy s -> exists s', draw false v s = (s', Ok tt) /\ busy s' /\ view s' = perform e (1, 1) (view s) ADraw.
Proof.
  intros s B. destruct B. destruct Hv as [Hc Hfile]. unfold draw. rewrite b_origin0. unfold view. cbn [perform].
  destruct (render (t_screen s) (1, 1) false) as [ansi sc] eqn:E. rewrite Hfile. unfold stream_write.
  cbn [set_screen t_writes]. rewrite Hc. eexists. split; [reflexivity|]. split; [constructor; assumption|].
  cbn [set_out set_screen t_screen TermModel.t_cache t_out]. now rewrite vt_twice.
Qed.
Lemma one_step : forall s P r a, busy s -> told e w h (view s) P -> stands_for tb r (SAct a) -> act_ok w h a ->
  exists s', ask r v s = (s', Ok tt) /\ busy s' /\ view s' = perform e (1, 1) (view s) a.
Proof.
  intros s P r a B T R A. destruct r as [d p f|c| |]; cbn [stands_for] in R.
  - assert (X : exists l, (match d with PSpans l => Ok l | PStr t => parse_line t end) = Ok l /\ a = AWrite [(p, l)] tb f).
    { destruct d as [l|t]; [exists l; split; [reflexivity|congruence]|destruct R as [l [R1 R2]]; exists l; split; [exact R1|congruence]]. }
    clear R. destruct X as [l [E ->]]. destruct B. destruct A as [Hd [Ht Hs]]. destruct T as [I1 I2 I3 I4 I6 _]. cbn [view fst snd] in *.
    assert (Hcalm : calm_write (t_screen s) [(p, l)]) by (split; [exact I4|rewrite I1, I2; exact Hd]).
    assert (Hfine : fine_data [(p, l)]).
    { unfold fine_data. revert Hs. apply Forall_impl. intros en. apply Forall_impl. apply drawable_fine. }
    destruct (write_bulk_effect e (TermModel.t_cache s) (t_screen s) [(p, l)] tb f I6 I3 Hcalm Ht Hfine) as [s' [c' [n [Ew _]]]].
    exists (set_screen s' c' s). split; [|split].
    + cbn [ask]. unfold seqM, bindM, twrite. rewrite b_env0, b_bg0, b_tb0, E. unfold write. rewrite Ew. reflexivity.
    + constructor; assumption.
    + unfold view. cbn [perform]. rewrite Ew. reflexivity.
  - injection R as ->. destruct B. eexists. split; [reflexivity|]. split; [constructor; assumption|reflexivity].
  - injection R as ->. exact (draw_step s B).
  - discriminate R.
Qed.
Lemma all_steps : forall reqs acts, Forall2 (fun r a => stands_for tb r (SAct a)) reqs acts -> Forall (act_ok w h) acts -> forall s P, busy s -> told e w h (view s) P ->
  exists s', ask_all reqs v s = (s', Ok tt) /\ busy s' /\ told e w h (view s') (fold_left (paint_act as_asked w h) acts P).
Proof.
  intros reqs acts F. induction F as [|r a reqs acts R F IH]; intros A s P B T.
  - exists s. auto.
  - inversion A as [|? ? A1 A2]; subst. destruct (one_step s P r a B T R A1) as [s1 [E1 [B1 V1]]].
    destruct (IH A2 s1 (paint_act as_asked w h P a) B1) as [s2 [E2 [B2 T2]]]; [rewrite V1; now apply told_act|].
    exists s2. split; [|auto]. cbn [ask_all fold_right]. unfold seqM, bindM at 1. rewrite E1. exact E2.
Qed.
End Steps.

Lemma program_export : forall v e bg tb ids reqs acts fuel fs dfg dbg own v1 v2, peaceful v -> powers e ->
  color_env v (new_terminal v bg) = Ok e -> color_env v1 (new_terminal v bg) = Ok e -> as_background bg true None = Ok tb ->
  let w := fst (te_size v) in let h := snd (te_size v) in
  0 < w <= 8192 -> 0 <= h <= 8192 -> extent (fst (te_size v1)) -> extent (snd (te_size v2)) -> font fs ->
  color_ok (chosen dfg own) -> color_ok (chosen dbg bg) ->
  Forall2 (stands_for tb) reqs (map SAct acts) -> Forall (act_ok w h) acts ->
  let p := fold_left (paint_act as_asked w h) acts (blank 32) in in_xml w h p ->
  exists s l doc wt ht nl, ask_all reqs v (heard_by ids (new_terminal v bg)) = (s, Ok tt) /\
    texport fuel fs dfg dbg own v2 v1 s = (do_calls fuel s [(v1, CWidth); (v2, CHeight)], Ok doc) /\
    pictured spelled w h l p /\
    document (terminal_frame (dec fs) wt ht (chosen dbg bg) l (numbered_nodes (chosen dfg own) (chosen dbg bg) (combine l nl))) doc /\
    Forall2 (placed fs) l nl /\
    about wt (IZR (fst (te_size v1)) * (IZR fs * em_width) + 32) (/ 1000) /\
    about ht (IZR (snd (te_size v2)) * (IZR fs * em_height) + 32) (/ 1000) /\
    Forall (fun p => 0 <= p_row p < h /\ 0 <= p_column p /\ ends_at p <= w) l /\
    Forall2 (fun p n => (fs <= 94 -> ends_at p <= fst (te_size v1) -> p_row p < snd (te_size v2) -> inside wt ht n) /\
      (17 <= IZR (ends_at p - fst (te_size v1)) * (IZR fs * em_width) -> past_right wt n)%R /\
      (17 + IZR fs / 10 <= IZR (p_row p + 1 - snd (te_size v2)) * (IZR fs * em_height) -> past_bottom ht n)%R) l nl /\
    t_prev s = Some (te_size v) /\ (sc_w (t_screen s), sc_h (t_screen s)) = te_size v /\ shaped (t_screen s) /\
    t_listeners s = map LNote ids /\ t_log s = [].
Proof.
  intros v e bg tb ids reqs acts fuel fs dfg dbg own v1 v2 Hv Hp He He1 Ht w h Hw Hh Hw1 Hh2 Hfs Hc1 Hc2 F A p X.
  assert (F' : Forall2 (fun r a => stands_for tb r (SAct a)) reqs acts).
  { clear -F. remember (map SAct acts) as l eqn:E. revert acts E. induction F as [|r st reqs l R F IH]; intros [|a acts] E; try discriminate; constructor.
    - injection E as -> E. exact R.
    - injection E as _ E. now apply IH. }
  set (s0 := heard_by ids (new_terminal v bg)).
  assert (B0 : busy v e bg tb ids (te_size v) s0) by (constructor; try reflexivity; assumption).
  assert (T0 : told e w h (view w h s0) (blank 32)) by exact (told_start e w h (0, 0) 32 _ eq_refl).
  destruct (all_steps v e bg tb w h ids (te_size v) Hv reqs acts F' A s0 (blank 32) B0 T0) as [s [E [B T]]]. fold p in T.
  destruct (export_ok e w h _ _ Hp ltac:(lia) T) as [l El]. cbn [view fst] in El.
  pose proof (piece_inside e w h _ _ Hp ltac:(lia) T l El) as In1.
  destruct (export_text_spec e (t_screen s) (fst (te_size v1)) (snd (te_size v2)) fs (chosen dfg own) (chosen dbg bg) l) as [doc [wt [ht [nl [D1 [D2 [D3 [D4 D5]]]]]]]]; auto.
  { exact (all_valid e w h _ _ ltac:(lia) T). }
  { exact (all_legible e w h _ _ Hp ltac:(lia) T l El X). }
  { split.
    - pose proof (cells_height e w h _ _ T) as Ch. cbn [view fst] in Ch. rewrite Ch. lia.
    - apply Forall_forall. intros q Hin. destruct (In1 q Hin) as [_ [_ R]]. lia. }
  exists s, l, doc, wt, ht, nl. split; [exact E|]. destruct B.
  split. { apply (export_reads fuel fs dfg dbg own v2 v1 s e doc (fst (te_size v1)) (snd (te_size v2)) ids (te_size v)); auto.
    - revert He1. unfold color_env, color_space. rewrite b_forced0. cbn [new_terminal t_forced]. auto.
    - rewrite b_bg0. exact D1. }
  split; [exact (spelled_all e w h _ _ Hp ltac:(lia) T l El)|]. split; [exact D2|]. split; [exact D5|]. split; [exact D3|]. split; [exact D4|].
  split; [apply Forall_forall; intros q Hin; destruct (In1 q Hin) as [R1 [R2 R3]]; unfold ends_at; auto|].
  split. { apply all_edges; auto. apply Forall_forall. intros q Hin. destruct (In1 q Hin) as [R1 [R2 R3]]. unfold zlen in *. lia. }
  split; [exact b_prev0|]. destruct T as [I1 I2 I3 _ _ _]. cbn [view fst] in I1, I2, I3. rewrite I1, I2.
  split; [unfold w, h; now destruct (te_size v)|]. auto.
Qed.

(** * The window unchanged, changed, narrower *)
Lemma two_looks : forall fuel v1 v2 s ids p, t_listeners s = map LNote ids -> t_prev s = Some p ->
  (sc_w (t_screen s), sc_h (t_screen s)) = p ->
  let s' := do_calls fuel s [(v1, CWidth); (v2, CHeight)] in
  t_prev s' = Some (te_size v2) /\ t_out s' = t_out s /\ t_log s' = t_log s ++ notices ids (differing p [te_size v1; te_size v2]) /\
  (sc_w (t_screen s'), sc_h (t_screen s')) = te_size v2.
Proof.
  intros fuel v1 v2 s ids p L Pv Hs. unfold do_calls. cbn [fold_left do_call]. unfold twidth, theight, bindM, retM.
  rewrite (size_notes fuel v1 s ids p L Pv). cbn [fst].
  match goal with |- context [size fuel v2 ?s1] => rewrite (size_notes fuel v2 s1 ids (te_size v1) L eq_refl) end.
  cbn [fst t_prev t_out t_log t_screen]. split; [reflexivity|]. split; [reflexivity|]. split.
  - unfold noted, notices, size_eqb. cbn [differing]. rewrite app_nil_r, flat_map_app, <- app_assoc. f_equal.
    destruct (te_size v1) as [a b], (te_size v2) as [c d], p as [p1 p2]. cbn [fst snd].
    destruct ((a =? p1) && (b =? p2)), ((c =? a) && (d =? b)); cbn [flat_map app]; rewrite ?app_nil_r; reflexivity.
  - destruct (size_eqb (te_size v2) (te_size v1)) eqn:E2.
    + apply size_eqb_iff in E2. destruct (size_eqb (te_size v1) p) eqn:E1.
      * apply size_eqb_iff in E1. congruence.
      * rewrite E2. destruct (te_size v1). reflexivity.
    + destruct (te_size v2). reflexivity.
Qed.
Lemma snapshot : forall v e bg tb ids reqs acts fuel fs dfg dbg own v1 v2, peaceful v -> powers e ->
  color_env v (new_terminal v bg) = Ok e -> color_env v1 (new_terminal v bg) = Ok e -> as_background bg true None = Ok tb ->
  let w := fst (te_size v) in let h := snd (te_size v) in
  0 < w <= 8192 -> 0 <= h <= 8192 -> te_size v1 = te_size v -> te_size v2 = te_size v -> font fs ->
  color_ok (chosen dfg own) -> color_ok (chosen dbg bg) ->
  Forall2 (stands_for tb) reqs (map SAct acts) -> Forall (act_ok w h) acts ->
  let p := fold_left (paint_act as_asked w h) acts (blank 32) in in_xml w h p ->
  exists s l doc wt ht nl, ask_all reqs v (heard_by ids (new_terminal v bg)) = (s, Ok tt) /\
    texport fuel fs dfg dbg own v2 v1 s = (s, Ok doc) /\
    pictured spelled w h l p /\
    document (terminal_frame (dec fs) wt ht (chosen dbg bg) l (numbered_nodes (chosen dfg own) (chosen dbg bg) (combine l nl))) doc /\
    Forall2 (placed fs) l nl /\ (fs <= 94 -> Forall (inside wt ht) nl).
Proof.
  intros v e bg tb ids reqs acts fuel fs dfg dbg own v1 v2 Hv Hp He He1 Ht w h Hw Hh E1 E2 Hfs Hc1 Hc2 F A p X.
  destruct (program_export v e bg tb ids reqs acts fuel fs dfg dbg own v1 v2 Hv Hp He He1 Ht) as
    [s [l [doc [wt [ht [nl [K1 [K2 [K3 [K4 [K5 [K6 [K7 [K8 [K9 [K10 _]]]]]]]]]]]]]]]]; auto.
  { rewrite E1. unfold extent. fold w. lia. }
  { rewrite E2. exact Hh. }
  exists s, l, doc, wt, ht, nl. split; [exact K1|].
  rewrite (same_window fuel v1 v2 s (te_size v) K10 E1 E2) in K2. split; [exact K2|]. split; [exact K3|]. split; [exact K4|]. split; [exact K5|].
  intro H94. clear -K8 K9 H94 E1 E2. induction K9 as [|q n l nl K K9 IH]; constructor.
  - inversion K8 as [|? ? [R1 [R2 R3]] R4]; subst. destruct K as [K _]. apply K; [exact H94|rewrite E1; exact R3|rewrite E2; apply R1].
  - inversion K8; subst. now apply IH.
Qed.
Lemma other_window : forall v e bg tb ids reqs acts fuel fs dfg dbg own v1 v2, peaceful v -> powers e ->
  color_env v (new_terminal v bg) = Ok e -> color_env v1 (new_terminal v bg) = Ok e -> as_background bg true None = Ok tb ->
  let w := fst (te_size v) in let h := snd (te_size v) in
  0 < w <= 8192 -> 0 <= h <= 8192 -> extent (fst (te_size v1)) -> extent (snd (te_size v2)) -> font fs ->
  color_ok (chosen dfg own) -> color_ok (chosen dbg bg) ->
  Forall2 (stands_for tb) reqs (map SAct acts) -> Forall (act_ok w h) acts ->
  let p := fold_left (paint_act as_asked w h) acts (blank 32) in in_xml w h p ->
  exists s s' l doc wt ht nl, ask_all reqs v (heard_by ids (new_terminal v bg)) = (s, Ok tt) /\
    texport fuel fs dfg dbg own v2 v1 s = (s', Ok doc) /\
    pictured spelled w h l p /\
    document (terminal_frame (dec fs) wt ht (chosen dbg bg) l (numbered_nodes (chosen dfg own) (chosen dbg bg) (combine l nl))) doc /\
    Forall2 (placed fs) l nl /\
    about wt (IZR (fst (te_size v1)) * (IZR fs * em_width) + 32) (/ 1000) /\
    about ht (IZR (snd (te_size v2)) * (IZR fs * em_height) + 32) (/ 1000) /\
    Forall2 (fun p n => fs <= 94 -> ends_at p <= fst (te_size v1) -> p_row p < snd (te_size v2) -> inside wt ht n) l nl /\
    (sc_w (t_screen s'), sc_h (t_screen s')) = te_size v2 /\ t_out s' = t_out s /\
    t_log s' = notices ids (differing (te_size v) [te_size v1; te_size v2]) /\
    (forall v3 v4 f d1 d2 o, te_size v3 = te_size v2 -> te_size v4 = te_size v2 -> fst (texport fuel f d1 d2 o v4 v3 s') = s').
Proof.
  intros v e bg tb ids reqs acts fuel fs dfg dbg own v1 v2 Hv Hp He He1 Ht w h Hw Hh E1 E2 Hfs Hc1 Hc2 F A p X.
  destruct (program_export v e bg tb ids reqs acts fuel fs dfg dbg own v1 v2 Hv Hp He He1 Ht) as
    [s [l [doc [wt [ht [nl [K1 [K2 [K3 [K4 [K5 [K6 [K7 [K8 [K9 [K10 [K11 [K12 [K13 K14]]]]]]]]]]]]]]]]]]]; auto.
  destruct (two_looks fuel v1 v2 s ids (te_size v) K13 K10 K11) as [L1 [L2 [L3 L4]]]. rewrite K14 in L3.
  set (s' := do_calls fuel s [(v1, CWidth); (v2, CHeight)]) in *.
  exists s, s', l, doc, wt, ht, nl. do 7 (split; [assumption|]).
  split; [clear -K9; induction K9 as [|? ? ? ? K]; constructor; [apply K|assumption]|].
  split; [exact L4|]. split; [exact L2|]. split; [exact L3|].
  intros v3 v4 f d1 d2 o R3 R4. unfold texport. destruct (color_env v3 s') as [e3|]; [|reflexivity].
  destruct (export_svg_with_styles _ _ _ _ _) as [r|]; [|reflexivity].
  assert (R : forall u, te_size u = te_size v2 -> size fuel u s' = (s', Ok (te_size v2))).
  { intros u Eu. assert (Q : size_eqb (te_size u) (te_size v2) = true) by (apply size_eqb_iff; exact Eu).
    destruct fuel; cbn [size]; rewrite L1, Q; unfold retM; rewrite Eu; clearbody s'; destruct s'; cbn in L1; subst; reflexivity. }
  unfold twidth, theight, bindM, retM. rewrite (R v3 R3), (R v4 R4). reflexivity.
Qed.
Lemma narrower : forall v e bg tb ids reqs acts fuel fs dfg dbg own v1 v2, peaceful v -> powers e ->
  color_env v (new_terminal v bg) = Ok e -> color_env v1 (new_terminal v bg) = Ok e -> as_background bg true None = Ok tb ->
  let w := fst (te_size v) in let h := snd (te_size v) in
  0 < w <= 8192 -> 0 <= h <= 8192 -> extent (fst (te_size v1)) -> extent (snd (te_size v2)) -> font fs ->
  color_ok (chosen dfg own) -> color_ok (chosen dbg bg) ->
  Forall2 (stands_for tb) reqs (map SAct acts) -> Forall (act_ok w h) acts ->
  let p := fold_left (paint_act as_asked w h) acts (blank 32) in in_xml w h p ->
  exists s s' l doc wt ht nl, ask_all reqs v (heard_by ids (new_terminal v bg)) = (s, Ok tt) /\
    texport fuel fs dfg dbg own v2 v1 s = (s', Ok doc) /\
    document (terminal_frame (dec fs) wt ht (chosen dbg bg) l (numbered_nodes (chosen dfg own) (chosen dbg bg) (combine l nl))) doc /\
    ((17 <= IZR (w - fst (te_size v1)) * (IZR fs * em_width))%R -> forall y, 0 <= y < h ->
       exists q n, In (q, n) (combine l nl) /\ p_row q = y /\ ends_at q = w /\ past_right wt n) /\
    ((17 + IZR fs / 10 <= IZR (h - snd (te_size v2)) * (IZR fs * em_height))%R -> forall x, 0 <= x < w ->
       exists q n, In (q, n) (combine l nl) /\ extends q (x, h - 1) /\ past_bottom ht n).
Proof.
  intros v e bg tb ids reqs acts fuel fs dfg dbg own v1 v2 Hv Hp He He1 Ht w h Hw Hh E1 E2 Hfs Hc1 Hc2 F A p X.
  destruct (program_export v e bg tb ids reqs acts fuel fs dfg dbg own v1 v2 Hv Hp He He1 Ht) as
    [s [l [doc [wt [ht [nl [K1 [K2 [K3 [K4 [K5 [K6 [K7 [K8 [K9 _]]]]]]]]]]]]]]]; auto.
  exists s. eexists. exists l, doc, wt, ht, nl. split; [exact K1|]. split; [exact K2|]. split; [exact K4|].
  assert (G : forall q, In q l -> exists n, In (q, n) (combine l nl) /\
      (17 <= IZR (ends_at q - fst (te_size v1)) * (IZR fs * em_width) -> past_right wt n)%R /\
      (17 + IZR fs / 10 <= IZR (p_row q + 1 - snd (te_size v2)) * (IZR fs * em_height) -> past_bottom ht n)%R).
  { clear -K9. induction K9 as [|q n l nl K K9 IH]; intros q' Hin; [destruct Hin|]. destruct Hin as [<-|Hin].
    - exists n. split; [left; reflexivity|apply K].
    - destruct (IH q' Hin) as [n' [N1 N2]]. exists n'. split; [right; exact N1|exact N2]. }
  rewrite Forall_forall in K8. split.
  - intros Wd y Hy. assert (O : on_screen w h (w - 1, y)) by (unfold on_screen; cbn [fst snd]; lia).
    destruct (proj1 (K3 (w - 1, y) O)) as [q [Q1 [Q2 Q3]]]. cbn [fst snd] in Q2, Q3.
    destruct (K8 q Q1) as [R1 [R2 R3]]. assert (En : ends_at q = w) by (unfold ends_at in *; lia).
    destruct (G q Q1) as [n [N1 [N2 _]]]. exists q, n. rewrite En in N2. auto.
  - intros Hd x Hx. destruct (Z_le_gt_dec h 0) as [N|N].
    { exfalso. assert (h = 0) by lia. assert (Z0 : (IZR (h - snd (te_size v2)) <= 0)%R) by (apply IZR_le; unfold extent in E2; lia).
      assert (1 <= IZR fs)%R by (apply IZR_le; unfold font in Hfs; lia). unfold em_height in Hd.
      assert (0 <= (- IZR (h - snd (te_size v2))) * (IZR fs * (1265 / 1000)))%R by (apply Rmult_le_pos; lra). lra. }
    assert (O : on_screen w h (x, h - 1)) by (unfold on_screen; cbn [fst snd]; lia).
    destruct (proj1 (K3 (x, h - 1) O)) as [q [Q1 Q2]]. destruct (G q Q1) as [n [N1 [_ N2]]].
    exists q, n. split; [exact N1|]. split; [exact Q2|]. apply N2. destruct Q2 as [Q2 _]. cbn [snd] in Q2. rewrite Q2.
    replace (h - 1 + 1 - snd (te_size v2)) with (h - snd (te_size v2)) by lia. exact Hd.
Qed.
Lemma never_exported : forall fuel fs dfg dbg own v1 v2 s ids n rest p, t_listeners s = map LNote ids ++ LRaise n :: rest -> t_prev s = Some p ->
  te_size v1 <> p -> forall s' doc, texport fuel fs dfg dbg own v2 v1 s <> (s', Ok doc).
Proof.
  intros fuel fs dfg dbg own v1 v2 s ids n rest p L Pv N s' doc. unfold texport.
  destruct (color_env v1 s) as [e|]; [|discriminate]. destruct (export_svg_with_styles _ _ _ _ _) as [r|]; [|discriminate].
  destruct (raising_repeats fuel v1 ids n rest s p L Pv N) as [s1 [E _]]. unfold twidth, bindM. rewrite E. discriminate.
Qed.
