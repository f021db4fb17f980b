(** Lemmas about programs that write and draw through a Terminal. *)
From Coq Require Import ZArith List Bool String Lia.
From Verif Require Import PyBase PyLemmas F64 SpaceModel ColorModel ColorSpec AnsiRe SpanModel Vt SpanSpec ScreenModel ScreenSpec
  ScreenProofs4 DrawSpec DrawProofs2 RedrawSpec RedrawProofs ParseProofs ParseProofs3 CoreModel TermModel TermSpec SessionSpec.
Import ListNotations.
Open Scope Z_scope.
Open Scope list_scope.

Lemma vt_twice : forall a b m, vt (a ++ b) m = vt b (vt a m).
Proof. intros a b m. unfold vt. apply fold_left_app. Qed.

Section Session.
Variables (v : tenv) (e : env) (tb : color) (sh : triple -> ecolor) (w h : Z) (origin : pos) (m0 : emu).
Hypothesis Hv : peaceful v.
Hypothesis Hsh : shades e sh.
Hypothesis Hf : fits w h origin m0.

(** the terminal object during the program *)
Record at_work (s : tstate) : Prop := {
  w_env : color_env v s = Ok e;
  w_tb : as_background (t_bgcol s) true None = Ok tb;
  w_origin : t_origin s = origin
}.
Definition world_of (s : tstate) : world := (t_screen s, t_cache s, vt (t_out s) m0).
Notation inv := (inv e sh w h origin (e_grid m0) (e_w m0) (e_h m0)).
Definition step_fits (st : step) : Prop := match st with SAct a => act_ok w h a | SRedraw => True end.

Lemma drawn_out : forall s b, at_work s -> exists s', draw b v s = (s', Ok tt) /\ at_work s' /\
  world_of s' = let '(ansi, sc) := render (t_screen s) origin b in (sc, t_cache s, vt ansi (vt (t_out s) m0)).
Proof.
  intros s b [We Wt Wo]. destruct Hv as [Hc Hfile]. unfold draw. rewrite Wo.
  destruct (render (t_screen s) origin b) as [ansi sc]. rewrite Hfile. unfold stream_write.
  cbn [set_screen t_writes]. rewrite Hc. eexists. split; [reflexivity|]. split; [split; [exact We|exact Wt|exact Wo]|].
  unfold world_of. cbn [set_out set_screen t_screen t_cache t_out]. now rewrite vt_twice.
Qed.
Lemma step_done : forall s stale P r st, at_work s -> inv stale (world_of s) P -> stands_for tb r st -> step_fits st ->
  exists s', ask r v s = (s', Ok tt) /\ at_work s' /\ world_of s' = perform_step e origin (world_of s) st.
Proof.
  intros s stale P r st W Wi R A. destruct r as [d p f|c| |]; cbn [stands_for] in R.
  - assert (X : exists l, (match d with PSpans l => Ok l | PStr t => parse_line t end) = Ok l /\ st = SAct (AWrite [(p, l)] tb f)).
    { destruct d as [l|t]; [exists l; auto|exact R]. }
    clear R. destruct X as [l [E ->]]. destruct W as [We Wt Wo].
    destruct A as [Hd [Ht Hs]]. destruct Wi as [I1 I2 I3 I4 I5 I6 I7 I8 I9 I10 I11 I12].
    cbn [world_of fst snd] in *.
    assert (Hcalm : calm_write (t_screen s) [(p, l)]) by (split; [exact I4|rewrite I1, I2; exact Hd]).
    assert (Hfine : fine_data [(p, l)]).
    { unfold fine_data. revert Hs. apply Forall_impl. intros en. apply Forall_impl. apply drawable_fine. }
    destruct (write_bulk_effect e (t_cache s) (t_screen s) [(p, l)] tb f I6 I3 Hcalm Ht Hfine) as [s' [c' [n [Ew _]]]].
    exists (set_screen s' c' s). split; [|split].
    + cbn [ask]. unfold seqM, bindM, twrite. rewrite We, Wt, E. unfold write. rewrite Ew. reflexivity.
    + split; [exact We|exact Wt|exact Wo].
    + unfold world_of. cbn [perform_step perform]. rewrite Ew. reflexivity.
  - subst st. destruct W as [We Wt Wo]. eexists. split; [reflexivity|]. split; [split; [exact We|exact Wt|exact Wo]|reflexivity].
  - subst st. destruct (drawn_out s false W) as [s' [E [W' K]]]. exists s'. auto.
  - subst st. destruct (drawn_out s true W) as [s' [E [W' K]]]. exists s'. auto.
Qed.

Lemma steps_done : forall reqs sts s P, at_work s ->
  (forall l l', sts = l ++ l' -> exists stale, inv stale (fold_left (perform_step e origin) l (world_of s)) (fold_left (paint_step sh w h) l P)) ->
  Forall2 (stands_for tb) reqs sts -> Forall step_fits sts ->
  exists s', ask_all reqs v s = (s', Ok tt) /\ world_of s' = fold_left (perform_step e origin) sts (world_of s).
Proof.
  intros reqs sts s P W HI F. revert s P W HI. induction F as [|r a reqs sts R F IH]; intros s P W HI A.
  - exists s. auto.
  - inversion A as [|? ? A1 A2]; subst. destruct (HI [] (a :: sts) eq_refl) as [stale I0].
    destruct (step_done s stale P r a W I0 R A1) as [s1 [E1 [W1 K1]]].
    destruct (IH s1 (paint_step sh w h P a) W1) as [s2 [E2 K2]]; [|exact A2|].
    + intros l l' E. destruct (HI (a :: l) l') as [st' I']; [cbn [app]; now rewrite E|]. exists st'. rewrite K1. exact I'.
    + exists s2. split; [|cbn [fold_left]; now rewrite K2, K1].
      cbn [ask_all fold_right]. unfold seqM, bindM at 1. rewrite E1. exact E2.
Qed.
End Session.

(** * A program on a new terminal *)
Lemma fold_acts : forall (A : Type) (f : A -> step -> A) (g : A -> act -> A) acts, (forall a x, f a (SAct x) = g a x) ->
  forall a, fold_left f (map SAct acts) a = fold_left g acts a.
Proof. intros A f g acts H. induction acts as [|x acts IH]; intro a; [reflexivity|]. cbn [map fold_left]. now rewrite H, IH. Qed.
Lemma map_app_inv : forall (A B : Type) (f : A -> B) l l1 l2, map f l = l1 ++ l2 -> exists k1 k2, l = k1 ++ k2 /\ l1 = map f k1.
Proof.
  intros A B f l. induction l as [|a l IH]; intros l1 l2 E.
  - cbn [map] in E. symmetry in E. apply app_eq_nil in E. destruct E as [-> _]. exists [], []. auto.
  - destruct l1 as [|b l1]; [exists [], (a :: l); auto|]. cbn [map app] in E. injection E as <- E.
    destruct (IH _ _ E) as [k1 [k2 [-> ->]]]. exists (a :: k1), k2. auto.
Qed.
Lemma new_at_work : forall v e bg tb, color_env v (new_terminal v bg) = Ok e -> as_background bg true None = Ok tb ->
  at_work v e tb (1, 1) (new_terminal v bg).
Proof. intros v e bg tb He Ht. split; [exact He|exact Ht|reflexivity]. Qed.
Lemma session : forall v e bg tb sh m reqs acts, peaceful v -> color_env v (new_terminal v bg) = Ok e ->
  as_background bg true None = Ok tb -> shades e sh -> at_rest m -> fits (fst (te_size v)) (snd (te_size v)) (1, 1) m ->
  Forall2 (stands_for tb) reqs (map SAct acts) -> Forall (act_ok (fst (te_size v)) (snd (te_size v))) acts ->
  exists s, ask_all (reqs ++ [RDraw]) v (new_terminal v bg) = (s, Ok tt) /\
    let m' := vt (t_out s) m in
    let p := fold_left (paint_act sh (fst (te_size v)) (snd (te_size v))) acts (blank 32) in
    (forall x y, 0 <= x < fst (te_size v) -> 0 <= y < snd (te_size v) -> e_grid m' x y = (fst (p (x, y)), snd (p (x, y)), [])) /\
    (forall x y, ~ (0 <= x < fst (te_size v) /\ 0 <= y < snd (te_size v)) -> e_grid m' x y = e_grid m x y) /\ at_rest m'.
Proof.
  intros v e bg tb sh m reqs acts Hv He Ht Hsh Hm Hf F A. set (w := fst (te_size v)) in *. set (h := snd (te_size v)) in *.
  pose proof (new_at_work v e bg tb He Ht) as W0.
  assert (F' : Forall2 (stands_for tb) (reqs ++ [RDraw]) (map SAct (acts ++ [ADraw])))
    by (rewrite map_app; apply Forall2_app; [exact F|constructor; [reflexivity|constructor]]).
  assert (A' : Forall (act_ok w h) (acts ++ [ADraw])) by (apply Forall_app; split; [exact A|constructor; [exact I|constructor]]).
  assert (FA : forall l k, fold_left (perform_step e (1, 1)) (map SAct l) k = fold_left (perform e (1, 1)) l k) by (intros; apply fold_acts; reflexivity).
  assert (FB : forall l k, fold_left (paint_step sh w h) (map SAct l) k = fold_left (paint_act sh w h) l k) by (intros; apply fold_acts; reflexivity).
  destruct (steps_done v e tb sh w h (1, 1) m Hv (reqs ++ [RDraw]) (map SAct (acts ++ [ADraw])) (new_terminal v bg) (blank 32) W0) as [s [E K]]; auto.
  { intros l l' E. apply map_app_inv in E. destruct E as [k1 [k2 [E ->]]]. exists never. rewrite FA, FB.
    rewrite E in A'. apply Forall_app in A'. apply inv_run; auto; [|apply A']. apply inv_start; auto. }
  { apply Forall_map. exact A'. }
  exists s. split; [exact E|]. rewrite FA in K.
  pose proof (drawing e sh w h (0, 0) 32 (1, 1) m acts Hsh eq_refl Hm Hf A) as D.
  destruct (fold_left (perform e (1, 1)) _ _) as [[s1 c1] m1] eqn:E1 in D.
  assert (EQ : (s1, c1, m1) = (t_screen s, t_cache s, vt (t_out s) m)) by (rewrite <- E1; symmetry; exact K).
  injection EQ as _ _ ->. cbv zeta in D |- *. destruct D as [D1 [D2 [D3 _]]].
  split; [|split; [|exact D3]].
  - intros x y Hx Hy. pose proof (D1 (x, y) (conj Hx Hy)) as D. unfold seen in D. cbn [fst snd] in D.
    replace (x + 1 - 1) with x in D by lia. replace (y + 1 - 1) with y in D by lia. exact D.
  - intros x y N. apply D2. cbn [fst snd]. unfold on_screen. cbn [fst snd]. lia.
Qed.
Lemma session_redraws : forall v e bg tb sh m reqs steps, peaceful v -> color_env v (new_terminal v bg) = Ok e ->
  as_background bg true None = Ok tb -> shades e sh -> at_rest m -> fits (fst (te_size v)) (snd (te_size v)) (1, 1) m ->
  Forall2 (stands_for tb) reqs steps -> Forall (step_ok (fst (te_size v)) (snd (te_size v))) steps ->
  exists s, ask_all (reqs ++ [RDraw]) v (new_terminal v bg) = (s, Ok tt) /\
    let m' := vt (t_out s) m in
    let p := fold_left (paint_step sh (fst (te_size v)) (snd (te_size v))) steps (blank 32) in
    (forall x y, 0 <= x < fst (te_size v) -> 0 <= y < snd (te_size v) -> e_grid m' x y = (fst (p (x, y)), snd (p (x, y)), []) \/
       (redrawn sh (fst (te_size v)) (snd (te_size v)) (blank 32) steps (x, y) /\ e_grid m' x y = (fst (p (x, y)), rend0, []))) /\
    (forall x y, ~ (0 <= x < fst (te_size v) /\ 0 <= y < snd (te_size v)) -> e_grid m' x y = e_grid m x y) /\ at_rest m'.
Proof.
  intros v e bg tb sh m reqs steps Hv He Ht Hsh Hm Hf F A. set (w := fst (te_size v)) in *. set (h := snd (te_size v)) in *.
  pose proof (new_at_work v e bg tb He Ht) as W0.
  assert (F' : Forall2 (stands_for tb) (reqs ++ [RDraw]) (steps ++ [SAct ADraw])) by (apply Forall2_app; [exact F|constructor; [reflexivity|constructor]]).
  assert (A' : Forall (step_ok w h) (steps ++ [SAct ADraw])) by (apply Forall_app; split; [exact A|constructor; [split; exact I|constructor]]).
  destruct (steps_done v e tb sh w h (1, 1) m Hv (reqs ++ [RDraw]) (steps ++ [SAct ADraw]) (new_terminal v bg) (blank 32) W0) as [s [E K]]; auto.
  { intros l l' E. exists (kept sh w h never (blank 32) l). rewrite E in A'. apply Forall_app in A'. apply inv_steps; auto; [| |apply A'].
    - apply inv_start; auto.
    - intro q. repeat constructor. }
  { revert A'. apply Forall_impl. intros [a|] Ha; [apply Ha|exact I]. }
  exists s. split; [exact E|].
  pose proof (redraws e sh w h (0, 0) 32 (1, 1) m steps Hsh eq_refl Hm Hf A) as D.
  destruct (fold_left (perform_step e (1, 1)) _ _) as [[s1 c1] m1] eqn:E1 in D.
  assert (EQ : (s1, c1, m1) = (t_screen s, t_cache s, vt (t_out s) m)) by (rewrite <- E1; symmetry; exact K).
  injection EQ as _ _ ->. cbv zeta in D |- *. destruct D as [D1 [D2 [D3 _]]].
  split; [|split; [|exact D3]].
  - intros x y Hx Hy. pose proof (D1 (x, y) (conj Hx Hy)) as D. unfold seen in D. cbn [fst snd] in D.
    replace (x + 1 - 1) with x in D by lia. replace (y + 1 - 1) with y in D by lia. exact D.
  - intros x y N. apply D2. cbn [fst snd]. unfold on_screen. cbn [fst snd]. lia.
Qed.
Lemma plain_string : forall t, ~ In ESC t -> t <> [] -> parse_line t = Ok [mkSpan t None None [] no_flags true].
Proof. intros t H N. unfold parse_line. rewrite (yield_plain t H N). reflexivity. Qed.

(** A printed span written as a string *)
Lemma printed_written : forall v e tb s fg bg p f st, color_env v st = Ok e -> as_background (t_bgcol st) true None = Ok tb ->
  layer_text e false (s_fg s) fg -> layer_text e true (s_bg s) bg ->
  fl_opaque (s_flags s) = false -> s_link s = [] -> text_ok (s_text s) ->
  exists s', s_text s' = s_text s /\ looks_like s' (styled (s_flags s) fg bg rend0) /\
    twrite (PStr (span_str e s)) (Some p) f v st =
    twrite (PSpans (s' :: if s_reset s && has_style s then [plain_span RESET] else [])) (Some p) f v st.
Proof.
  intros v e tb s fg bg p f st He Ht Lf Lb O L T. destruct (parse_printed e s fg bg Lf Lb O L T) as [s' [E [X K]]].
  exists s'. split; [exact X|]. split; [exact K|]. unfold twrite, parse_line. rewrite E. reflexivity.
Qed.
