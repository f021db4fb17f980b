(** Histories with full redraws. *)
From Coq Require Import ZArith Reals List Bool Lia String.
From Verif Require Import PyBase PyLemmas F64 SpaceModel ColorModel ColorSpec AnsiRe SpanModel Vt SpanSpec
  SpanProofs SpanProofs2 ScreenModel ScreenSpec ScreenProofs DrawSpec DrawProofs DrawProofs2 DrawProofs3 RedrawSpec.
Import ListNotations.
Open Scope Z_scope.

Lemma rev_in : forall A (l r : list A) a, rev l = a :: r -> In a l.
Proof. intros A l r a E. apply in_rev. rewrite E. now left. Qed.
Lemma number_in : forall A w h (l : list A) b i, In i (number w h b l) -> In (snd i) l.
Proof.
  intros A w h l. induction l as [|x l IH]; intros b i H; cbn [number] in H; [destruct H|].
  destruct (b <? w * h); [|destruct H]. destruct H as [<-|H]; [now left|right; eauto].
Qed.
(** No act gives a cell attributes *)
Lemma plain_paint : forall sh w h P a, plain_act a -> (forall q, Forall (eq false) (attributes (snd (P q)))) ->
  forall q, Forall (eq false) (attributes (snd (paint_act sh w h P a q))).
Proof.
  intros sh w h P a Ha HP q. destruct a as [data tb force|fill|]; cbn [paint_act]; [|repeat constructor|apply HP].
  destruct (rev (covering q (flat_map (spots w h) data))) as [|[c s] r] eqn:E; [apply HP|].
  apply rev_in in E. unfold covering in E. apply in_map_iff in E. destruct E as [[q' g] [Eg Hi]]. cbn [snd] in Eg. subst g.
  apply filter_In in Hi. destruct Hi as [Hi _]. apply in_flat_map in Hi. destruct Hi as [[[x y] line] [Hd Hi]].
  unfold spots in Hi. destruct (_ && _); [|destruct Hi]. apply number_in in Hi. cbn [snd] in Hi. unfold glyphs in Hi.
  apply in_flat_map in Hi. destruct Hi as [s' [Hs Hc]]. apply in_map_iff in Hc. destruct Hc as [c' [Ec _]]. injection Ec as _ <-.
  cbn [plain_act] in Ha. rewrite Forall_forall in Ha. specialize (Ha _ Hd). cbn [snd] in Ha. rewrite Forall_forall in Ha.
  exact (Ha _ Hs).
Qed.

Section Run.
Variables (e : env) (sh : triple -> ecolor) (w h : Z) (origin : pos) (g0 : Z -> Z -> ecell) (W0 H0 : Z).
Hypothesis Hsh : shades e sh.
Hypothesis Hfit : 1 <= fst origin /\ 1 <= snd origin /\ fst origin - 1 + w <= W0 /\ snd origin - 1 + h <= H0.
Notation inv := (inv e sh w h origin g0 W0 H0).

Lemma inv_redraw : forall st (st' : pos -> Prop) k P, inv st k P -> (forall q, on_screen w h q -> Forall (eq false) (attributes (snd (P q)))) ->
  (forall q, st' q) -> inv st' (perform_step e origin k SRedraw) P.
Proof.
  intros st st' [[s c] m] P I HP Hst. destruct origin as [ox oy]. destruct Hfit as [F1 [F2 [F3 F4]]]. cbn [fst snd] in *.
  cbn [perform_step render].
  assert (R : e_rend m = rend0) by (destruct I as [_ _ _ _ _ _ [_ [R _]] _ _ _ _ _]; exact R).
  destruct (inv_typed (fun r => Forall (eq false) (attributes r)) (eq rend0) (fun _ b => rend0 = b) eq_refl) with (2 := I) as [[C1 [C2 C3]] [S1 [S2 [A B]]]]; auto.
  { intros f fg bg pen U H. rewrite (unattributed_styled f fg bg pen H). auto. }
  destruct I as [I1 I2 I3 I4 I5 I6 I7 I8 I9 I10 I11 I12]. cbn [fst snd] in *.
  split; cbn [fst snd sc_w sc_h sc_off]; auto.
  - constructor.
  - split; [exact C1|]. split; [exact (eq_sym C3)|exact C2].
  - intros q t E. discriminate E.
  - intros q Hq _. right. split; [apply Hst|]. destruct (A q Hq) as [rd [<- E]]. exact E.
Qed.

(** which cells may be shown plainly, after more steps *)
Definition kept (st : pos -> Prop) (P : picture) (steps : list step) (q : pos) : Prop :=
  (st q /\ forall l l', steps = l ++ l' -> fold_left (paint_step sh w h) l P q = fold_left (paint_step sh w h) steps P q) \/
  redrawn sh w h P steps q.
Lemma inv_steps : forall steps st k P, inv st k P -> (forall q, Forall (eq false) (attributes (snd (P q)))) -> Forall (step_ok w h) steps ->
  inv (kept st P steps) (fold_left (perform_step e origin) steps k) (fold_left (paint_step sh w h) steps P).
Proof.
  intro steps. induction steps as [|s steps IH]; intros st k P I HP Hs.
  - cbn [fold_left]. apply inv_weaken with (st := st); [|exact I]. intros q Hq. left. split; [exact Hq|].
    intros l l' E. symmetry in E. apply app_eq_nil in E. destruct E as [-> _]. reflexivity.
  - inversion Hs as [|? ? H1 H2]; subst. cbn [fold_left]. destruct s as [a|].
    + destruct H1 as [H1 H3]. cbn [perform_step paint_step].
      assert (I1 : inv (fun q => st q /\ paint_act sh w h P a q = P q) (perform e origin k a) (paint_act sh w h P a))
        by (apply inv_act with (st := st); auto).
      specialize (IH _ _ _ I1 (plain_paint sh w h P a H3 HP) H2).
      revert IH. apply inv_weaken. intros q [[[Q1 Q2] Q3]|[b [af [Q1 Q2]]]].
      * left. split; [exact Q1|]. intros [|s l] l' E.
        -- cbn [fold_left paint_step]. rewrite <- (Q3 [] steps eq_refl). cbn [fold_left]. now rewrite Q2.
        -- cbn [app] in E. injection E as <- ->. cbn [fold_left paint_step]. exact (Q3 l l' eq_refl).
      * right. exists (SAct a :: b), af. split; [cbn [app]; now rewrite Q1|]. intros l l' E. exact (Q2 l l' E).
    + cbn [paint_step]. assert (I1 : inv (fun _ => True) (perform_step e origin k SRedraw) P) by (apply inv_redraw with (st := st); auto).
      specialize (IH _ _ _ I1 HP H2). revert IH. apply inv_weaken. intros q [[_ Q3]|[b [af [Q1 Q2]]]].
      * right. exists [], steps. split; [reflexivity|]. intros l l' E. exact (Q3 l l' E).
      * right. exists (SRedraw :: b), af. split; [cbn [app]; now rewrite Q1|]. intros l l' E. exact (Q2 l l' E).
Qed.
End Run.

Lemma redraws : forall e sh w h cursor fill origin m steps, shades e sh -> is_ctl fill = false ->
  at_rest m -> fits w h origin m -> Forall (step_ok w h) steps ->
  let '(s, _, m') := fold_left (perform_step e origin) (steps ++ [SAct ADraw]) (new_screen w h cursor [fill], [], m) in
  let p := fold_left (paint_step sh w h) steps (blank fill) in
  (forall q, on_screen w h q -> seen origin m' q = (fst (p q), snd (p q), []) \/
     (redrawn sh w h (blank fill) steps q /\ seen origin m' q = (fst (p q), rend0, []))) /\
  (forall X Y, ~ on_screen w h (X - fst origin + 1, Y - snd origin + 1) -> e_grid m' X Y = e_grid m X Y) /\
  at_rest m' /\ sc_buf s = [].
Proof.
  intros e sh w h cursor fill origin m steps Hsh Hfill Hm Hf Ha.
  assert (I0 : inv e sh w h origin (e_grid m) (e_w m) (e_h m) never (new_screen w h cursor [fill], [], m) (blank fill)) by (apply inv_start; auto).
  assert (HP : forall q, Forall (eq false) (attributes (snd (blank fill q)))) by (intro q; repeat constructor).
  pose proof (inv_steps e sh w h origin (e_grid m) (e_w m) (e_h m) Hsh Hf steps _ _ _ I0 HP Ha) as I1.
  rewrite fold_left_app. cbn [fold_left perform_step]. set (k := fold_left (perform_step e origin) steps _) in *.
  destruct (inv_draw e sh w h origin (e_grid m) (e_w m) (e_h m) Hsh Hf _ k _ I1) as [I2 S].
  assert (B : sc_buf (fst (fst (perform e origin k ADraw))) = []).
  { destruct k as [[s c] m0]. cbn [perform]. unfold render. destruct origin. reflexivity. }
  destruct (perform e origin k ADraw) as [[s c'] m'] eqn:E. cbn [fst snd] in *. cbv zeta.
  split; [intros q Hq; destruct (S q Hq) as [A|[[[[] _]|A1] A2]]; auto|].
  split; [intros X Y HX; apply (i_outside _ _ _ _ _ _ _ _ _ _ _ I2); exact HX|].
  split; [apply (i_rest _ _ _ _ _ _ _ _ _ _ _ I2)|exact B].
Qed.
