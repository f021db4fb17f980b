(** Lemmas: repainting after the window got another size. *)
From Coq Require Import ZArith Reals List Bool Lia String Permutation Sorting.Sorted.
From Verif Require Import PyBase PyLemmas F64 SpaceModel ColorModel ColorSpec ColorProofs ColorProofs2 AnsiRe SpanModel Vt SpanSpec
  SpanProofs SpanProofs2 ScreenModel ScreenSpec ScreenProofs ScreenProofs2 ScreenProofs3 ScreenProofs4 DrawSpec
  DrawProofs DrawProofs2 DrawProofs3 TileSpec TileProofs PenSpec PenProofs PenProofs2 PenProofs3 ReshapeSpec ReshapeProofs.
Import ListNotations.
Open Scope Z_scope.

Lemma shows_app : forall sh origin V a b, shows sh origin V (a ++ b) = shows sh origin (shows sh origin V a) b.
Proof. intros. unfold shows. apply fold_left_app. Qed.
Lemma happenings_app : forall sh origin a b V, happenings_ok sh origin V (a ++ b) <->
  happenings_ok sh origin V a /\ happenings_ok sh origin (shows sh origin V a) b.
Proof.
  intros sh origin a. induction a as [|v a IH]; intros b V; cbn [app happenings_ok]; [cbn; tauto|].
  rewrite IH. change (shows sh origin V (v :: a)) with (shows sh origin (show sh origin V v) a). tauto.
Qed.
Lemma do_acts_app : forall a b, do_acts (a ++ b) = do_acts a ++ do_acts b.
Proof. intros. unfold do_acts. apply map_app. Qed.

(** * Acts do not change the sizes *)
Record steady (V V' : view) : Prop := {
  st_w : v_w V' = v_w V; st_h : v_h V' = v_h V; st_tw : v_tw V' = v_tw V; st_th : v_th V' = v_th V;
  st_due : due_inside V -> due_inside V'
}.
Lemma steady_act : forall sh origin V a, steady V (show sh origin V (HDo (EAct a))).
Proof.
  intros sh origin [w h tw th ink due seen_ pen] a. destruct a as [data tb force|fill|]; split; try reflexivity;
    unfold due_inside; cbn [show v_w v_h v_due].
  - intros H q. destruct (inside w h q) eqn:E; cbn [andb]; [|apply H]. intros _. now apply inside_iff.
  - intros H q. destruct (inside w h q) eqn:E; [|apply H]. intros _. now apply inside_iff.
  - intros _ q N. exfalso. apply N. reflexivity.
Qed.
Lemma steady_trans : forall A B C, steady A B -> steady B C -> steady A C.
Proof. intros A B C [] []. split; try congruence. auto. Qed.
Lemma steady_acts : forall sh origin acts V, steady V (shows sh origin V (do_acts acts)).
Proof.
  intros sh origin acts. induction acts as [|a acts IH]; intro V; [split; auto|].
  apply (steady_trans _ (show sh origin V (HDo (EAct a)))); [apply steady_act|apply IH].
Qed.
Lemma acts_happen : forall sh origin acts V, roomy origin V -> due_inside V ->
  Forall (fun a => event_ok (v_w V) (v_h V) (EAct a)) acts -> happenings_ok sh origin V (do_acts acts).
Proof.
  intros sh origin acts. induction acts as [|a acts IH]; intros V R D H; [exact Logic.I|].
  inversion H as [|? ? H1 H2]; subst. destruct (steady_act sh origin V a) as [S1 S2 S3 S4 S5].
  change (do_acts (a :: acts)) with (HDo (EAct a) :: do_acts acts). cbn [happenings_ok happening_ok]. split.
  - split; [exact H1|]. destruct a; auto.
  - apply IH.
    + unfold roomy in *. rewrite S1, S2, S3, S4. exact R.
    + auto.
    + rewrite S1, S2. exact H2.
Qed.

Lemma pen_due0 : forall w due n, pen_due w due rend0 n = rend0.
Proof. intros w due n. induction n as [|n IH]; [reflexivity|]. cbn [pen_due]. destruct (due _) as [i|]; [destruct (written i)|]; auto. Qed.

(** * True views *)
Definition true_view (sh : triple -> ecolor) (V : view) : Prop :=
  v_pen V = rend0 /\ forall q, on_screen (v_w V) (v_h V) q ->
    match v_due V q with Some i => i = v_ink V q | None => v_seen V q = inked sh (v_ink V q) rend0 end.
Lemma true_view_act : forall sh origin V a, true_view sh V -> true_view sh (show sh origin V (HDo (EAct a))).
Proof.
  intros sh origin [w h tw th ink due seen_ pen] [data tb force|fill|] [H1 H2]; unfold true_view;
    cbn [show v_w v_h v_due v_seen v_ink v_pen] in *; split; auto; intros q Hq; specialize (H2 q Hq).
  - rewrite (proj2 (inside_iff w h q) Hq). cbn [andb]. match goal with |- context [same_ink ?a ?b] => destruct (same_ink a b) eqn:E end; cbn [negb]; [|reflexivity].
    apply same_ink_iff in E. rewrite E. exact H2.
  - now rewrite (proj2 (inside_iff w h q) Hq).
  - cbn [nothing_due]. destruct (due q) as [i|]; [|exact H2]. subst i pen. now rewrite pen_due0.
Qed.
Lemma true_view_acts : forall sh origin acts V, true_view sh V -> true_view sh (shows sh origin V (do_acts acts)).
Proof.
  intros sh origin acts. induction acts as [|a acts IH]; intros V H; [exact H|].
  change (shows sh origin V (do_acts (a :: acts))) with (shows sh origin (show sh origin V (HDo (EAct a))) (do_acts acts)).
  apply IH. now apply true_view_act.
Qed.
Lemma ink_look_view : forall sh origin acts P V, Forall (act_ok (v_w V) (v_h V)) acts -> (forall q, ink_look sh (P q) (v_ink V q)) ->
  forall q, ink_look sh (fold_left (paint_act sh (v_w V) (v_h V)) acts P q) (v_ink (shows sh origin V (do_acts acts)) q).
Proof.
  intros sh origin acts. induction acts as [|a acts IH]; intros P V Ha H; [exact H|]. inversion Ha as [|? ? H1 H2]; subst.
  destruct (steady_act sh origin V a) as [S1 S2 _ _ _]. 
  change (shows sh origin V (do_acts (a :: acts))) with (shows sh origin (show sh origin V (HDo (EAct a))) (do_acts acts)).
  cbn [fold_left]. rewrite <- S1, <- S2 in *. apply IH; [exact H2|]. rewrite S1, S2 in *.
  pose proof (ink_look_act sh (v_w V) (v_h V) a P (mkDisplay (v_ink V) none_due (v_seen V) (v_pen V)) H1 H) as L.
  destruct V as [w h tw th ink due seen_ pen]. destruct a; exact L.
Qed.
(** the places outside the screen stay *)
Lemma outside_act : forall sh origin V a q, due_inside V -> ~ on_screen (v_w V) (v_h V) q ->
  v_seen (show sh origin V (HDo (EAct a))) q = v_seen V q.
Proof.
  intros sh origin [w h tw th ink due seen_ pen] [data tb force|fill|] q D N; cbn [show v_w v_h v_seen] in *; try reflexivity.
  destruct (due q) as [i|] eqn:E; [|reflexivity]. exfalso. apply N. apply D. cbn. congruence.
Qed.
Lemma outside_acts : forall sh origin acts V q, due_inside V -> ~ on_screen (v_w V) (v_h V) q ->
  v_seen (shows sh origin V (do_acts acts)) q = v_seen V q.
Proof.
  intros sh origin acts. induction acts as [|a acts IH]; intros V q D N; [reflexivity|].
  destruct (steady_act sh origin V a) as [S1 S2 _ _ S5].
  change (shows sh origin V (do_acts (a :: acts))) with (shows sh origin (show sh origin V (HDo (EAct a))) (do_acts acts)).
  rewrite IH; [now apply outside_act|auto|]. now rewrite S1, S2.
Qed.

(** * After a resize *)
Lemma after_window : forall sh origin V m w h fill keep,
  let V' := shows sh origin V (window m w h fill keep) in
  v_w V' = w /\ v_h V' = h /\ v_tw V' = e_w m /\ v_th V' = e_h m /\ v_pen V' = e_rend m /\ (forall q, v_seen V' q = seen origin m q) /\
  (forall q, v_ink V' q = if keep && inside (v_w V) (v_h V) q then v_ink V q else bare_ink fill) /\
  (forall q, v_due V' q = if inside w h q then Some (bare_ink fill) else v_due V q).
Proof. intros sh origin [w0 h0 tw th ink due seen_ pen] m w h fill keep. cbv zeta. repeat split. Qed.

Section After.
Variables (e : env) (sh : triple -> ecolor) (w0 h0 : Z) (cursor : pos) (fill0 : Z) (origin : pos) (m0 : emu) (l : list happening).
Variables (m : emu) (w h fill : Z) (keep : bool).
Hypothesis Hsh : shades e sh.
Hypothesis Hfill0 : is_ctl fill0 = false.
Hypothesis Hm0 : listening m0.
Let V := shows sh origin (first_view w0 h0 fill0 origin m0) l.
Hypothesis Hl : happenings_ok sh origin (first_view w0 h0 fill0 origin m0) l.
Hypothesis Hdue : forall q, v_due V q <> None -> on_screen w h q.
Hypothesis Hm : at_rest m.
Hypothesis Hfit : fits w h origin m.
Hypothesis Hfill : is_ctl fill = false.
Let V1 := shows sh origin V (window m w h fill keep).

Lemma V1_inside : due_inside V1.
Proof.
  pose proof (after_window sh origin V m w h fill keep) as AW. cbv zeta in AW. fold V1 in AW. destruct AW as [A1 [A2 [A3 [A4 [A5 [A6 [A7 A8]]]]]]].
  intros q. rewrite A8, A1, A2. destruct (inside w h q) eqn:E; [intros _; now apply inside_iff|apply Hdue].
Qed.
Lemma V1_roomy : roomy origin V1.
Proof.
  pose proof (after_window sh origin V m w h fill keep) as AW. cbv zeta in AW. fold V1 in AW. destruct AW as [A1 [A2 [A3 [A4 _]]]]. unfold roomy. rewrite A1, A2, A3, A4. exact Hfit.
Qed.
Lemma after_run : forall acts, Forall (fun a => event_ok w h (EAct a)) acts ->
  let '(s, _, m') := fold_left (happen e origin) (l ++ window m w h fill keep ++ do_acts acts) (new_screen w0 h0 cursor [fill0], [], m0) in
  let V2 := shows sh origin V1 (do_acts acts) in
  (forall q, seen origin m' q = v_seen V2 q) /\ e_rend m' = v_pen V2 /\ listening m'.
Proof.
  intros acts Ha. pose proof (after_window sh origin V m w h fill keep) as AW. cbv zeta in AW. fold V1 in AW. destruct AW as [A1 [A2 _]].
  pose proof (reshaped_exactly e sh w0 h0 cursor fill0 origin m0 (l ++ window m w h fill keep ++ do_acts acts) Hsh Hfill0 Hm0) as S.
  destruct (fold_left (happen e origin) _ _) as [[s c] m']. cbv zeta in S. rewrite !shows_app in S. fold V in S. fold V1 in S.
  assert (OK : happenings_ok sh origin (first_view w0 h0 fill0 origin m0) (l ++ window m w h fill keep ++ do_acts acts)).
  { apply happenings_app. split; [exact Hl|]. fold V. apply happenings_app. split.
    - cbn [window happenings_ok happening_ok]. destruct Hm as [X1 [X2 X3]]. split; [split; assumption|]. split; [exact Hfill|exact Logic.I].
    - fold V1. apply acts_happen; [apply V1_roomy|apply V1_inside|]. rewrite A1, A2. exact Ha. }
  destruct (S OK) as [S1 [S2 [S3 _]]]. auto.
Qed.

(** clear, paint, draw: the picture *)
Lemma repainted : forall fill' acts, is_ctl fill' = false -> Forall (act_ok w h) acts ->
  let '(_, _, m') := fold_left (happen e origin) (l ++ window m w h fill keep ++ do_acts (AClear fill' :: acts ++ [ADraw]))
    (new_screen w0 h0 cursor [fill0], [], m0) in
  let p := fold_left (paint_act sh w h) acts (blank fill') in
  (forall q, on_screen w h q -> seen origin m' q = (fst (p q), snd (p q), [])) /\
  (forall q, ~ on_screen w h q -> seen origin m' q = seen origin m q) /\ at_rest m'.
Proof.
  intros fill' acts Hf' Ha. pose proof (after_window sh origin V m w h fill keep) as AW. cbv zeta in AW. fold V1 in AW. destruct AW as [A1 [A2 [A3 [A4 [A5 [A6 [A7 A8]]]]]]].
  assert (OKS : Forall (fun a => event_ok w h (EAct a)) (AClear fill' :: acts ++ [ADraw])).
  { constructor; [exact Hf'|]. apply Forall_app. split; [|constructor; [exact Logic.I|constructor]].
    revert Ha. apply Forall_impl. intros a. apply act_event_ok. }
  pose proof (after_run _ OKS) as R. destruct (fold_left (happen e origin) _ _) as [[s c] m']. cbv zeta in *.
  set (V2 := shows sh origin V1 _) in *. destruct R as [R1 [R2 [R3 R4]]].
  set (Vc := show sh origin V1 (HDo (EAct (AClear fill')))).
  destruct (steady_act sh origin V1 (AClear fill')) as [C1 C2 C3 C4 C5]. fold Vc in C1, C2, C3, C4, C5.
  set (Va := shows sh origin Vc (do_acts acts)).
  assert (E2 : V2 = show sh origin Va (HDo (EAct ADraw))).
  { unfold V2. change (do_acts (AClear fill' :: acts ++ [ADraw])) with (HDo (EAct (AClear fill')) :: do_acts (acts ++ [ADraw])).
    rewrite do_acts_app. change (shows sh origin V1 (HDo (EAct (AClear fill')) :: do_acts acts ++ do_acts [ADraw])) with (shows sh origin Vc (do_acts acts ++ do_acts [ADraw])).
    rewrite shows_app. reflexivity. }
  assert (TC : true_view sh Vc).
  { unfold Vc, true_view. destruct V1 as [w1 h1 tw th ink due seen_ pen]. cbn [v_w v_h v_pen v_seen v_due v_ink show] in *.
    split; [rewrite A5; apply Hm|]. intros q Hq. rewrite (proj2 (inside_iff _ _ q) Hq). reflexivity. }
  destruct (steady_acts sh origin acts Vc) as [D1 D2 D3 D4 D5]. fold Va in D1, D2, D3, D4, D5.
  pose proof (true_view_act sh origin Va ADraw (true_view_acts sh origin acts Vc TC)) as [T1 T2]. rewrite <- E2 in T1, T2.
  assert (W2 : v_w V2 = w /\ v_h V2 = h).
  { destruct (steady_act sh origin Va ADraw) as [B1 B2 _ _ _]. rewrite E2. split; congruence. }
  split; [|split].
  - intros q Hq. rewrite R1. destruct W2 as [W2 H2]. specialize (T2 q). rewrite W2, H2 in T2. specialize (T2 Hq).
    assert (N : v_due V2 q = None) by (rewrite E2; destruct Va; reflexivity). rewrite N in T2. rewrite T2.
    assert (IV : v_ink V2 q = v_ink Va q) by (rewrite E2; destruct Va; reflexivity). rewrite IV.
    assert (Ew : v_w Vc = w /\ v_h Vc = h) by (split; congruence). destruct Ew as [Ew Eh].
    pose proof (ink_look_view sh origin acts (blank fill') Vc) as L. rewrite Ew, Eh in L.
    apply L; [exact Ha|]. intro q0. unfold Vc. destruct V1. reflexivity.
  - intros q N. rewrite R1, <- A6. unfold V2. apply outside_acts; [apply V1_inside|]. rewrite A1, A2. exact N.
  - split; [exact R3|]. split; [now rewrite R2, T1|exact R4].
Qed.

(** without a clear *)
Definition kept_shown (ink0 : ink) (touched : bool) (V : view) (q : pos) : Prop :=
  if touched then match v_due V q with Some i => i = v_ink V q | None => v_seen V q = inked sh (v_ink V q) rend0 end
  else v_ink V q = ink0 /\ match v_due V q with Some i => i = bare_ink fill | None => v_seen V q = (fill, rend0, []) end.
Lemma kept_act : forall ink0 b U a q, no_clear a -> on_screen (v_w U) (v_h U) q -> v_pen U = rend0 -> kept_shown ink0 b U q ->
  let U' := show sh origin U (HDo (EAct a)) in
  v_pen U' = rend0 /\ ((b = true \/ v_ink U' q <> ink0) -> kept_shown ink0 true U' q) /\ (b = false -> v_ink U' q = ink0 -> kept_shown ink0 false U' q).
Proof.
  intros ink0 b [w1 h1 tw th ink due seen_ pen] a q Na Hq Hp K. cbv zeta. unfold kept_shown in *. destruct a as [data tb force|fill'|]; [| destruct Na|];
    cbn [v_w v_h v_pen v_seen v_due v_ink show] in *.
  - split; [exact Hp|]. rewrite (proj2 (inside_iff _ _ q) Hq). cbn [andb].
    match goal with |- context [same_ink ?a ?b] => destruct (same_ink a b) eqn:E; set (i' := a) in * end; cbn [negb].
    + apply same_ink_iff in E. rewrite E. destruct b; [split; [intros _; exact K|discriminate]|]. destruct K as [K1 K2].
      split; [intros [X|X]; [discriminate|congruence]|]. auto.
    + split; [reflexivity|]. intros -> X. exfalso. destruct K as [K1 _]. assert (same_ink i' (ink q) = true) by (apply same_ink_iff; congruence). congruence.
  - split; [reflexivity|]. cbn [nothing_due]. subst pen. rewrite !pen_due0. destruct b.
    + split; [|discriminate]. intros _. destruct (due q) as [i|]; [now subst i|exact K].
    + destruct K as [K1 K2]. split; [intros [X|X]; [discriminate|contradiction]|]. intros _ _. split; [exact K1|]. destruct (due q) as [i|]; [now subst i|exact K2].
Qed.
Lemma kept_acts : forall ink0 q acts b U, Forall no_clear acts -> on_screen (v_w U) (v_h U) q -> v_pen U = rend0 -> kept_shown ink0 b U q ->
  let U' := shows sh origin U (do_acts acts) in
  v_pen U' = rend0 /\
  ((b = true \/ ~ (forall x y, acts = x ++ y -> v_ink (shows sh origin U (do_acts x)) q = ink0)) -> kept_shown ink0 true U' q) /\
  (b = false -> (forall x y, acts = x ++ y -> v_ink (shows sh origin U (do_acts x)) q = ink0) -> kept_shown ink0 false U' q).
Proof.
  intros ink0 q acts. induction acts as [|a acts IH]; intros b U Na Hq Hp K.
  - cbv zeta. cbn [do_acts map shows fold_left]. split; [exact Hp|]. destruct b; split; auto; try discriminate.
    intros [X|X]; [discriminate|]. exfalso. apply X. intros [|? ?] y E; [|discriminate]. exact (proj1 K).
  - inversion Na as [|? ? N1 N2]; subst. destruct (kept_act ink0 b U a q N1 Hq Hp K) as [K1 [K2 K3]].
    destruct (steady_act sh origin U a) as [S1 S2 _ _ _]. set (U1 := show sh origin U (HDo (EAct a))) in *. cbv zeta.
    change (shows sh origin U (do_acts (a :: acts))) with (shows sh origin U1 (do_acts acts)).
    assert (Hq1 : on_screen (v_w U1) (v_h U1) q) by (rewrite S1, S2; exact Hq).
    assert (ST : forall x, shows sh origin U (do_acts (a :: x)) = shows sh origin U1 (do_acts x)) by reflexivity.
    assert (dec : v_ink U1 q = ink0 \/ v_ink U1 q <> ink0).
    { destruct (same_ink (v_ink U1 q) ink0) eqn:E; [left; now apply same_ink_iff|right]. intro X. apply same_ink_iff in X. congruence. }
    destruct b; [|destruct dec as [E|E]].
    + destruct (IH true U1 N2 Hq1 K1 (K2 (or_introl eq_refl))) as [J1 [J2 _]]. split; [exact J1|]. split; [intros _; apply J2; now left|discriminate].
    + destruct (IH false U1 N2 Hq1 K1 (K3 eq_refl E)) as [J1 [J2 J3]]. split; [exact J1|]. split.
      * intros [X|X]; [discriminate|]. apply J2. right. intro Y. apply X. intros [|x0 x] y Ex; [exact (proj1 K)|].
        injection Ex as <- Ex. rewrite ST. exact (Y x y Ex).
      * intros _ Y. apply J3; [reflexivity|]. intros x y Ex. rewrite <- ST. apply (Y (a :: x) y). cbn [app]. now rewrite <- Ex.
    + destruct (IH true U1 N2 Hq1 K1 (K2 (or_intror E))) as [J1 [J2 _]]. split; [exact J1|]. split; [intros _; apply J2; now left|].
      intros _ Y. exfalso. apply E. exact (Y [a] acts eq_refl).
Qed.
Lemma kept_cells : forall acts, Forall no_clear acts -> Forall (fun a => event_ok w h (EAct a)) acts ->
  let '(_, _, m') := fold_left (happen e origin) (l ++ window m w h fill keep ++ do_acts (acts ++ [ADraw])) (new_screen w0 h0 cursor [fill0], [], m0) in
  let V2 := shows sh origin V1 (do_acts acts) in
  forall q, on_screen w h q ->
    (untouched sh origin V1 acts q -> seen origin m' q = (fill, rend0, [])) /\
    (~ untouched sh origin V1 acts q -> seen origin m' q = inked sh (v_ink V2 q) rend0).
Proof.
  intros acts Na Ha. pose proof (after_window sh origin V m w h fill keep) as AW. cbv zeta in AW. fold V1 in AW. destruct AW as [A1 [A2 [A3 [A4 [A5 [A6 [A7 A8]]]]]]].
  assert (OKS : Forall (fun a => event_ok w h (EAct a)) (acts ++ [ADraw])) by (apply Forall_app; split; [exact Ha|constructor; [exact Logic.I|constructor]]).
  pose proof (after_run _ OKS) as R. destruct (fold_left (happen e origin) _ _) as [[s c] m']. cbv zeta in *. destruct R as [R1 _].
  intros q Hq. rewrite R1. rewrite do_acts_app, shows_app. set (V2 := shows sh origin V1 (do_acts acts)) in *.
  assert (Hq1 : on_screen (v_w V1) (v_h V1) q) by (rewrite A1, A2; exact Hq).
  assert (Hp : v_pen V1 = rend0) by (rewrite A5; apply Hm).
  assert (K0 : kept_shown (v_ink V1 q) false V1 q).
  { unfold kept_shown. split; [reflexivity|]. rewrite A8. now rewrite (proj2 (inside_iff w h q) Hq). }
  destruct (kept_acts (v_ink V1 q) q acts false V1 Na Hq1 Hp K0) as [P2 [K1 K2]]. fold V2 in P2, K1, K2.
  assert (FD : v_seen (shows sh origin V2 (do_acts [ADraw])) q = match v_due V2 q with Some i => inked sh i rend0 | None => v_seen V2 q end).
  { destruct V2 as [a1 a2 a3 a4 ink due seen_ pen]. cbn in P2. subst pen. cbn [do_acts map shows fold_left show v_seen v_due]. now rewrite pen_due0. }
  rewrite FD. unfold kept_shown in K1, K2. unfold untouched. split; intro T.
  - destruct (K2 eq_refl T) as [_ X]. destruct (v_due V2 q) as [i|]; [now subst i|exact X].
  - specialize (K1 (or_intror T)). destruct (v_due V2 q) as [i|]; [now subst i|exact K1].
Qed.
End After.

(** * A full redraw of text without attributes *)
Lemma plain_own : forall t, Forall (eq false) (attributes (own t)) -> styled (tile_flags t) None None rend0 = rend0.
Proof.
  intros [c f b] H. unfold own in H. cbn [tile_flags] in *.
  destruct f as [b1 b2 b3 b4 b5 b6 b7 b8 b9 o]. unfold attributes, styled in *. cbn in H.
  repeat match goal with H : Forall _ (_ :: _) |- _ => inversion H; clear H; subst end.
  destruct b1, b2, b3, b4, b5, b6, b7, b8, b9; try discriminate; reflexivity.
Qed.
Lemma pen_at_plain : forall w h (T : tiling), (forall q, on_screen w h q -> Forall (eq false) (attributes (own (T q)))) ->
  forall n, (n <= Z.to_nat h * Z.to_nat w)%nat -> pen_at w T rend0 n = rend0.
Proof.
  intros w h T H n. induction n as [|n IH]; intro Hn; [reflexivity|]. cbn [pen_at]. rewrite IH by lia. unfold pen_after.
  destruct (nth_no_pos w h n ltac:(lia)) as [Hq _]. rewrite (plain_own _ (H _ Hq)). destruct (tile_ends _); reflexivity.
Qed.
Lemma redrawn_plain : forall e sh w0 h0 cursor fill0 origin m0 l, shades e sh -> is_ctl fill0 = false -> listening m0 ->
  happenings_ok sh origin (first_view w0 h0 fill0 origin m0) l ->
  let V := shows sh origin (first_view w0 h0 fill0 origin m0) l in
  v_pen V = rend0 -> no_attributes V -> roomy origin V ->
  let '(_, _, m') := fold_left (happen e origin) (l ++ [HDo ERedraw]) (new_screen w0 h0 cursor [fill0], [], m0) in
  (forall q, on_screen (v_w V) (v_h V) q -> seen origin m' q = (tile_char (ink_tile (v_ink V q)), rend0, [])) /\ at_rest m'.
Proof.
  intros e sh w0 h0 cursor fill0 origin m0 l Hsh Hf Hm Hl V Hp Hn Hr.
  pose proof (reshaped_exactly e sh w0 h0 cursor fill0 origin m0 (l ++ [HDo ERedraw]) Hsh Hf Hm) as S.
  destruct (fold_left (happen e origin) _ _) as [[s c] m']. cbv zeta in S. rewrite shows_app in S. fold V in S.
  assert (OK : happenings_ok sh origin (first_view w0 h0 fill0 origin m0) (l ++ [HDo ERedraw])).
  { apply happenings_app. split; [exact Hl|]. fold V. cbn [happenings_ok happening_ok]. split; [split; [exact Logic.I|exact Hr]|exact Logic.I]. }
  destruct (S OK) as [S1 [S2 [[S3 S4] _]]]. clear S OK Hl. unfold no_attributes in Hn. destruct V as [w h tw th ink due seen_ pen].
  cbn [shows fold_left show v_w v_h v_pen v_seen v_ink] in *. subst pen.
  assert (PA : forall n, (n <= Z.to_nat h * Z.to_nat w)%nat -> pen_at w (fun q => ink_tile (ink q)) rend0 n = rend0) by (apply pen_at_plain; exact Hn).
  split.
  - intros q Hq. rewrite S1, (proj2 (inside_iff w h q) Hq). destruct (pos_no_nth w h q Hq) as [_ Hk]. rewrite PA by lia. now rewrite (plain_own _ (Hn q Hq)).
  - split; [exact S3|]. split; [|exact S4]. rewrite S2. apply PA. lia.
Qed.
