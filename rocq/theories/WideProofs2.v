(** Wide characters: histories, and one run of cells. *)
From Coq Require Import ZArith Reals List Bool Lia String Permutation Sorting.Sorted.
From Verif Require Import PyBase PyLemmas F64 SpaceModel ColorModel ColorSpec ColorProofs AnsiRe SpanModel Vt SpanSpec
  SpanProofs SpanProofs2 ScreenModel ScreenSpec ScreenProofs ScreenProofs2 ScreenProofs3 ScreenProofs4 ScreenProofs5 ScreenProofs6 ScreenProofs7 ScreenProofs8 DrawSpec DrawProofs DrawProofs2
  ScrollProofs WideSpec WideProofs.
Import ListNotations.
Open Scope Z_scope.

Section Hist.
Variables (wd : Z -> Z) (e : env) (sh : triple -> ecolor) (w h : Z) (origin : pos) (g0 : Z -> Z -> ecell) (W0 H0 : Z).
Hypothesis Hwd : terminal_widths wd.
Hypothesis Hsh : shades e sh.
Hypothesis Hfit : 1 <= fst origin /\ 1 <= snd origin /\ fst origin - 1 + w <= W0 /\ snd origin - 1 + h <= H0.
Notation Inv := (inv e sh w h origin g0 W0 H0 never).
Definition narrow_picture (P : picture) : Prop := forall q, on_screen w h q -> wd (fst (P q)) = 1.

Lemma inv_items : forall k P, Inv k P -> exists items, Permutation items (sc_buf (fst (fst k))) /\
  StronglySorted (fun a b => above (fst a) (fst b)) items /\ Forall (shows_item e sh w h P) items /\
  (forall q t, In (q, t) items <-> pending (fst (fst k)) q = Some t) /\
  (fst (render (fst (fst k)) origin false) = emit (fst origin) (snd origin) None items \/
   fst (render (fst (fst k)) origin false) = emit (fst origin) (snd origin) None items ++ RESET).
Proof.
  intros [[s c] m] P I. cbn [fst snd]. pose proof (i_keyed _ _ _ _ _ _ _ _ _ _ _ I) as K. pose proof (i_pending _ _ _ _ _ _ _ _ _ _ _ I) as IP. cbn [fst snd] in *.
  destruct (render_spec s origin K) as [items [Perm [Sorted R]]]. exists items.
  destruct (render s origin false) as [out s']. destruct R as [_ [Hout _]]. cbn [fst].
  assert (B : forall q t, In (q, t) items <-> pending s q = Some t).
  { intros q t. split; intro H.
    - unfold pending. apply (in_buf_get w h origin g0 W0 H0 Hfit); [exact K|]. eapply Permutation_in; eauto.
    - apply buf_get_in in H. eapply Permutation_in; [apply Permutation_sym|]; eauto. }
  split; [exact Perm|]. split; [exact Sorted|]. split.
  - apply Forall_forall. intros [q t] Hi. apply B in Hi. destruct (IP q t Hi) as [A [cl [C D]]]. split; [exact A|]. exists cl. auto.
  - split; [exact B|]. exact Hout.
Qed.

Lemma step_w : forall k P a mw, Inv k P -> act_ok w h a -> at_rest mw -> e_w mw = W0 -> e_h mw = H0 ->
  let k' := perform e origin k a in
  exists mw', performw wd e origin (fst k, mw) a = (fst k', mw') /\ at_rest mw' /\ e_w mw' = W0 /\ e_h mw' = H0 /\
    (mw = snd k -> narrow_picture P -> mw' = snd k').
Proof.
  intros [[s c] m] P a mw I Ha Hm HW HH. destruct a as [data tb force|fill|]; cbn [perform performw fst snd].
  - destruct (write_bulk e c s data tb force) as [[s' c'] r]. cbn [fst snd]. exists mw. auto 10.
  - cbn [fst snd]. exists mw. auto 10.
  - destruct (inv_items _ _ I) as [items [_ [_ [Hi [_ Hout]]]]]. cbn [fst] in *. destruct (render s origin false) as [out s']. cbn [fst snd] in *.
    exists (vtw wd out mw). split; [reflexivity|]. destruct Hfit as [F1 [F2 _]].
    destruct (vtw_items_rest wd Hwd e sh w h (fst origin) (snd origin) P Hsh F1 F2 items None mw Hi Hm) as [R1 [R2 R3]].
    assert (Q : at_rest (vtw wd out mw) /\ e_w (vtw wd out mw) = e_w mw /\ e_h (vtw wd out mw) = e_h mw).
    { destruct Hout as [-> | ->]; [auto|]. rewrite vtw_app, (vtw_narrow wd RESET) by (apply ascii_narrow; [exact Hwd|apply reset_ascii]).
      destruct R1 as [R11 [R12 R13]]. rewrite vt_reset by exact R11. cbn [set_rend e_w e_h]. split; [|auto]. repeat split; auto. }
    destruct Q as [Q1 [Q2 Q3]]. split; [exact Q1|]. split; [congruence|]. split; [congruence|].
    intros -> Hn. apply vtw_narrow.
    pose proof (emit_narrow wd Hwd e sh w h (fst origin) (snd origin) P Hsh F1 F2 items None Hi Hn) as N.
    destruct Hout as [-> | ->]; [exact N|]. apply Forall_app. split; [exact N|]. apply ascii_narrow; [exact Hwd|apply reset_ascii].
Qed.

Lemma covering_narrow : forall q data, Forall (fun entry : pos * list span => Forall (fun s => narrow wd (s_text s)) (snd entry)) data ->
  Forall (fun g : Z * span => wd (fst g) = 1) (covering q (flat_map (spots w h) data)).
Proof.
  intros q data H. apply Forall_forall. intros [c s] Hi. unfold covering in Hi. apply in_map_iff in Hi. destruct Hi as [[q' g] [Eg Hi]].
  cbn [snd] in Eg. subst g. apply filter_In in Hi. destruct Hi as [Hi _]. apply in_flat_map in Hi. destruct Hi as [[[x y] line] [Hd Hi]].
  unfold spots in Hi. destruct (_ && _); [|contradiction]. apply in_number in Hi. unfold glyphs in Hi. apply in_flat_map in Hi.
  destruct Hi as [s' [Hs Hi]]. apply in_map_iff in Hi. destruct Hi as [c' [Ec Hc]]. assert (Ec1 : c' = c) by congruence. subst c'. cbn [fst].
  rewrite Forall_forall in H. specialize (H _ Hd). cbn [snd] in H. rewrite Forall_forall in H. specialize (H _ Hs).
  unfold narrow in H. rewrite Forall_forall in H. now apply H.
Qed.
Lemma narrow_step : forall P a, narrow_picture P -> act_narrow wd a -> narrow_picture (paint_act sh w h P a).
Proof.
  intros P [data tb force|fill|] HP Ha q Hq; cbn [paint_act]; [|exact Ha|now apply HP].
  pose proof (covering_narrow q data Ha) as C. apply Forall_rev in C. destruct (rev _) as [|[c s] l]; [now apply HP|].
  inversion C as [|? ? C1 C2]; subst. exact C1.
Qed.

Lemma run_w : forall acts k P mw, Inv k P -> Forall (act_ok w h) acts -> at_rest mw -> e_w mw = W0 -> e_h mw = H0 ->
  let k' := fold_left (perform e origin) acts k in
  exists mw', fold_left (performw wd e origin) acts (fst k, mw) = (fst k', mw') /\ at_rest mw' /\ e_w mw' = W0 /\ e_h mw' = H0 /\
    (mw = snd k -> narrow_picture P -> Forall (act_narrow wd) acts -> mw' = snd k').
Proof.
  induction acts as [|a acts IH]; intros k P mw I Ha Hm HW HH; cbn [fold_left].
  - exists mw. auto 10.
  - pose proof (Forall_inv Ha) as H1. pose proof (Forall_inv_tail Ha) as H2. destruct (step_w k P a mw I H1 Hm HW HH) as [mw1 [E [M1 [M2 [M3 M4]]]]]. rewrite E.
    assert (I1 : Inv (perform e origin k a) (paint_act sh w h P a)) by (apply inv_act with (st := never); auto).
    destruct (IH _ _ mw1 I1 H2 M1 M2 M3) as [mw2 [E2 [N1 [N2 [N3 N4]]]]]. exists mw2.
    split; [exact E2|]. split; [exact N1|]. split; [exact N2|]. split; [exact N3|].
    intros A B C. pose proof (Forall_inv C) as C1. pose proof (Forall_inv_tail C) as C2. apply N4; [now apply M4|now apply narrow_step|exact C2].
Qed.
End Hist.

Lemma narrow_histories : forall wd e sh w h cursor fill origin m acts, terminal_widths wd -> shades e sh -> is_ctl fill = false ->
  at_rest m -> fits w h origin m -> Forall (act_ok w h) acts -> wd fill = 1 -> Forall (act_narrow wd) acts ->
  fold_left (performw wd e origin) acts (new_screen w h cursor [fill], [], m) = fold_left (perform e origin) acts (new_screen w h cursor [fill], [], m).
Proof.
  intros wd e sh w h cursor fill origin m acts Hwd Hsh Hfill Hm Hf Ha Hw Hn.
  assert (I0 : inv e sh w h origin (e_grid m) (e_w m) (e_h m) never (new_screen w h cursor [fill], [], m) (blank fill)) by (apply inv_start; auto).
  destruct (run_w wd e sh w h origin (e_grid m) (e_w m) (e_h m) Hwd Hsh Hf acts _ _ m I0 Ha Hm eq_refl eq_refl) as [mw [E [_ [_ [_ N]]]]].
  cbn [fst snd] in *. etransitivity; [exact E|]. rewrite N; [|reflexivity|intros q _; exact Hw|exact Hn]. symmetry. apply surjective_pairing.
Qed.

(** * One run *)
Section Run.
Variables (wd : Z -> Z) (e : env) (sh : triple -> ecolor).
Hypothesis Hwd : terminal_widths wd.
Hypothesis Hsh : shades e sh.

Lemma print_at : forall c m X, e_x m = X -> e_wrap m = false -> 0 <= X -> wd c <> 0 -> X + wd c <= e_w m ->
  let m' := print wd c m in
  (forall X' Y, e_grid m' X' Y = if (X' =? X) && (Y =? e_y m) then (c, e_rend m, e_link m)
     else if (wd c =? 2) && (X' =? X + 1) && (Y =? e_y m) then (TAIL, e_rend m, e_link m) else e_grid m X' Y) /\
  e_y m' = e_y m /\ (e_x m' = X + wd c /\ e_wrap m' = false \/ X + wd c = e_w m).
Proof.
  intros c m X Hx Hwr HX Hc Hroom. cbv zeta. unfold print. rewrite (proj2 (Z.eqb_neq _ _) Hc).
  destruct (wd c =? 2) eqn:E2.
  - apply Z.eqb_eq in E2. assert (R : make_room m = m).
    { unfold make_room. rewrite Hx, Hwr. rewrite (proj2 (Z.eqb_neq X (e_w m - 1))) by lia. reflexivity. }
    rewrite R. destruct (put_here c m Hwr) as [A1 [A2 [A3 [A4 A5]]]]. destruct A5 as [B1 B2]; [lia|].
    destruct (put_here TAIL (put_char c m) B2) as [D1 [D2 [D3 [D4 D5]]]]. destruct (put_same c m) as [_ [S2 [S3 _]]].
    split; [|split].
    + intros X' Y. rewrite D1, A1, B1, A4, S2, S3, Hx. cbn [andb].
      destruct (Z.eqb_spec X' (X + 1)), (Z.eqb_spec X' X), (Z.eqb_spec Y (e_y m)); cbn [andb]; auto; lia.
    + congruence.
    + destruct (Z.eq_dec (X + wd c) (e_w m)) as [Ee|Ee]; [now right|left]. destruct D5 as [D5 D6]; [lia|]. split; [lia|exact D6].
  - apply Z.eqb_neq in E2. assert (E1 : wd c = 1) by (destruct Hwd as [Hb _]; specialize (Hb c); lia). rewrite E1 in *.
    destruct (put_here c m Hwr) as [A1 [A2 [A3 [A4 A5]]]]. split; [|split; [exact A4|]].
    + intros X' Y. rewrite A1, Hx. cbn [andb]. reflexivity.
    + destruct (Z.eq_dec (X + 1) (e_w m)) as [Ee|Ee]; [now right|left]. destruct A5 as [A5 A6]; [lia|]. split; [lia|exact A6].
Qed.

Lemma advance_cons : forall c s, advance wd (c :: s) = wd c + advance wd s. Proof. reflexivity. Qed.
Lemma advance_pos : forall s, 0 <= advance wd s.
Proof. induction s as [|c s IH]; [reflexivity|]. rewrite advance_cons. destruct Hwd as [H _]. specialize (H c). lia. Qed.

(** the cursor is at column [X], or the row is full *)
Definition at_column (X : Z) (m : emu) : Prop := (e_x m = X /\ e_wrap m = false) \/ X = e_w m.
Definition run_shown (rd : rend) (m m' : emu) (X : Z) (text : str) : Prop :=
  (forall k c, nth_error text k = Some c -> wd c <> 0 -> e_grid m' (X + advance wd (firstn k text)) (e_y m) = (c, rd, []) /\
     (wd c = 2 -> e_grid m' (X + advance wd (firstn k text) + 1) (e_y m) = (TAIL, rd, []))) /\
  (forall X' Y, ~ (Y = e_y m /\ X <= X' < X + advance wd text) -> e_grid m' X' Y = e_grid m X' Y).
Lemma run_shown_go : forall rd text ds m X, at_rest m -> at_column X m -> 0 <= X -> X + advance wd text <= e_w m ->
  Forall2 (fun d c => exists cl, d = drawn e cl /\ shows sh cl (c, rd)) ds text ->
  at_rest (vtw wd (List.concat ds) m) /\ run_shown rd m (vtw wd (List.concat ds) m) X text.
Proof.
  intros rd text. induction text as [|c text IH]; intros ds m X Hm Hat HX Hroom H2; inversion H2 as [|d ? ds' ? [cl [Ed Hs]] H2' E1 E2]; subst.
  - cbn. split; [exact Hm|]. split; [intros [|k] c E; discriminate E|]. auto.
  - rewrite advance_cons in Hroom. pose proof (advance_pos text) as AP. cbn [List.concat]. rewrite vtw_app.
    destruct Hm as [M1 [M2 M3]]. rewrite (vtw_drawn wd Hwd e sh cl (c, rd) m Hsh Hs M1 M2). cbn [fst snd].
    set (m0 := set_rend rd m). destruct (print_same wd c m0) as [P1 [P2 [P3 [P4 P5]]]].
    set (m1 := set_rend rend0 (print wd c m0)).
    assert (Rest : at_rest m1) by (repeat split; unfold m1; cbn [set_rend e_parse e_rend e_link]; [rewrite P1|rewrite P3]; auto).
    assert (W1 : e_w m1 = e_w m) by (unfold m1; cbn [set_rend e_w]; rewrite P4; reflexivity).
    destruct (Z.eq_dec (wd c) 0) as [E0|E0].
    + assert (Em : m1 = m).
      { unfold m1, print. rewrite E0. change (0 =? 0) with true. cbv iota. unfold m0. rewrite set_rend2, <- M2. apply set_rend_id. }
      rewrite Em. destruct (IH ds' m X) as [R1 [R2 R3]]; [repeat split; auto|exact Hat|exact HX|lia|exact H2'|].
      split; [exact R1|]. split.
      * intros [|k] c' E Hc'; cbn [nth_error] in E; [injection E as <-; contradiction|].
        cbn [firstn]. rewrite advance_cons, E0. exact (R2 k c' E Hc').
      * intros X' Y Hno. apply R3. intro H. apply Hno. rewrite advance_cons. lia.
    + assert (Wc : 0 < wd c <= 2) by (destruct Hwd as [Hb _]; specialize (Hb c); lia).
      destruct Hat as [[Hx Hwr]|Hx]; [|lia].
      destruct (print_at c m0 X) as [G1 [G2 G3]]; [exact Hx|exact Hwr|exact HX|exact E0|change (e_w m0) with (e_w m); lia|].
      change (e_y m0) with (e_y m) in *. change (e_rend m0) with rd in *. change (e_link m0) with (e_link m) in *. change (e_grid m0) with (e_grid m) in *. change (e_w m0) with (e_w m) in *.
      rewrite M3 in G1.
      destruct (IH ds' m1 (X + wd c)) as [R1 [R2 R3]]; [exact Rest| |lia|lia|exact H2'|].
      { destruct G3 as [[G3 G4]|G3]; [left; split; [exact G3|exact G4]|right; congruence]. }
      assert (Y1 : e_y m1 = e_y m) by exact G2. rewrite Y1 in *.
      split; [exact R1|]. split.
      * intros [|k] c' E Hc'; cbn [nth_error] in E.
        -- injection E as <-. cbn [firstn]. change (advance wd []) with 0. rewrite Z.add_0_r. split.
           ++ rewrite R3 by lia. unfold m1. cbn [set_rend e_grid]. rewrite G1, !Z.eqb_refl. reflexivity.
           ++ intro Hc2. rewrite R3 by lia. unfold m1. cbn [set_rend e_grid]. rewrite G1, Hc2, !Z.eqb_refl.
              rewrite (proj2 (Z.eqb_neq (X + 1) X)) by lia. reflexivity.
        -- cbn [firstn]. rewrite advance_cons, Z.add_assoc. exact (R2 k c' E Hc').
      * intros X' Y Hno. rewrite advance_cons in Hno. rewrite R3 by (intro H; apply Hno; lia). unfold m1. cbn [set_rend e_grid]. rewrite G1.
        destruct (Z.eqb_spec X' X), (Z.eqb_spec X' (X + 1)), (Z.eqb_spec Y (e_y m)), (Z.eqb_spec (wd c) 2); cbn [andb]; auto; exfalso; apply Hno; lia.
Qed.
End Run.
