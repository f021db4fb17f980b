(** Several screens on one terminal. *)
From Coq Require Import ZArith List Bool Lia.
From Verif Require Import PyBase PyLemmas SpaceModel ColorModel SpanModel Vt SpanProofs ScreenModel ScreenSpec ScreenProofs DrawSpec DrawProofs DrawProofs2 WindowSpec.
Import ListNotations.
Open Scope Z_scope.

Lemma inv_transfer : forall e sh w h o g0 W H s c m P c' m', inv e sh w h o g0 W H never (s, c, m) P ->
  cache_ok e c' -> at_rest m' -> e_w m' = W /\ e_h m' = H -> (forall q, on_screen w h q -> seen o m' q = seen o m q) ->
  inv e sh w h o (e_grid m') W H never (s, c', m') P.
Proof.
  intros e sh w h o g0 W H s c m P c' m' [I1 I2 I3 I4 I5 I6 I7 I8 I9 I10 I11 I12] Hc Hm HW HG. cbn [fst snd] in *.
  split; cbn [fst snd]; auto. intros q Hq E. rewrite HG by exact Hq. auto.
Qed.

Lemma own_snoc : forall i acts j a, own i (acts ++ [(j, a)]) = if Nat.eqb j i then own i acts ++ [a] else own i acts.
Proof.
  intros i acts j a. unfold own. rewrite filter_app, map_app. cbn [filter fst]. destruct (Nat.eqb j i); cbn [map snd]; [reflexivity|apply app_nil_r].
Qed.
Lemma covers_outside : forall v X Y, ~ covers v X Y <-> outside (win_w v) (win_h v) (win_origin v) X Y.
Proof. intros v X Y. unfold covers, outside, on_screen. cbn [fst snd]. lia. Qed.

Section Desk.
Variables (e : env) (sh : triple -> ecolor) (ws : list window) (m0 : emu).
Hypothesis Hsh : shades e sh.
Hypothesis Hok : Forall (win_ok m0) ws.
Hypothesis Hap : apart ws.

Record dinv (acts : list (nat * act)) (k : desk) : Prop := {
  d_length : List.length (fst (fst k)) = List.length ws;
  d_cache : cache_ok e (snd (fst k));
  d_rest : at_rest (snd k);
  d_size : e_w (snd k) = e_w m0 /\ e_h (snd k) = e_h m0;
  d_inv : forall i v s, nth_error ws i = Some v -> nth_error (fst (fst k)) i = Some s ->
    inv e sh (win_w v) (win_h v) (win_origin v) (e_grid (snd k)) (e_w m0) (e_h m0) never (s, snd (fst k), snd k) (win_picture sh v (own i acts)) /\
    (forall l, own i acts = l ++ [ADraw] -> sc_buf s = []);
  d_outside : forall X Y, (forall v, In v ws -> ~ covers v X Y) -> e_grid (snd k) X Y = e_grid m0 X Y
}.

Lemma dinv_start : at_rest m0 -> dinv [] (opened ws, [], m0).
Proof.
  intro Hm. split; cbn [fst snd]; auto.
  - unfold opened. apply map_length.
  - constructor.
  - intros i v s Ev Es. unfold opened in Es. rewrite nth_error_map, Ev in Es. cbn in Es. injection Es as <-.
    split; [|intros l E; destruct l; discriminate E].
    assert (Hv : win_ok m0 v) by (apply (proj1 (Forall_forall _ _) Hok); eapply nth_error_In; eauto). destruct Hv as [Hf _].
    apply inv_start; auto.
Qed.

Lemma dinv_step : forall acts k x, dinv acts k -> on_window ws x -> dinv (acts ++ [x]) (perform_on e ws k x).
Proof.
  intros acts [[ss c] m] [i a] [D1 D2 D3 D4 D5 D6] [v [Ev Ha]]. cbn [fst snd] in *. unfold perform_on. cbn [fst snd].
  rewrite Ev. destruct (nth_error ss i) as [s|] eqn:Es.
  2:{ apply nth_error_None in Es. assert (i < List.length ws)%nat by (apply nth_error_Some; congruence). lia. }
  destruct (D5 i v s Ev Es) as [I B].
  assert (Hv : win_ok m0 v) by (apply (proj1 (Forall_forall _ _) Hok); eapply nth_error_In; eauto). destruct Hv as [_ Hfit].
  pose proof (inv_act e sh _ _ _ _ _ _ Hsh Hfit never never a _ _ I Ha (fun q F _ => F)) as I'.
  assert (BD : a = ADraw -> sc_buf (fst (fst (perform e (win_origin v) (s, c, m) a))) = []).
  { intros ->. cbn [perform]. unfold render. destruct (win_origin v). reflexivity. }
  destruct (perform e (win_origin v) (s, c, m) a) as [[s' c'] m'] eqn:Ek. cbn [fst snd] in *.
  pose proof (i_cache _ _ _ _ _ _ _ _ _ _ _ I') as C'. pose proof (i_rest _ _ _ _ _ _ _ _ _ _ _ I') as R'.
  pose proof (i_size _ _ _ _ _ _ _ _ _ _ _ I') as S'. pose proof (i_outside _ _ _ _ _ _ _ _ _ _ _ I') as O'. cbn [fst snd] in *.
  split; cbn [fst snd]; auto.
  - now rewrite set_nth_length.
  - intros j u t Eu Et. rewrite own_snoc. destruct (Nat.eqb i j) eqn:Eij.
    + apply Nat.eqb_eq in Eij. subst j. assert (u = v) by congruence. subst u.
      assert (t = s').
      { rewrite nth_set, Nat.eqb_refl, Es in Et. cbn in Et. congruence. }
      subst t. split.
      * unfold win_picture. rewrite fold_left_app. cbn [fold_left]. eapply inv_transfer; [exact I'|auto..].
      * intros l El. apply app_inj_tail in El. destruct El as [_ El]. auto.
    + apply Nat.eqb_neq in Eij. assert (Et' : nth_error ss j = Some t).
      { rewrite nth_set in Et. destruct (Nat.eqb j i) eqn:F; [apply Nat.eqb_eq in F; congruence|]. exact Et. }
      destruct (D5 j u t Eu Et') as [J K]. split; [|exact K]. eapply inv_transfer; [exact J|auto..].
      intros q Hq. unfold seen. apply O'. apply covers_outside. intro Hc. apply Eij. apply (Hap i j v u _ _ Ev Eu Hc).
      unfold covers. unfold on_screen in Hq. lia.
  - intros X Y HX. rewrite <- D6 by exact HX. apply O'. apply covers_outside. apply HX. eapply nth_error_In; eauto.
Qed.

Lemma dinv_run : forall acts, at_rest m0 -> Forall (on_window ws) acts -> dinv acts (fold_left (perform_on e ws) acts (opened ws, [], m0)).
Proof.
  intros acts Hm. induction acts as [|x acts IH] using rev_ind; intro Ha; [now apply dinv_start|].
  apply Forall_app in Ha. destruct Ha as [H1 H2]. rewrite fold_left_app. cbn [fold_left]. apply dinv_step; [now apply IH|exact (Forall_inv H2)].
Qed.
End Desk.

Lemma windows : forall e sh ws m acts, shades e sh -> at_rest m -> Forall (win_ok m) ws -> apart ws -> Forall (on_window ws) acts ->
  let '(_, _, m') := fold_left (perform_on e ws) acts (opened ws, [], m) in
  (forall i v own_acts, nth_error ws i = Some v -> own i acts = own_acts ++ [ADraw] ->
     let p := win_picture sh v own_acts in
     forall q, on_screen (win_w v) (win_h v) q -> seen (win_origin v) m' q = (fst (p q), snd (p q), [])) /\
  (forall X Y, (forall v, In v ws -> ~ covers v X Y) -> e_grid m' X Y = e_grid m X Y) /\
  at_rest m'.
Proof.
  intros e sh ws m acts Hsh Hm Hok Hap Ha. pose proof (dinv_run e sh ws m Hsh Hok Hap acts Hm Ha) as D.
  destruct (fold_left (perform_on e ws) acts (opened ws, [], m)) as [[ss c] m'] eqn:E. destruct D as [D1 D2 D3 D4 D5 D6]. cbn [fst snd] in *.
  split; [|split; assumption]. intros i v oa Ev Eo q Hq.
  assert (L : exists s, nth_error ss i = Some s).
  { destruct (nth_error ss i) eqn:F; [eauto|]. apply nth_error_None in F. assert (i < List.length ws)%nat by (apply nth_error_Some; congruence). lia. }
  destruct L as [s Es]. destruct (D5 i v s Ev Es) as [I B]. specialize (B oa Eo).
  pose proof (i_shown _ _ _ _ _ _ _ _ _ _ _ I q Hq) as S. cbn [fst snd] in S. unfold pending in S. rewrite B in S. specialize (S eq_refl).
  rewrite Eo in S. unfold win_picture in S. rewrite fold_left_app in S. cbn [fold_left paint_act] in S.
  destruct S as [S|[[] _]]. exact S.
Qed.

(** windows that share cells: drawing one again, with nothing changed, does not bring it back to the front *)
Lemma draw_nothing : forall e o s c m, sc_buf s = [] -> at_rest m -> e_grid (snd (perform e o (s, c, m) ADraw)) = e_grid m.
Proof.
  intros e o s c m B [H1 [H2 H3]]. cbn [perform]. destruct (render s o false) as [out s'] eqn:E. cbn [snd].
  unfold render in E. destruct o as [ox oy]. rewrite B in E. cbn in E. injection E as <- <-.
  change [ESC; 91; 48; 109] with RESET. rewrite vt_reset by exact H1. reflexivity.
Qed.
Lemma on_nth : forall e ws ss c m i a v s, nth_error ws i = Some v -> nth_error ss i = Some s ->
  perform_on e ws (ss, c, m) (i, a) = (let '(s', c', m') := perform e (win_origin v) (s, c, m) a in (set_nth i s' ss, c', m')).
Proof. intros e ws ss c m i a v s Ev Es. unfold perform_on. cbn [fst snd]. now rewrite Ev, Es. Qed.
Lemma overlapping : forall e sh v v' X Y m, shades e sh -> at_rest m -> Forall (win_ok m) [v; v'] -> covers v X Y -> covers v' X Y ->
  let '(_, _, m') := fold_left (perform_on e [v; v']) [(0%nat, ADraw); (1%nat, ADraw); (0%nat, ADraw)] (opened [v; v'], [], m) in
  e_grid m' X Y = (win_fill v', rend0, []).
Proof.
  intros e sh v v' X Y m Hsh Hm Hok H1 H2. destruct (Forall_inv Hok) as [F1 F2]. destruct (Forall_inv (Forall_inv_tail Hok)) as [G1 G2].
  cbn [fold_left opened map].
  set (s := new_screen (win_w v) _ _ _). set (s' := new_screen (win_w v') _ _ _).
  rewrite (on_nth e [v; v'] [s; s'] _ _ 0%nat ADraw v s eq_refl eq_refl).
  assert (I0 : inv e sh (win_w v) (win_h v) (win_origin v) (e_grid m) (e_w m) (e_h m) never (s, [], m) (blank (win_fill v))) by (apply inv_start; auto).
  destruct (inv_draw e sh _ _ _ _ _ _ Hsh F2 never _ _ I0) as [I1 _].
  assert (B1 : sc_buf (fst (fst (perform e (win_origin v) (s, [], m) ADraw))) = []).
  { cbn [perform]. unfold render. destruct (win_origin v). reflexivity. }
  assert (C1 : snd (fst (perform e (win_origin v) (s, [], m) ADraw)) = []).
  { cbn [perform]. now destruct (render s (win_origin v) false). }
  match goal with |- context[perform ?a ?b ?c ?d] => change (perform a b c d) with (perform e (win_origin v) (s, [], m) ADraw) end.
  destruct (perform e (win_origin v) (s, [], m) ADraw) as [[s1 c1] m1]. cbn [fst snd] in *. subst c1.
  pose proof (i_rest _ _ _ _ _ _ _ _ _ _ _ I1) as R1. pose proof (i_size _ _ _ _ _ _ _ _ _ _ _ I1) as S1. cbn [fst snd] in R1, S1.
  change (set_nth 0 s1 [s; s']) with [s1; s']. rewrite (on_nth e [v; v'] [s1; s'] _ _ 1%nat ADraw v' s' eq_refl eq_refl).
  assert (J0 : inv e sh (win_w v') (win_h v') (win_origin v') (e_grid m1) (e_w m) (e_h m) never (s', [], m1) (blank (win_fill v'))).
  { destruct S1 as [S1 S2]. apply inv_start; auto. }
  destruct (inv_draw e sh _ _ _ _ _ _ Hsh G2 never _ _ J0) as [J1 J2].
  match goal with |- context[perform ?a ?b ?c ?d] => change (perform a b c d) with (perform e (win_origin v') (s', [], m1) ADraw) end.
  destruct (perform e (win_origin v') (s', [], m1) ADraw) as [[s2 c2] m2]. cbn [fst snd] in *.
  change (set_nth 1 s2 [s1; s']) with [s1; s2]. rewrite (on_nth e [v; v'] [s1; s2] _ _ 0%nat ADraw v s1 eq_refl eq_refl).
  pose proof (i_rest _ _ _ _ _ _ _ _ _ _ _ J1) as R2. cbn [fst snd] in R2.
  pose proof (draw_nothing e (win_origin v) s1 c2 m2 B1 R2) as N.
  destruct (perform e (win_origin v) (s1, c2, m2) ADraw) as [[s3 c3] m3]. cbn [snd] in N. rewrite N.
  set (q := (X - fst (win_origin v') + 1, Y - snd (win_origin v') + 1)).
  assert (Hq : on_screen (win_w v') (win_h v') q) by (unfold covers in H2; unfold on_screen, q; cbn [fst snd]; lia).
  destruct (J2 q Hq) as [S|[[] _]]. unfold seen, q in S. cbn [fst snd blank] in S. rewrite <- S. f_equal; lia.
Qed.
