(** Lemmas: calls of getch against input that arrives at any time. *)
From Coq Require Import ZArith List Bool String Lia.
From Verif Require Import PyBase CoreModel KeySpec KeyProofs Utf8Proofs TtyModel TtySpec.
Import ListNotations.
Open Scope Z_scope.
Open Scope list_scope.

(** * One call *)
Lemma read_ready_fuel : forall f g acc buf q, (List.length q <= f)%nat -> (List.length q <= g)%nat ->
  read_ready f false acc buf q = read_ready g false acc buf q.
Proof.
  induction f as [|f IH]; intros g acc buf q F G.
  - destruct q; [|cbn in F; lia]. destruct g; reflexivity.
  - destruct q as [|b q]; [destruct g; reflexivity|]. destruct g as [|g]; [cbn in G; lia|]. cbn [read_ready].
    destruct (read1 false buf (b :: q)) as [[[t buf'] rest]| |] eqn:E; [|reflexivity|reflexivity].
    apply read1_shorter in E. cbn [List.length] in *. apply IH; lia.
Qed.

(** what the call makes of the bytes still to be read *)
Definition cont (p : place_in) (q : list Z) : outcome str :=
  match p with
  | Outside => Waits
  | InRead acc buf =>
      match read1 false buf q with
      | Returned (t, buf', rest) => read_ready (List.length rest) false (acc ++ t) buf' rest
      | Waits => Waits
      | Spins => Spins
      end
  | Asking acc buf => read_ready (List.length q) false acc buf q
  end.

Definition call_inv (w : list Z) (p : place_in) (q : list Z) : Prop :=
  p <> Outside /\ forall more, read_burst false (w ++ more) = cont p (q ++ more).

Lemma call_enter : call_inv [] (InRead [] []) [].
Proof. split; [discriminate|]. intro more. cbn [app cont]. reflexivity. Qed.
Lemma call_arrive : forall w p q b, call_inv w p q -> call_inv (w ++ b) p (q ++ b).
Proof. intros w p q b [N H]. split; [exact N|]. intro more. rewrite <- !app_assoc. apply H. Qed.
Lemma call_take : forall w p q p' q' o, call_inv w p q -> act Take p q = Some (p', q', o) -> o = None /\ call_inv w p' q'.
Proof.
  intros w p q p' q' o [N H] A. destruct p as [|acc buf|acc buf]; [discriminate| |discriminate]. cbn [act] in A.
  destruct q as [|b q]; [discriminate|].
  destruct (utf8_step buf b) as [[[|c t] buf']|] eqn:U; inversion A; subst; (split; [reflexivity|]); (split; [discriminate|]);
    intro more; rewrite H; cbn [cont app read1]; rewrite U; reflexivity.
Qed.
Lemma call_more : forall w p q p' q' o, call_inv w p q -> act More p q = Some (p', q', o) -> o = None /\ call_inv w p' q'.
Proof.
  intros w p q p' q' o [N H] A. destruct p as [|acc buf|acc buf]; [discriminate|discriminate|]. cbn [act] in A.
  destruct q as [|b q]; [discriminate|]. inversion A; subst. split; [reflexivity|]. split; [discriminate|].
  intro more. rewrite H. cbn [cont app List.length read_ready].
  destruct (read1 false buf (b :: q ++ more)) as [[[t buf'] rest]| |] eqn:E; [|reflexivity|reflexivity].
  apply read1_shorter in E. cbn [List.length] in E. apply read_ready_fuel; lia.
Qed.
Lemma call_finish : forall w p q p' q' o, call_inv w p q -> act Finish p q = Some (p', q', o) ->
  p' = Outside /\ q' = [] /\ exists t, o = Some t /\ read_burst false w = Returned t.
Proof.
  intros w p q p' q' o [N H] A. destruct p as [|acc buf|acc buf]; [discriminate|discriminate|]. cbn [act] in A.
  destruct q as [|b q]; [|discriminate]. inversion A; subst. split; [reflexivity|]. split; [reflexivity|]. exists acc.
  split; [reflexivity|]. specialize (H []). rewrite app_nil_r in H. rewrite H. reflexivity.
Qed.

(** * All calls *)
Definition tty_inv (call : option (list Z)) (s : tty) : Prop :=
  match call with
  | None => y_place s = Outside
  | Some w => call_inv w (y_place s) (y_queue s)
  end.

Lemma tty_texts_gen : forall tr call s s', tty_inv call s -> tty_run tr s = Some s' ->
  exists ks, y_keys s' = y_keys s ++ ks /\ Forall2 (fun w t => read_burst false w = Returned t) (during call tr) ks.
Proof.
  induction tr as [|e tr IH]; intros call s s' I R.
  { inversion R; subst. exists []. split; [now rewrite app_nil_r|constructor]. }
  cbn [tty_run] in R. destruct (tty_step e s) as [s1|] eqn:S; [|discriminate].
  destruct e as [b|a].
  - cbn [tty_step] in S. inversion S; subst s1. cbn [during]. destruct call as [w|].
    + apply (IH (Some (w ++ b))) in R; [exact R|]. cbn. apply call_arrive. exact I.
    + apply (IH None) in R; [exact R|]. exact I.
  - cbn [tty_step] in S. destruct (act a (y_place s) (y_queue s)) as [[[p q] o]|] eqn:A; [|discriminate].
    destruct call as [w|].
    + cbn [tty_inv] in I. destruct a; cbn [during].
      * destruct I as [N _]. destruct (y_place s); [congruence|discriminate|discriminate].
      * destruct (call_take _ _ _ _ _ _ I A) as [-> I']. inversion S; subst s1. apply (IH (Some w)) in R; [exact R|]. exact I'.
      * destruct (call_more _ _ _ _ _ _ I A) as [-> I']. inversion S; subst s1. apply (IH (Some w)) in R; [exact R|]. exact I'.
      * destruct (call_finish _ _ _ _ _ _ I A) as [-> [-> [t [-> B]]]]. inversion S; subst s1.
        apply (IH None) in R; [|reflexivity]. cbn [y_keys] in R. destruct R as [ks [K F]]. exists (t :: ks).
        split; [rewrite K, <- app_assoc; reflexivity|]. constructor; assumption.
    + cbn [tty_inv] in I. rewrite I in A. destruct a; try discriminate. inversion A; subst. inversion S; subst s1. cbn [during].
      apply (IH (Some [])) in R; [exact R|]. apply call_enter.
Qed.
Lemma tty_texts : forall tr s, tty_run tr quiet_tty = Some s ->
  Forall2 (fun w t => read_burst false w = Returned t) (during None tr) (y_keys s).
Proof. intros tr s R. apply (tty_texts_gen tr None) in R; [|reflexivity]. destruct R as [ks [-> F]]. exact F. Qed.

Lemma tty_getch : forall tr s, tty_run tr quiet_tty = Some s ->
  Forall2 (fun w t => forall M (cb : M -> M) mode raw,
             getch cb mode true raw None sio_empty false w = (sio_empty, mode, Returned (decode_key raw t)))
    (during None tr) (y_keys s).
Proof.
  intros tr s R. apply tty_texts in R. induction R as [|w t ws ts H _ IH]; constructor; [|exact IH].
  intros M cb mode raw. unfold getch, getch_posix. cbn [negb sio_empty sio_text]. rewrite H. reflexivity.
Qed.

(** * What is typed outside the calls *)
Definition same_but_idle (s s' : tty) : Prop :=
  y_place s' = y_place s /\ y_keys s' = y_keys s /\ (y_place s <> Outside -> y_queue s' = y_queue s).
Lemma act_place : forall a p q p' q' o, act a p q = Some (p', q', o) ->
  (p = Outside <-> a = Enter) /\ (p' = Outside <-> a = Finish).
Proof.
  intros a p q p' q' o A. destruct a, p as [|acc buf|acc buf]; try discriminate; cbn [act] in A.
  - inversion A. split; split; congruence.
  - destruct q as [|b q]; [discriminate|]. destruct (utf8_step buf b) as [[[|c t] buf']|]; inversion A; split; split; congruence.
  - destruct q as [|b q]; [discriminate|]. inversion A. split; split; congruence.
  - destruct q as [|b q]; [|discriminate]. inversion A. split; split; congruence.
Qed.
Lemma idle_typing_gen : forall tr s1 s2 s1' inside, same_but_idle s1 s2 -> (inside = true <-> y_place s1 <> Outside) ->
  tty_run tr s1 = Some s1' -> exists s2', tty_run (without_idle_typing inside tr) s2 = Some s2' /\ same_but_idle s1' s2'.
Proof.
  induction tr as [|e tr IH]; intros s1 s2 s1' inside [P [K Q]] I R.
  { inversion R; subst. exists s2. split; [reflexivity|]. repeat split; assumption. }
  cbn [tty_run] in R. destruct (tty_step e s1) as [t1|] eqn:S; [|discriminate]. destruct e as [b|a].
  - cbn [tty_step] in S. inversion S; subst t1. cbn [without_idle_typing]. destruct inside.
    + cbn [tty_run tty_step]. apply (IH _ (mkTty (y_queue s2 ++ b) (y_place s2) (y_keys s2)) _ true) in R; [exact R| |exact I].
      repeat split; cbn [y_place y_keys y_queue]; auto. intro N. now rewrite Q.
    + apply (IH _ s2 _ false) in R; [exact R| |exact I]. repeat split; cbn [y_place y_keys y_queue]; auto. intro N. exfalso.
      assert (false = true) by (apply I; exact N). discriminate.
  - cbn [tty_step] in S. destruct (act a (y_place s1) (y_queue s1)) as [[[p q] o]|] eqn:A; [|discriminate].
    destruct (act_place _ _ _ _ _ _ A) as [A1 A2].
    assert (A' : act a (y_place s2) (y_queue s2) = Some (p, q, o)).
    { rewrite P. destruct (y_place s1) eqn:E1.
      - rewrite (proj1 A1 eq_refl) in *. exact A.
      - rewrite Q by discriminate. exact A.
      - rewrite Q by discriminate. exact A. }
    assert (T : forall o', tty_step (Does a) s2 = Some (mkTty q p (match o' with Some t => y_keys s2 ++ [t] | None => y_keys s2 end)) ->
                t1 = mkTty q p (match o' with Some t => y_keys s1 ++ [t] | None => y_keys s1 end) ->
                exists s2', tty_run (without_idle_typing inside (Does a :: tr)) s2 = Some s2' /\ same_but_idle s1' s2').
    { intros o' T1 ->.
      assert (G : exists i, without_idle_typing inside (Does a :: tr) = Does a :: without_idle_typing i tr /\
                (i = true <-> p <> Outside)).
      { destruct a; cbn [without_idle_typing].
        - exists true. split; [reflexivity|]. split; [|reflexivity]. intros _ E. apply A2 in E. discriminate.
        - exists inside. split; [reflexivity|].
          assert (y_place s1 <> Outside) by (intro E; apply A1 in E; discriminate).
          assert (p <> Outside) by (intro E; apply A2 in E; discriminate). tauto.
        - exists inside. split; [reflexivity|].
          assert (y_place s1 <> Outside) by (intro E; apply A1 in E; discriminate).
          assert (p <> Outside) by (intro E; apply A2 in E; discriminate). tauto.
        - exists false. split; [reflexivity|]. split; [discriminate|]. intro N. exfalso. apply N. now apply A2. }
      destruct G as [i [G1 G2]]. rewrite G1. cbn [tty_run]. rewrite T1.
      refine (IH _ _ _ i _ _ R); [|exact G2].
      repeat split; cbn [y_place y_keys y_queue]; auto. destruct o'; now rewrite K. }
    cbn [tty_step] in T. rewrite A' in T. destruct o as [t|]; inversion S; subst t1.
    + apply (T (Some t)); reflexivity.
    + apply (T None); reflexivity.
Qed.
Lemma idle_typing : forall tr s, tty_run tr quiet_tty = Some s ->
  exists s', tty_run (without_idle_typing false tr) quiet_tty = Some s' /\ y_keys s' = y_keys s.
Proof.
  intros tr s R. apply (idle_typing_gen tr quiet_tty quiet_tty s false) in R.
  - destruct R as [s' [R [_ [K _]]]]. exists s'. split; assumption.
  - repeat split.
  - cbn. split; [discriminate|congruence].
Qed.

(** * Nothing typed outside the calls *)
Lemma during_all : forall tr call s s', tty_inv call s -> tty_run tr s = Some s' -> y_place s' = Outside ->
  without_idle_typing (match call with Some _ => true | None => false end) tr = tr ->
  List.concat (during call tr) = match call with Some w => w | None => [] end ++ typed_bytes tr.
Proof.
  induction tr as [|e tr IH]; intros call s s' I R E W.
  { inversion R; subst. cbn. destruct call as [w|]; [|reflexivity]. destruct I as [N _]. congruence. }
  cbn [tty_run] in R. destruct (tty_step e s) as [s1|] eqn:S; [|discriminate]. destruct e as [b|a].
  - cbn [tty_step] in S. inversion S; subst s1. cbn [during typed_bytes flat_map].
    destruct call as [w|]; cbn [without_idle_typing] in W.
    + injection W as W. rewrite (IH (Some (w ++ b)) (mkTty (y_queue s ++ b) (y_place s) (y_keys s)) s' (call_arrive _ _ _ b I) R E W). now rewrite <- app_assoc.
    + exfalso. assert (L : forall i t, (List.length (without_idle_typing i t) <= List.length t)%nat).
      { intros i t. revert i. induction t as [|e t IHt]; intro i; [cbn; lia|]. pose proof (IHt i). pose proof (IHt true). pose proof (IHt false).
        destruct e as [x|[]]; cbn [without_idle_typing]; [destruct i|..]; cbn [List.length] in *; lia. }
      specialize (L false tr). rewrite W in L. cbn in L. lia.
  - cbn [tty_step] in S. destruct (act a (y_place s) (y_queue s)) as [[[p q] o]|] eqn:A; [|discriminate].
    change (typed_bytes (Does a :: tr)) with (typed_bytes tr).
    destruct call as [w|].
    + cbn [tty_inv] in I. destruct a; cbn [during without_idle_typing] in *.
      * destruct I as [N _]. destruct (y_place s); [congruence|discriminate|discriminate].
      * injection W as W. destruct (call_take _ _ _ _ _ _ I A) as [-> I']. inversion S; subst s1.
        rewrite (IH (Some w) (mkTty q p (y_keys s)) s' I' R E W). reflexivity.
      * injection W as W. destruct (call_more _ _ _ _ _ _ I A) as [-> I']. inversion S; subst s1.
        rewrite (IH (Some w) (mkTty q p (y_keys s)) s' I' R E W). reflexivity.
      * injection W as W. destruct (call_finish _ _ _ _ _ _ I A) as [-> [-> [t [-> B]]]]. inversion S; subst s1.
        cbn [List.concat]. rewrite (IH None (mkTty [] Outside (y_keys s ++ [t])) s' eq_refl R E W). reflexivity.
    + cbn [tty_inv] in I. rewrite I in A. destruct a; try discriminate. inversion A; subst. inversion S; subst s1.
      cbn [during without_idle_typing] in *. injection W as W. rewrite (IH (Some []) (mkTty [] (InRead [] []) (y_keys s)) s' call_enter R E W). reflexivity.
Qed.

Lemma utf8_cut : forall cs w rest, Forall scalar cs -> w ++ rest = flat_map utf8 cs ->
  (exists c1 c2, cs = c1 ++ c2 /\ w = flat_map utf8 c1 /\ rest = flat_map utf8 c2) \/
  (exists c1 c p r, Forall scalar c1 /\ scalar c /\ utf8 c = p ++ r /\ p <> [] /\ r <> [] /\ w = flat_map utf8 c1 ++ p).
Proof.
  induction cs as [|c cs IH]; intros w rest H E.
  { cbn in E. apply app_eq_nil in E. destruct E as [-> ->]. left. exists [], []. repeat split. }
  inversion H as [|? ? Hc Hcs]; subst. cbn [flat_map] in E.
  destruct (Nat.le_gt_cases (List.length (utf8 c)) (List.length w)) as [L|L].
  - assert (W : w = utf8 c ++ skipn (List.length (utf8 c)) w).
    { assert (F : firstn (List.length (utf8 c)) (w ++ rest) = utf8 c) by (rewrite E, firstn_app, Nat.sub_diag, firstn_all; cbn; apply app_nil_r).
      rewrite firstn_app in F. replace (List.length (utf8 c) - List.length w)%nat with 0%nat in F by lia. cbn in F. rewrite app_nil_r in F.
      rewrite <- F at 1. symmetry. apply firstn_skipn. }
    set (w' := skipn (List.length (utf8 c)) w) in *. rewrite W in E. rewrite <- app_assoc in E. apply app_inv_head in E.
    destruct (IH w' rest Hcs E) as [[c1 [c2 [E1 [E2 E3]]]]|[c1 [d [p [r [F1 [F2 [F3 [F4 [F5 F6]]]]]]]]]].
    + left. exists (c :: c1), c2. rewrite W, E1, E2, E3. repeat split.
    + right. exists (c :: c1), d, p, r. split; [constructor; assumption|]. repeat split; try assumption. rewrite W, F6. cbn [flat_map]. now rewrite app_assoc.
  - destruct w as [|b w].
    + left. exists [], (c :: cs). split; [reflexivity|]. split; [reflexivity|]. exact E.
    + right. exists [], c, (b :: w), (skipn (List.length (b :: w)) (utf8 c)).
      assert (F : firstn (List.length (b :: w)) (utf8 c ++ flat_map utf8 cs) = b :: w).
      { rewrite <- E. rewrite firstn_app, Nat.sub_diag, firstn_all, firstn_O. apply app_nil_r. }
      rewrite firstn_app in F. replace (List.length (b :: w) - List.length (utf8 c))%nat with 0%nat in F by lia.
      cbn [firstn] in F. rewrite app_nil_r in F.
      split; [constructor|]. split; [exact Hc|]. split; [rewrite <- F at 1; symmetry; apply firstn_skipn|]. split; [discriminate|]. split; [|reflexivity].
      intro Z. assert (List.length (skipn (List.length (b :: w)) (utf8 c)) = 0)%nat by (rewrite Z; reflexivity).
      rewrite skipn_length in H0. lia.
Qed.
Lemma windows_texts : forall ws ts, Forall2 (fun w t => read_burst false w = Returned t) ws ts ->
  forall cs, Forall scalar cs -> List.concat ws = flat_map utf8 cs -> List.concat ts = cs.
Proof.
  induction 1 as [|w t ws ts H _ IH]; intros cs S E.
  - cbn in E. destruct cs as [|c cs]; [reflexivity|]. exfalso. inversion S as [|? ? Hc _]; subst. cbn [flat_map] in E.
    destruct (utf8_cases c Hc) as [[a [U R]]|[[a [b [U R]]]|[[a [b [d [U R]]]]|[a [b [d [f [U R]]]]]]]]; rewrite U in E; discriminate.
  - cbn [List.concat] in *. destruct (utf8_cut cs w _ S E) as [[c1 [c2 [E1 [E2 E3]]]]|[c1 [c [p [r [F1 [F2 [F3 [F4 [F5 F6]]]]]]]]]].
    + subst cs. apply Forall_app in S. destruct S as [S1 S2]. rewrite (IH c2 S2 E3). f_equal. subst w.
      destruct c1 as [|c c1]; [discriminate|]. rewrite read_burst_utf8 in H by (try discriminate; assumption). congruence.
    + subst w. rewrite (read_burst_partial c1 c p r) in H by assumption. discriminate.
Qed.
Lemma none_lost : forall tr s cs, tty_run tr quiet_tty = Some s -> y_place s = Outside -> without_idle_typing false tr = tr ->
  Forall scalar cs -> typed_bytes tr = flat_map utf8 cs -> List.concat (y_keys s) = cs.
Proof.
  intros tr s cs R P W S E. apply (windows_texts _ _ (tty_texts tr s R) cs S).
  rewrite (during_all tr None quiet_tty s eq_refl R P W). exact E.
Qed.
