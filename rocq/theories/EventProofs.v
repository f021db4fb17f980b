(** Lemmas about event emission. *)
From Coq Require Import ZArith List Bool Lia.
From Verif Require Import PyBase PyLemmas EventModel EventSpec.
Open Scope Z_scope.

Definition num (v : pyval) : Prop := match v with VBool _ | VInt _ => True | _ => False end.

Lemma ior_sane : forall o v, num o -> sane v ->
  exists o', ior o (or_false v) = Ok o' /\ num o' /\ truthy o' = truthy o || truthy v.
Proof.
  assert (T : forall a b, negb (Z.lor a b =? 0) = negb (a =? 0) || negb (b =? 0)).
  { intros a b. destruct (Z.eqb_spec (Z.lor a b) 0) as [E|E].
    - apply Z.lor_eq_0_iff in E. destruct E as [-> ->]. reflexivity.
    - destruct (Z.eqb_spec a 0); destruct (Z.eqb_spec b 0); subst; try reflexivity. now elim E. }
  intros o v Ho Hv.
  assert (C : exists b, or_false v = b /\ num b /\ truthy b = truthy v).
  { destruct v as [|b|b|[]]; try contradiction; simpl.
    - exists (VBool false). simpl. auto.
    - exists (VBool b). destruct b; simpl; auto.
    - destruct b; [exists (VBool false)|exists (VInt (Z.pos p))|exists (VInt (Z.neg p))]; simpl; auto.
    - exists (VBool false). simpl. auto. }
  destruct C as [b [-> [Hb <-]]].
  destruct o as [|x|x|]; try contradiction; destruct b as [|y|y|]; try contradiction; simpl.
  - exists (VBool (x || y)). simpl. auto.
  - eexists. split; [reflexivity|]. split; [exact I|]. cbn [truthy]. rewrite T. destruct x; reflexivity.
  - eexists. split; [reflexivity|]. split; [exact I|]. cbn [truthy]. rewrite T. destruct y; reflexivity.
  - eexists. split; [reflexivity|]. split; [exact I|]. cbn [truthy]. now rewrite T.
Qed.

Lemma nth_error_app_skip : forall A (pre q : list A) i, i = List.length pre ->
  nth_error (pre ++ q) i = nth_error q 0.
Proof. intros. subst. rewrite nth_error_app2 by lia. now rewrite Nat.sub_diag. Qed.

Lemma emit_served : forall L W D (b : behaviour L W D) d q w done w' vs x,
  served b d q w done w' (vs, x) -> Forall sane vs ->
  forall pre fuel o, num o -> (List.length done <= fuel)%nat ->
  exists ls o', emit_from (appending b) fuel (List.length pre) d o (mkE (pre ++ q) w)
    = Some (mkE (pre ++ q ++ ls) w', match x with None => Ok o' | Some e => Err e end)
    /\ num o' /\ truthy o' = truthy o || existsb truthy vs.
Proof.
  intros L W D b d q w done w' vs x H.
  remember (vs, x) as out eqn:Hout. revert vs x Hout.
  induction H as [w|l q w w' added e Hb|l q w w' added v done w'' vs0 x0 Hb Hs IH];
    intros vs x Hout Hsane pre fuel o Ho Hf; injection Hout as <- <-.
  - exists [], o. rewrite orb_false_r, !app_nil_r. destruct fuel; simpl;
    rewrite (proj2 (nth_error_None pre _)) by lia; auto.
  - exists added, o. simpl in Hf. destruct fuel as [|f]; [lia|].
    cbn [emit_from ev_listeners]. rewrite nth_error_app_skip by reflexivity. cbn [nth_error].
    unfold appending at 1. cbn [ev_world]. rewrite Hb. cbn [ev_listeners].
    rewrite <- app_assoc, orb_false_r. auto.
  - simpl in Hf. destruct fuel as [|f]; [lia|].
    inversion_clear Hsane as [|? ? Hv Hvs].
    destruct (ior_sane o v Ho Hv) as [o1 [E1 [Hn1 Ht1]]].
    destruct (IH vs0 x0 eq_refl Hvs (pre ++ [l]) f o1 Hn1 ltac:(lia)) as [ls [o' [E2 [Hn2 Ht2]]]].
    exists (added ++ ls), o'. cbn [emit_from ev_listeners].
    rewrite nth_error_app_skip by reflexivity. cbn [nth_error].
    unfold appending at 1. cbn [ev_world]. rewrite Hb. cbn [ev_listeners]. rewrite E1.
    rewrite app_length in E2. simpl in E2. rewrite Nat.add_1_r in E2.
    replace ((pre ++ l :: q) ++ added) with ((pre ++ [l]) ++ q ++ added)
      by (rewrite <- !app_assoc; reflexivity).
    rewrite E2. split; [|split; auto].
    + f_equal. f_equal. f_equal. rewrite <- !app_assoc. reflexivity.
    + rewrite Ht2, Ht1. simpl. now rewrite orb_assoc.
Qed.

Lemma event_reaches_all : forall L W D (b : behaviour L W D) d ls w done w' vs x fuel,
  served b d ls w done w' (vs, x) -> Forall sane vs -> (List.length done <= fuel)%nat ->
  exists ls' o, emit (appending b) fuel d (mkE ls w)
    = Some (mkE (ls ++ ls') w', match x with None => Ok o | Some e => Err e end)
    /\ truthy o = existsb truthy vs.
Proof.
  intros. destruct (emit_served L W D b d ls w done w' vs x H H0 [] fuel (VBool false) I H1)
    as [l' [o [E [_ T]]]].
  exists l', o. split; auto.
Qed.

(** Callbacks that add nothing: all of them run once, in order. *)
Lemma served_plain : forall L W D (f : L -> D -> W -> W * pyval) d ls w,
  served (fun l d w => (fst (f l d w), [], Ok (snd (f l d w)))) d ls w ls
    (fold_left (fun w l => fst (f l d w)) ls w)
    ((fix go ls w := match ls with
                     | [] => []
                     | l :: r => snd (f l d w) :: go r (fst (f l d w))
                     end) ls w, None).
Proof.
  intros L W D f d ls. induction ls as [|l r IH]; intro w.
  - apply served_nil.
  - eapply served_next; [reflexivity|]. rewrite app_nil_r. apply IH.
Qed.

(** A callback that clears the event ends the emission after it. *)
Lemma clearing_stops : forall L W D (beh : L -> D -> estate L W -> estate L W * res pyval)
    fuel i d o s cb s' v o',
  nth_error (ev_listeners s) i = Some cb ->
  beh cb d s = (event_clear s', Ok v) -> ior o (or_false v) = Ok o' ->
  emit_from beh (S fuel) i d o s = Some (event_clear s', Ok o').
Proof.
  intros. cbn [emit_from]. rewrite H, H0, H1. destruct fuel; reflexivity.
Qed.

Lemma self_appending_never_ends : forall L W D (b : behaviour L W D) l d,
  (forall w, exists w' , b l d w = (w', [l], Ok VNone)) ->
  forall fuel w, emit (appending b) fuel d (mkE [l] w) = None.
Proof.
  intros L W D b l d Hb.
  assert (G : forall fuel n w,
     emit_from (appending b) fuel n d (VBool false) (mkE (repeat l (S n)) w) = None).
  { assert (N : forall n, nth_error (repeat l (S n)) n = Some l).
    { induction n as [|n IHn]; [reflexivity|exact IHn]. }
    induction fuel as [|f IH]; intros n w; cbn [emit_from ev_listeners]; rewrite N; auto.
    unfold appending at 1. cbn [ev_world]. destruct (Hb w) as [w' ->]. cbn [ev_listeners].
    cbn [or_false ior orb].
    replace (repeat l (S n) ++ [l]) with (repeat l (S (S n))); [apply IH|].
    apply (repeat_cons (S n)). }
  intros fuel w. exact (G fuel 0%nat w).
Qed.

Lemma registration : forall L W (l : L) (s : estate L W),
  event_iadd (Some l) s = (mkE (ev_listeners s ++ [l]) (ev_world s), Ok tt) /\
  event_iadd None s = (s, Err ValueError) /\
  (event_bool s = true <-> ev_listeners s <> []).
Proof.
  intros L W l s. split; [reflexivity|]. split; [reflexivity|].
  unfold event_bool, zlen. destruct (ev_listeners s) as [|x r]; cbn [List.length]; (split; intro H); try congruence; try discriminate. apply Z.ltb_lt. lia.
Qed.

Lemma truthy_string_raises :
  exists (b : behaviour unit unit unit),
    served b tt [tt] tt [tt] tt ([VOther true], None) /\
    forall fuel, emit (appending b) (S fuel) tt (mkE [tt] tt) = Some (mkE [tt] tt, Err TypeError).
Proof.
  exists (fun _ _ w => (w, [], Ok (VOther true))). split; [|reflexivity].
  eapply served_next; [reflexivity|]. apply served_nil.
Qed.
