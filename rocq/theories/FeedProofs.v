(** Proofs about feeding. *)
From Coq Require Import ZArith List Bool Lia.
From Verif Require Import PyBase PyLemmas CoreModel TtyModel FeedModel FeedSpec.
Import ListNotations.
Open Scope Z_scope.
Open Scope list_scope.

(** nothing fed ends a call that waits *)
Lemma feed_no_interrupt : forall tr s s' acc buf, d_place s = Reads (InRead acc buf) -> d_queue s = [] ->
  nothing_comes tr -> feed_run tr s = Some s' -> d_keys s' = d_keys s /\ d_place s' = d_place s.
Proof.
  induction tr as [|e tr IH]; intros [io w q p ks] s' acc buf P Q N R; cbn in P, Q; subst p q.
  - cbn in R. injection R as <-. now split.
  - inversion N as [|? ? Ne Ntr]; subst. cbn [feed_run] in R.
    destruct e as [t| |bytes| | | |a]; cbn [feed_step] in R.
    + destruct w; [discriminate|]. apply (IH (mkFeeding (sio_write t io) true [] (Reads (InRead acc buf)) ks) s' acc buf); auto.
    + destruct w; [|discriminate]. apply (IH (mkFeeding (sio_seek 0 io) false [] (Reads (InRead acc buf)) ks) s' acc buf); auto.
    + contradiction.
    + discriminate.
    + discriminate.
    + discriminate.
    + destruct a; cbn in R; discriminate.
Qed.

(** text fed while fed text is being taken *)
Lemma feed_lost : forall t1 t2, t1 <> [] ->
  feed_run [FeedWrite t1; FeedSeek; Looks; FeedWrite t2; FeedSeek; Empties; Rewinds] unfed_start =
    Some (mkFeeding sio_empty false [] Idle [(true, t1)]).
Proof.
  intros t1 t2 N. unfold unfed_start. cbn [feed_run feed_step].
  assert (E : sio_text (sio_seek 0 (sio_write t1 sio_empty)) = t1).
  { unfold sio_seek, sio_write, sio_empty. cbn [sio_text sio_pos]. cbn. rewrite skipn_nil, app_nil_r. reflexivity. }
  rewrite E. destruct t1 as [|c t1]; [congruence|]. cbn [feed_run feed_step]. reflexivity.
Qed.

(** the next call *)
Lemma feed_next : forall io q ks t, sio_text io = t -> t <> [] ->
  feed_run [Looks; Empties; Rewinds] (mkFeeding io false q Idle ks) = Some (mkFeeding sio_empty false q Idle (ks ++ [(true, t)])).
Proof. intros io q ks t E N. cbn [feed_run feed_step]. rewrite E. destruct t as [|c t]; [congruence|]. reflexivity. Qed.

Definition turn_state (unread taking : bool) (s : feeding) : Prop :=
  d_feeding s = false /\
  match unread, taking with
  | false, _ => d_sio s = sio_empty /\ (taking = false /\ (forall t, d_place s <> Got t /\ d_place s <> Emptied t))
  | true, false => sio_text (d_sio s) <> [] /\ sio_pos (d_sio s) = 0 /\ (forall t, d_place s <> Got t /\ d_place s <> Emptied t)
  | true, true => sio_text (d_sio s) <> [] /\ sio_pos (d_sio s) = 0 /\ d_place s = Got (sio_text (d_sio s)) \/
                  (exists t, d_place s = Emptied t /\ d_sio s = sio_empty)
  end.
Definition unreturned (unread : bool) (s : feeding) : list str :=
  if unread then match d_place s with Emptied t => [t] | _ => [sio_text (d_sio s)] end else [].
Lemma returned_app : forall a b, texts_returned (a ++ b) = texts_returned a ++ texts_returned b.
Proof. intros a b. unfold texts_returned. now rewrite filter_app, map_app. Qed.
Lemma act_place : forall a p q p' q', act a p q = Some (p', q', None) -> (forall t, Reads p' <> Got t /\ Reads p' <> Emptied t).
Proof. intros. split; discriminate. Qed.
Lemma feed_in_turn : forall n tr unread taking s s', (List.length tr <= n)%nat -> in_turn unread taking tr -> turn_state unread taking s ->
  feed_run tr s = Some s' ->
  exists unread' taking', turn_state unread' taking' s' /\
    texts_returned (d_keys s) ++ unreturned unread s ++ texts_fed tr = texts_returned (d_keys s') ++ unreturned unread' s'.
Proof.
  induction n as [|n IH]; intros tr unread taking s s' Ln T S R.
  { destruct tr; [|cbn in Ln; lia]. cbn in R. injection R as <-. exists unread, taking. split; [exact S|]. cbn. now rewrite app_nil_r. }
  destruct tr as [|e tr].
  { cbn in R. injection R as <-. exists unread, taking. split; [exact S|]. cbn. now rewrite app_nil_r. }
  cbn [List.length] in Ln. destruct s as [io w q p ks]. destruct S as [W S]. cbn in W. subst w. cbn [d_sio d_place] in S.
  destruct e as [t| |bytes| | | |a].
  - destruct tr as [|e2 tr]; [contradiction|]. destruct e2; try contradiction. cbn [in_turn] in T. destruct T as [Nt [-> [-> T]]].
    destruct S as [-> [_ S]]. cbn [feed_run feed_step] in R. cbn [List.length] in Ln.
    assert (E : sio_seek 0 (sio_write t sio_empty) = mkSio t 0).
    { unfold sio_seek, sio_write, sio_empty. cbn [sio_text sio_pos]. cbn. now rewrite skipn_nil, app_nil_r. }
    rewrite E in R.
    destruct (IH tr true false (mkFeeding (mkSio t 0) false q p ks) s') as [u [k [A B]]]; [lia|exact T| |exact R|].
    { split; [reflexivity|]. cbn [d_sio d_place sio_text sio_pos]. split; [exact Nt|]. split; [reflexivity|]. exact S. }
    exists u, k. split; [exact A|]. rewrite <- B. cbn [unreturned d_place d_sio sio_text d_keys app].
    assert (Q : match p with Emptied t0 => [t0] | _ => [t] end = [t]) by (destruct p; try reflexivity; exfalso; eapply (proj2 (S _)); reflexivity).
    rewrite Q. cbn. reflexivity.
  - contradiction.
  - cbn [in_turn] in T. cbn [feed_run feed_step] in R.
    destruct (IH tr unread taking (mkFeeding io false (q ++ bytes) p ks) s') as [u [k [A B]]]; [lia|exact T|split; [reflexivity|exact S]|exact R|].
    exists u, k. split; [exact A|]. exact B.
  - cbn [in_turn] in T. cbn [feed_run feed_step] in R. destruct p as [|t|t| |p]; try discriminate R.
    destruct unread.
    + destruct taking; [destruct S as [[_ [_ D]]|[t [D _]]]; discriminate D|]. destruct S as [N [P S]].
      destruct (sio_text io) as [|c t] eqn:E; [congruence|].
      destruct (IH tr true true (mkFeeding io false q (Got (c :: t)) ks) s') as [u [k [A B]]]; [lia|exact T| |exact R|].
      { split; [reflexivity|]. cbn [d_sio d_place]. left. rewrite E. repeat split; auto. }
      exists u, k. split; [exact A|]. exact B.
    + destruct S as [-> [-> S]]. cbn [sio_text sio_empty] in R.
      destruct (IH tr false false (mkFeeding sio_empty false q Unfed ks) s') as [u [k [A B]]]; [lia|exact T| |exact R|].
      { split; [reflexivity|]. cbn [d_sio d_place]. split; [reflexivity|]. split; [reflexivity|]. intro t. split; discriminate. }
      exists u, k. split; [exact A|]. exact B.
  - cbn [in_turn] in T. cbn [feed_run feed_step] in R. destruct p as [|t|t| |p]; try discriminate R.
    destruct unread; [|destruct S as [_ [_ S]]; exfalso; eapply (proj1 (S t)); reflexivity].
    destruct taking; [|destruct S as [_ [_ S]]; exfalso; eapply (proj1 (S t)); reflexivity].
    destruct S as [[N [P D]]|[t' [D _]]]; [|discriminate D]. injection D as ->.
    destruct io as [tx ps]. cbn [sio_text sio_pos] in *. subst ps. cbn [sio_truncate sio_text sio_pos Z.to_nat firstn] in R.
    destruct (IH tr true true (mkFeeding (mkSio [] 0) false q (Emptied tx) ks) s') as [u [k [A B]]]; [lia|exact T| |exact R|].
    { split; [reflexivity|]. cbn [d_sio d_place]. right. exists tx. now split. }
    exists u, k. split; [exact A|]. exact B.
  - cbn [in_turn] in T. cbn [feed_run feed_step] in R. destruct p as [|t|t| |p]; try discriminate R.
    destruct unread; [|destruct S as [_ [_ S]]; exfalso; eapply (proj2 (S t)); reflexivity].
    destruct taking; [|destruct S as [_ [_ S]]; exfalso; eapply (proj2 (S t)); reflexivity].
    destruct S as [[N [P D]]|[t' [D E]]]; [discriminate D|]. injection D as <-. subst io.
    destruct (IH tr false false (mkFeeding sio_empty false q Idle (ks ++ [(true, t)])) s') as [u [k [A B]]]; [lia|exact T| |exact R|].
    { split; [reflexivity|]. cbn [d_sio d_place]. split; [reflexivity|]. split; [reflexivity|]. intro x. split; discriminate. }
    exists u, k. split; [exact A|]. rewrite <- B. cbn [unreturned d_place d_keys app]. rewrite returned_app, <- app_assoc. reflexivity.
  - cbn [in_turn] in T. cbn [feed_run feed_step] in R.
    assert (NP : forall x, p <> Got x /\ p <> Emptied x) by (intro x; split; intros ->; discriminate R).
    set (from := match p with Unfed => Some Outside | Reads Outside => None | Reads p' => Some p' | _ => None end) in R.
    destruct from as [p'|]; [|discriminate R]. destruct (act a p' q) as [[[p'' q'] [t|]]|]; [| |discriminate R].
    + destruct (IH tr unread taking (mkFeeding io false q' Idle (ks ++ [(false, t)])) s') as [u [k [A B]]]; [lia|exact T| |exact R|].
      { split; [reflexivity|]. cbn [d_sio d_place]. destruct unread.
        - destruct taking; [destruct S as [[_ [_ D]]|[x [D _]]]; exfalso; [eapply (proj1 (NP _)); exact D|eapply (proj2 (NP _)); exact D]|].
          destruct S as [S1 [S2 _]]. repeat split; auto; discriminate.
        - destruct S as [S1 [S2 _]]. repeat split; auto; discriminate. }
      exists u, k. split; [exact A|]. rewrite <- B. cbn [unreturned d_place d_keys d_sio]. rewrite returned_app. cbn [texts_returned filter map fst app]. rewrite app_nil_r.
      f_equal. change (texts_fed (Reading_ a :: tr)) with (texts_fed tr). f_equal. destruct unread; [|reflexivity]. destruct p; try reflexivity. exfalso. eapply (proj2 (NP _)). reflexivity.
    + destruct (IH tr unread taking (mkFeeding io false q' (Reads p'') ks) s') as [u [k [A B]]]; [lia|exact T| |exact R|].
      { split; [reflexivity|]. cbn [d_sio d_place]. destruct unread.
        - destruct taking; [destruct S as [[_ [_ D]]|[x [D _]]]; exfalso; [eapply (proj1 (NP _)); exact D|eapply (proj2 (NP _)); exact D]|].
          destruct S as [S1 [S2 _]]. repeat split; auto; discriminate.
        - destruct S as [S1 [S2 _]]. repeat split; auto; discriminate. }
      exists u, k. split; [exact A|]. rewrite <- B. cbn [unreturned d_place d_keys d_sio].
      f_equal. change (texts_fed (Reading_ a :: tr)) with (texts_fed tr). f_equal. destruct unread; [|reflexivity]. destruct p; try reflexivity. exfalso. eapply (proj2 (NP _)). reflexivity.
Qed.
Lemma feed_kept : forall tr s, in_turn false false tr -> feed_run tr unfed_start = Some s -> d_place s = Idle ->
  texts_fed tr = texts_returned (d_keys s) ++ match sio_text (d_sio s) with [] => [] | t => [t] end.
Proof.
  intros tr s T R P. destruct (feed_in_turn (List.length tr) tr false false unfed_start s (le_n _) T) as [u [k [[_ S] B]]]; [|exact R|].
  { split; [reflexivity|]. cbn. repeat split; discriminate. }
  cbn [unfed_start d_keys unreturned texts_returned filter map app] in B. rewrite B. f_equal. unfold unreturned. rewrite P in *. destruct u.
  - destruct k; [destruct S as [[_ [_ D]]|[x [D _]]]; discriminate D|]. destruct S as [N _]. destruct (sio_text (d_sio s)); [congruence|reflexivity].
  - destruct S as [-> _]. reflexivity.
Qed.
