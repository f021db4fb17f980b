(** Lemmas about split_str, contains and replace. *)
From Coq Require Import ZArith List Bool Lia.
From Verif Require Import PyBase PyLemmas.
Open Scope Z_scope.

Lemma contains_app_iff : forall p s, contains p s = true <-> exists a b, s = a ++ p ++ b.
Proof.
  intros p s. induction s as [|c s IH].
  - simpl. rewrite orb_false_r, startswith_iff. split.
    + intros [t H]. exists [], t. exact H.
    + intros [a [b H]]. destruct a; [|discriminate]. now exists b.
  - cbn [contains]. rewrite orb_true_iff, startswith_iff, IH. split.
    + intros [[t H]|[a [b H]]].
      * exists [], t. exact H.
      * exists (c :: a), b. simpl. now rewrite H.
    + intros [a [b H]]. destruct a as [|x a].
      * left. now exists b.
      * right. injection H as _ H. now exists a, b.
Qed.

Lemma split_aux_cur : forall sep s cur, sep <> [] ->
  exists p ps, split_str_aux sep s 0 [] = p :: ps /\
               split_str_aux sep s 0 cur = (rev cur ++ p) :: ps.
Proof.
  intros sep s. induction s as [|c s IH]; intros cur Hs.
  - simpl. exists [], []. now rewrite app_nil_r.
  - cbn [split_str_aux]. destruct (startswith sep (c :: s)).
    + eexists [], _. rewrite app_nil_r. split; reflexivity.
    + destruct (IH [c] Hs) as [p [ps [H1 H2]]]. destruct (IH (c :: cur) Hs) as [p' [ps' [H1' H2']]].
      rewrite H1 in H1'. injection H1' as <- <-.
      exists (rev [c] ++ p), ps. split; auto. rewrite H2'. simpl. now rewrite <- app_assoc.
Qed.

Lemma split_aux_skip : forall sep a s, split_str_aux sep (a ++ s) (List.length a) [] =
  split_str_aux sep s 0 [].
Proof. induction a; intros s; simpl; auto. Qed.

Lemma split_first : forall sep s, sep <> [] ->
  (contains sep s = false /\ split_str_aux sep s 0 [] = [s]) \/
  (exists p r, s = p ++ sep ++ r /\ contains sep p = false /\
               split_str_aux sep s 0 [] = p :: split_str_aux sep r 0 []).
Proof.
  intros sep s Hs. induction s as [|c s IH].
  - left. split; [|reflexivity]. destruct sep; [congruence|reflexivity].
  - destruct (startswith sep (c :: s)) eqn:E.
    + right. assert (E' := E). apply startswith_iff in E. destruct E as [r Hr]. exists [], r.
      split; [exact Hr|]. split; [destruct sep; [congruence|reflexivity]|].
      cbn [split_str_aux]. rewrite E'. simpl. f_equal.
      destruct sep as [|x sep]; [congruence|]. simpl in Hr. injection Hr as -> ->.
      cbn [List.length]. rewrite Nat.sub_succ, Nat.sub_0_r. apply split_aux_skip.
    + destruct (split_aux_cur sep s [c] Hs) as [p0 [ps [H1 H2]]].
      destruct IH as [[Hc Hsp]|[p [r [Hp [Hc Hsp]]]]].
      * left. split.
        -- cbn [contains]. now rewrite E, Hc.
        -- cbn [split_str_aux]. rewrite E. rewrite Hsp in H1. injection H1 as <- <-. exact H2.
      * right. exists (c :: p), r. split; [simpl; congruence|]. split.
        -- cbn [contains]. rewrite Hc, orb_false_r.
           destruct (startswith sep (c :: p)) eqn:E2; auto.
           apply startswith_iff in E2. destruct E2 as [t Ht].
           assert (startswith sep (c :: s) = true); [|congruence].
           apply startswith_iff. exists (t ++ sep ++ r). rewrite Hp.
           change (c :: p ++ sep ++ r) with ((c :: p) ++ sep ++ r). rewrite Ht.
           now rewrite <- app_assoc.
        -- cbn [split_str_aux]. rewrite E. rewrite Hsp in H1. injection H1 as <- <-. exact H2.
Qed.

(** Joining the parts gives the string back, and no part contains the separator. *)
Lemma split_str_spec : forall sep s, sep <> [] ->
  join sep (split_str_aux sep s 0 []) = s /\
  Forall (fun p => contains sep p = false) (split_str_aux sep s 0 []) /\
  split_str_aux sep s 0 [] <> [].
Proof.
  intros sep s Hs.
  remember (List.length s) as n eqn:Hn. revert s Hn.
  induction n as [n IH] using lt_wf_ind. intros s Hn.
  destruct (split_first sep s Hs) as [[Hc H]|[p [r [Hp [Hc H]]]]]; rewrite H.
  - split; [reflexivity|]. split; [auto|congruence].
  - assert (Hl : (List.length r < n)%nat).
    { subst. rewrite !app_length. destruct sep; [congruence|]. simpl. lia. }
    destruct (IH _ Hl r eq_refl) as [H1 [H2 H3]].
    split; [|split; [auto|congruence]].
    destruct (split_str_aux sep r 0 []) as [|q qs]; [congruence|].
    rewrite join_cons, H1. now symmetry.
Qed.

(** The last part is what follows the last separator. *)
Lemma split_last : forall sep s, sep <> [] ->
  let l := last_of (split_str_aux sep s 0 []) in
  contains sep l = false /\ (l = s \/ exists p, s = p ++ sep ++ l).
Proof.
  intros sep s Hs.
  remember (List.length s) as n eqn:Hn. revert s Hn.
  induction n as [n IH] using lt_wf_ind. intros s Hn.
  destruct (split_first sep s Hs) as [[Hc H]|[p [r [Hp [Hc H]]]]]; rewrite H.
  - simpl. auto.
  - assert (Hl : (List.length r < n)%nat).
    { subst. rewrite !app_length. destruct sep; [congruence|]. simpl. lia. }
    destruct (IH _ Hl r eq_refl) as [H1 H2].
    assert (Hlast : last_of (p :: split_str_aux sep r 0 []) = last_of (split_str_aux sep r 0 [])).
    { unfold last_of. pose proof (split_str_spec sep r Hs) as [_ [_ Hne]].
      destruct (split_str_aux sep r 0 []); [congruence|reflexivity]. }
    rewrite Hlast. split; auto. right. destruct H2 as [H2|[q H2]].
    + rewrite H2. eauto.
    + exists (p ++ sep ++ q). rewrite Hp, H2 at 1. now rewrite <- !app_assoc.
Qed.
