(** Lemmas about color space detection and order. *)
From Coq Require Import ZArith List Bool Lia String.
From Verif Require Import PyBase PyLemmas SplitLemmas SpaceModel SpaceSpec.
Open Scope Z_scope.

Lemma cs_of_value_spec : forall s,
  (exists c, spells s c /\ cs_of_value s = Ok c) \/
  ((forall c, ~ spells s c) /\ cs_of_value s = Err ValueError).
Proof.
  intro s. unfold cs_of_value.
  destruct (str_eqb s (cs_value NO_COLOR)) eqn:E1.
  { apply str_eqb_eq in E1. left. exists NO_COLOR. auto. }
  destruct (str_eqb s (cs_value STANDARD)) eqn:E2.
  { apply str_eqb_eq in E2. left. exists STANDARD. auto. }
  destruct (str_eqb s (cs_value EIGHT_BIT)) eqn:E3.
  { apply str_eqb_eq in E3. left. exists EIGHT_BIT. auto. }
  destruct (str_eqb s (cs_value TRUE_COLOR)) eqn:E4.
  { apply str_eqb_eq in E4. left. exists TRUE_COLOR. auto. }
  apply str_eqb_neq in E1, E2, E3, E4.
  right. split; auto. intros []; simpl; assumption.
Qed.

Lemma spells_value : forall s c, spells s c -> cs_of_value s = Ok c.
Proof. intros s [] ->; reflexivity. Qed.

Lemma detection : forall e, detects e (get_color_space e).
Proof.
  intro e. unfold detects, get_color_space.
  destruct (SLATE_COLORSYS e) as [s|].
  { left. exists s. split; auto. apply cs_of_value_spec. }
  right. destruct (NO_COLOR_VAR e) as [n|].
  { left. eauto. }
  right. split; auto. split; auto.
  unfold color_hint, getenv_default.
  set (ct := match COLORTERM e with Some s => lower (strip_by is_space s) | None => [] end).
  assert (Hct : lower (strip_by is_space (match COLORTERM e with Some s => s | None => [] end)) = ct).
  { subst ct. destruct (COLORTERM e); reflexivity. }
  rewrite Hct. clearbody ct. set (tm := match TERM e with Some s => s | None => [] end).
  clearbody tm. clear Hct.
  assert (Hh : exists h, ((ct <> [] /\ h = ct) \/ (ct = [] /\ after_last_xterm tm h)) /\
     (if str_eqb ct [] then bindr (split_str (lit "xterm-") tm) (fun parts => Ok (last_of parts)) else Ok ct)
     = Ok h).
  { destruct (str_eqb ct []) eqn:E.
    - apply str_eqb_eq in E. exists (last_of (split_str_aux (lit "xterm-") tm 0 [])).
      split; [|reflexivity]. right. split; auto.
      destruct (split_last (lit "xterm-") tm) as [H1 H2]; [discriminate|].
      split; auto. intros a b Hab. revert H1. rewrite Hab.
      rewrite (proj2 (contains_app_iff _ _)); [congruence|eauto].
    - apply str_eqb_neq in E. exists ct. auto. }
  destruct Hh as [h [Hh ->]]. cbn [bindr].
  assert (Hc : exists c, hint_space h c /\
     (if str_in h [lit "24bit"; lit "truecolor"] then Ok TRUE_COLOR
      else if str_eqb h (lit "256color") then Ok EIGHT_BIT else Ok STANDARD) = Ok c).
  { unfold hint_space. destruct (str_in h [lit "24bit"; lit "truecolor"]) eqn:E.
    - apply str_in_In in E. destruct E as [E|[E|[]]]; exists TRUE_COLOR; auto.
    - destruct (str_eqb h (lit "256color")) eqn:E2.
      + apply str_eqb_eq in E2. exists EIGHT_BIT. auto.
      + apply str_eqb_neq in E2. exists STANDARD. split; auto. right. right.
        repeat split; auto; intros ->; discriminate. }
  destruct Hc as [c [Hc ->]]. eauto 6.
Qed.

(** The specification determines the result. *)
Lemma after_last_xterm_unique : forall term a b,
  after_last_xterm term a -> after_last_xterm term b -> a = b.
Proof.
  assert (G : forall p q a b, p ++ lit "xterm-" ++ a = q ++ lit "xterm-" ++ b ->
              (forall x y, a <> x ++ lit "xterm-" ++ y) -> (forall x y, b <> x ++ lit "xterm-" ++ y) ->
              (List.length p <= List.length q)%nat -> a = b).
  { induction p as [|c p IH]; intros q a b H Ha Hb Hl.
    - destruct q as [|d q]; [now apply (app_inv_head (lit "xterm-")) in H|].
      (* the second occurrence starts inside or after the first *)
      exfalso.
      destruct q as [|d2 [|d3 [|d4 [|d5 [|d6 q]]]]]; simpl in H; try discriminate.
      injection H as _ _ _ _ _ _ H. exact (Ha q b H).
    - destruct q as [|d q]; [simpl in Hl; lia|]. injection H as _ H.
      apply (IH q); auto. simpl in Hl. lia. }
  intros term a b [Ha Ha'] [Hb Hb'].
  destruct Ha' as [->|[p Hp]]; destruct Hb' as [->|[q Hq]]; auto.
  - exfalso. exact (Ha _ _ Hq).
  - exfalso. exact (Hb _ _ Hp).
  - destruct (Nat.le_ge_cases (List.length p) (List.length q)).
    + apply (G p q); auto; congruence.
    + symmetry. apply (G q p); auto; congruence.
Qed.

Lemma spells_unique : forall s c d, spells s c -> spells s d -> c = d.
Proof. intros s c d H1 H2. apply spells_value in H1, H2. congruence. Qed.

Lemma detects_unique : forall e r1 r2, detects e r1 -> detects e r2 -> r1 = r2.
Proof.
  intros e r1 r2 H1 H2.
  destruct H1 as [[s [E H1]]|[[E [[n En] H1]]|[E [En [h [c [H1 [Hc ->]]]]]]]];
  destruct H2 as [[s' [E' H2]]|[[E' [[n' En'] H2]]|[E' [En' [h' [c' [H2 [Hc' ->]]]]]]]]; try congruence.
  - rewrite E in E'. injection E' as <-.
    destruct H1 as [[c [H1 ->]]|[H1 ->]]; destruct H2 as [[d [H2 ->]]|[H2 ->]]; auto.
    + now rewrite (spells_unique _ _ _ H1 H2).
    + exfalso. exact (H2 _ H1).
    + exfalso. exact (H1 _ H2).
  - assert (h = h').
    { destruct H1 as [[A1 A2]|[A1 A2]]; destruct H2 as [[B1 B2]|[B1 B2]]; try congruence.
      eapply after_last_xterm_unique; eauto. }
    subst h'. f_equal.
    destruct Hc as [[[->| ->] ->]|[[-> ->]|[A1 [A2 [A3 ->]]]]];
    destruct Hc' as [[[Q|Q] ->]|[[Q ->]|[B1 [B2 [B3 ->]]]]]; try congruence; try discriminate.
Qed.

Lemma gt_rank : forall a b, cs_gt a (ArgSpace b) = Ok (rank b <? rank a).
Proof. intros [] []; reflexivity. Qed.
Lemma ge_rank : forall a b, cs_ge a (ArgSpace b) = Ok (rank b <=? rank a).
Proof. intros [] []; reflexivity. Qed.
Lemma eq_rank : forall a b, cs_eq a (ArgSpace b) = Ok (Some (rank a =? rank b)).
Proof. intros [] []; reflexivity. Qed.
Lemma rank_inj : forall a b, rank a = rank b -> a = b.
Proof. intros [] []; simpl; congruence. Qed.

Lemma order_spaces : forall a b,
  cs_gt a (ArgSpace b) = Ok (rank b <? rank a) /\ cs_ge a (ArgSpace b) = Ok (rank b <=? rank a) /\
  cs_lt a (ArgSpace b) = Ok (rank a <? rank b) /\ cs_le a (ArgSpace b) = Ok (rank a <=? rank b) /\
  cs_eq a (ArgSpace b) = Ok (Some (rank a =? rank b)) /\ (rank a = rank b <-> a = b).
Proof.
  intros a b. unfold cs_lt, cs_le. rewrite !gt_rank, !ge_rank, eq_rank.
  repeat split; auto using rank_inj. congruence.
Qed.

Lemma order_names : forall a s,
  (forall c, spells s c ->
     cs_gt a (ArgStr s) = cs_gt a (ArgSpace c) /\ cs_ge a (ArgStr s) = cs_ge a (ArgSpace c) /\
     cs_eq a (ArgStr s) = cs_eq a (ArgSpace c)) /\
  ((forall c, ~ spells s c) ->
     cs_gt a (ArgStr s) = Err ValueError /\ cs_ge a (ArgStr s) = Err ValueError /\
     cs_eq a (ArgStr s) = Err ValueError).
Proof.
  intros a s. split.
  - intros c H. apply spells_value in H. unfold cs_gt, cs_ge, cs_eq, coerce_arg. now rewrite H.
  - intros H. destruct (cs_of_value_spec s) as [[c [H1 _]]|[_ E]]; [exfalso; exact (H _ H1)|].
    unfold cs_gt, cs_ge, cs_eq, coerce_arg. now rewrite E.
Qed.
