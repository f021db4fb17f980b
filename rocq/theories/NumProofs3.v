(** Lemmas: the numbers of a pixel size answer. *)
From Coq Require Import ZArith List Bool String Lia.
From Verif Require Import PyBase PyLemmas CoreModel KeySpec KeyProofs2 NumSpec NumProofs.
Import ListNotations.
Open Scope Z_scope.

Lemma digits_numeral : forall h dh, h <> [] -> Forall2 digit_of h dh -> numeral 10 h dh.
Proof.
  intros h dh N F. induction F as [|c d h dh D F IH]; [congruence|]. destruct h as [|x h].
  - inversion F; subst. constructor. now left.
  - apply (num_more 10 c d []); [now left|now left|]. now apply IH.
Qed.
Lemma digits_int : forall h dh, h <> [] -> Forall2 digit_of h dh -> py_int h = Ok (value 10 dh).
Proof.
  intros h dh N F. apply py_int_spec. exists [], [], 1, [], h, dh, []. cbn [app]. rewrite app_nil_r.
  split; [constructor|]. split; [left; auto|]. split; [now left|]. split; [now apply digits_numeral|]. split; [constructor|]. split; [reflexivity|ring].
Qed.
Lemma decimals_digits : forall h, decimals h = true <-> h <> [] /\ exists dh, Forall2 digit_of h dh.
Proof.
  intro h. unfold decimals. destruct h as [|c h]; [split; [discriminate|intros [N _]; congruence]|].
  split.
  - intro H. split; [discriminate|]. induction (c :: h) as [|x l IH]; [exists []; constructor|]. cbn [forallb] in H.
    apply andb_true_iff in H. destruct H as [H1 H2]. destruct (IH H2) as [dh F]. unfold is_decimal in H1.
    destruct (decimal x) as [d|] eqn:D; [|discriminate]. apply decimal_spec in D. exists (d :: dh). now constructor.
  - intros [_ [dh F]]. induction F as [|x d l dh D F IH]; [reflexivity|]. cbn [forallb]. rewrite IH. unfold is_decimal.
    apply decimal_spec in D. now rewrite D.
Qed.
Lemma resolution_numbers : forall fb k, keyboard k ->
  (forall h w dh dw tail, h <> [] -> w <> [] -> Forall2 digit_of h dh -> Forall2 digit_of w dw -> k = pixel_answer h w ++ tail ->
     resolution true true fb (Some k) = Ok (value 10 dw, value 10 dh)) /\
  ((forall h w dh dw tail, h <> [] -> w <> [] -> Forall2 digit_of h dh -> Forall2 digit_of w dw -> k <> pixel_answer h w ++ tail) ->
     resolution true true fb (Some k) = Ok fb).
Proof.
  intros fb k K. destruct (resolution_keyboard fb k K) as [R1 R2]. split.
  - intros h w dh dw tail Nh Nw Fh Fw E. destruct (R1 h w tail) as [hz [wz [Hh [Hw R]]]]; [apply decimals_digits; eauto|apply decimals_digits; eauto|exact E|].
    rewrite (digits_int h dh Nh Fh) in Hh. rewrite (digits_int w dw Nw Fw) in Hw. congruence.
  - intro N. apply R2. intros h w tail Dh Dw. apply decimals_digits in Dh, Dw. destruct Dh as [Nh [dh Fh]], Dw as [Nw [dw Fw]]. eauto.
Qed.
