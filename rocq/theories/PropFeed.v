(** C104: feeding getch from another thread (core.py feed). *)
From Coq Require Import ZArith List Bool String Lia.
From Verif Require Import PyBase CoreModel TtyModel FeedModel FeedSpec FeedProofs.
Import ListNotations.
Open Scope Z_scope.
Open Scope list_scope.

(** ** C104 *)
(** "This can be used to manually interrupt an ongoing getch call": it never does.  A call that waits
    goes on waiting whatever is fed, unless something is typed. *)
Theorem C104_ongoing_refuted : forall tr s s' acc buf, d_place s = Reads (InRead acc buf) -> d_queue s = [] ->
  nothing_comes tr -> feed_run tr s = Some s' -> d_keys s' = d_keys s /\ d_place s' = d_place s.
Proof. exact feed_no_interrupt. Qed.
Print Assumptions C104_ongoing_refuted.

(** Text fed while a call is taking fed text is lost. *)
Theorem C104_lost_refuted : forall t1 t2, t1 <> [] ->
  feed_run [FeedWrite t1; FeedSeek; Looks; FeedWrite t2; FeedSeek; Empties; Rewinds] unfed_start =
    Some (mkFeeding sio_empty false [] Idle [(true, t1)]).
Proof. exact feed_lost. Qed.
Print Assumptions C104_lost_refuted.

(** If feeds take turns with the calls that return fed text, every text fed is returned by exactly one
    call, as it is and in order, however input arrives (the last one may still be waiting) ... *)
Theorem C104_kept_partial : forall tr s, in_turn false false tr -> feed_run tr unfed_start = Some s -> d_place s = Idle ->
  texts_fed tr = texts_returned (d_keys s) ++ match sio_text (d_sio s) with [] => [] | t => [t] end.
Proof. exact feed_kept. Qed.
Print Assumptions C104_kept_partial.

(** ... and the next call returns it, leaving alone the input that waits. *)
Theorem C104_next_partial : forall io q ks t, sio_text io = t -> t <> [] ->
  feed_run [Looks; Empties; Rewinds] (mkFeeding io false q Idle ks) = Some (mkFeeding sio_empty false q Idle (ks ++ [(true, t)])).
Proof. exact feed_next. Qed.
Print Assumptions C104_next_partial.

(** "x" is fed during a call that waits; "k" is typed; the call returns "k", the next one "x". *)
Definition fed_meanwhile : list feed_event :=
  [Looks; Reading_ Enter; FeedWrite (lit "x"); FeedSeek; Comes (lit "k"); Reading_ Take; Reading_ Finish; Looks; Empties; Rewinds].
Example C104_ex : in_turn false false fed_meanwhile /\
  feed_run fed_meanwhile unfed_start = Some (mkFeeding sio_empty false [] Idle [(false, lit "k"); (true, lit "x")]).
Proof. split; [cbn; repeat split; discriminate|reflexivity]. Qed.
Example C104_ex_waits : exists s, feed_run [Looks; Reading_ Enter] unfed_start = Some s /\ d_place s = Reads (InRead [] []) /\ d_queue s = [] /\
  nothing_comes [FeedWrite (lit "x"); FeedSeek] /\ exists s', feed_run [FeedWrite (lit "x"); FeedSeek] s = Some s'.
Proof. eexists. repeat split; [repeat constructor|eexists; reflexivity]. Qed.
