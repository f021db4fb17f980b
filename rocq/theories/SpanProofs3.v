(** Remaining small lemmas for C15-C23. *)
From Coq Require Import ZArith List Bool String Lia.
From Verif Require Import PyBase F64 SpaceModel ColorTab ColorModel ColorSpec SpaceSpec AnsiRe SpanModel CoreModel Vt PyLemmas
  PaletteSpec PaletteProofs ColorProofs SpanSpec SpanProofs SpanProofs2 ParseProofs ParseProofs2 ParseProofs3 GreySpec GreyProofs2 GreyProofs3.
Open Scope Z_scope.

Lemma grey_in_range : forall e c, pow_accurate (env_pow e) -> color_ok c -> 0 <= grey_index e (c_rgb c) < 256.
Proof. intros e c P OK. destruct (grey_index_spec e (c_rgb c) P (tok_color c OK)) as [R _]. lia. Qed.
Lemma approx_as_spec : forall e c x, color_ok c -> (env_cs e = NO_COLOR -> pow_accurate (env_pow e)) ->
  approx_as e c x -> approximates e c x.
Proof.
  intros e c x OK P. unfold approx_as. destruct (env_cs e) eqn:E; auto. intros ->. unfold approximates. rewrite E.
  eexists. split; [reflexivity|]. apply (grey_index_spec e (c_rgb c) (P eq_refl) (tok_color c OK)).
Qed.
Lemma free_color_displayed : forall e c, color_ok c -> no_ansi_ctor c ->
  (env_cs e = NO_COLOR -> pow_accurate (env_pow e)) ->
  exists x, approximates e c x /\ displayed e (c_bg c) (Some c) (Some x).
Proof.
  intros e c H1 H2 H3. destruct (free_color_emits e c H1 H2 (fun E => grey_in_range e c (H3 E) H1)) as [x [A E]].
  exists x. split; [now apply approx_as_spec|]. split; auto.
Qed.
Lemma described_displayed : forall e c x k, c_ctor c = Some k -> color_text (c_bg c) x k ->
  rank (c_origin c) <= rank (env_cs e) -> displayed e (c_bg c) (Some c) (Some x).
Proof. intros. split; [reflexivity|]. eapply described_emits; eauto. Qed.

Lemma one_attr : forall s o, let a := fst (named o) in a <> AReset ->
  attr_of (mutate s [o]) a = snd (named o) /\
  (forall b, b <> a -> b <> AReset -> attr_of (mutate s [o]) b = attr_of s b) /\
  attr_of (mutate s [o]) AReset = VBool true.
Proof.
  intros s o a H. assert (N : NoDup (keywords [o])) by (repeat constructor; intros []).
  split; [|split].
  - destruct (mutate_attrs s [o] a N) as [A _]. apply A. left. unfold a. now destruct (named o).
  - intros b B1 B2. destruct (mutate_attrs s [o] b N) as [_ [A _]]. apply A; [|exact B2]. intros [E|[]]. unfold a in B1. congruence.
  - destruct (mutate_attrs s [o] AReset N) as [_ [_ A]]. apply A. intros [E|[]]. unfold a in H. congruence.
Qed.
Lemma as_color_attrs : forall s c,
  let a := if c_bg c then ABg else AFg in
  attr_of (as_color s c) a = VColor (Some c) /\
  (forall b, b <> a -> b <> AReset -> attr_of (as_color s c) b = attr_of s b) /\
  attr_of (as_color s c) AReset = VBool true.
Proof.
  intros s c. unfold as_color. destruct (c_bg c); cbv zeta.
  - apply (one_attr s (MBg (Some c))). discriminate.
  - apply (one_attr s (MFg (Some c))). discriminate.
Qed.
Lemma as_flag_attrs : forall k s v,
  attr_of (as_flag k s v) (AFlag k) = VBool v /\
  (forall b, b <> AFlag k -> b <> AReset -> attr_of (as_flag k s v) b = attr_of s b) /\
  attr_of (as_flag k s v) AReset = VBool true.
Proof. intros k s v. apply (one_attr s (MFlag k v)). discriminate. Qed.
Lemma as_hyperlink_attrs : forall s l,
  attr_of (as_hyperlink s l) ALink = VText l /\
  (forall b, b <> ALink -> b <> AReset -> attr_of (as_hyperlink s l) b = attr_of s b) /\
  attr_of (as_hyperlink s l) AReset = VBool true.
Proof. intros s l. apply (one_attr s (MLink l)). discriminate. Qed.

Lemma span_slice_spec : forall s a b,
  is_slice a b (s_text s) (s_text (span_slice s a b)) /\
  span_slice s a b = mkSpan (s_text (span_slice s a b)) (s_fg s) (s_bg s) (s_link s) (s_flags s) true.
Proof. intros s a b. split; [|reflexivity]. exact (slice_spec a b (s_text s)). Qed.

Lemma characters_str : forall e s, s_link s = [] -> s_text s <> [] ->
  (s_reset s = true \/ (2 <= List.length (s_text s))%nat) ->
  concat (get_characters e s false false) = span_str e s.
Proof.
  intros e s L T R. rewrite characters_concat; [|exact T|reflexivity|tauto].
  unfold span_str. rewrite L. reflexivity.
Qed.

Lemma characters_always : forall e s ex k c, s_reset s = true -> nth_error (s_text s) k = Some c ->
  exists r, nth_error (get_characters e s ex true) k = Some (layer_sequences e s ex ++ c :: r).
Proof.
  intros e s ex k c R H. destruct (characters_spec e s ex true) as [_ S]. rewrite (S k c H). rewrite R. unfold entry.
  cbn [orb andb]. destruct (k =? _)%nat.
  - destruct (str_eqb (layer_sequences e s ex) []) eqn:Q; cbn [negb].
    + apply str_eqb_eq in Q. rewrite Q. exists []. reflexivity.
    + eexists. reflexivity.
  - exists []. reflexivity.
Qed.

Lemma parse_ValueError : forall line,
  (forall b, occurs b line -> ~ In 46 b /\ forall p, In p (split_on 59 b) -> ~ In p bad_parts) ->
  (exists ss, parse_line line = Ok ss) \/ parse_line line = Err ValueError.
Proof.
  intros line H. destruct (parse_line line) as [ss|x] eqn:P; [left; eauto|right].
  destruct (parse_exn line x P) as [->|[[_ [b [O D]]]|[_ [b [p [O [I B]]]]]]]; [reflexivity| |].
  - exfalso. now apply (H b O).
  - exfalso. now apply (proj2 (H b O) p).
Qed.
