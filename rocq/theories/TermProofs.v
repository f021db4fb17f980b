(** Lemmas about Terminal: sizes and listeners, context managers, titles, failed draws. *)
From Coq Require Import ZArith List Bool Lia String.
From Verif Require Import PyBase PyLemmas F64 SpaceModel ColorModel SpanModel CoreModel ScreenModel ScreenSpec
  ScreenProofs ScreenProofs6 Vt SpanProofs TermModel TermSpec.
Import ListNotations.
Open Scope Z_scope.
Open Scope list_scope.

(** * Sizes *)
Lemma size_eqb_iff : forall a b, size_eqb a b = true <-> a = b.
Proof.
  intros [a b] [c d]. unfold size_eqb. cbn [fst snd]. rewrite andb_true_iff, !Z.eqb_eq. split.
  - intros [-> ->]. reflexivity.
  - intro H. now injection H.
Qed.

Lemma run_notes : forall rs sz ids v s,
  run_listeners rs sz (map LNote ids) v s = (set_log (t_log s ++ map (fun id => (id, sz)) ids) s, Ok tt).
Proof.
  intros rs sz ids v. induction ids as [|id ids IH]; intro s; cbn [map run_listeners].
  - unfold retM. rewrite app_nil_r. destruct s; reflexivity.
  - unfold seqM, bindM. rewrite IH. cbn [t_log set_log]. unfold set_log. cbn [t_screen t_cache t_prev t_forced t_title t_bgcol t_origin t_listeners t_out t_writes t_echo t_log t_cslog].
    rewrite <- app_assoc. reflexivity.
Qed.

Definition noted (ids : list Z) (p : Z * Z) (sz : Z * Z) : list (Z * (Z * Z)) :=
  if size_eqb sz p then [] else map (fun id => (id, sz)) ids.

Lemma size_notes : forall fuel v s ids p, t_listeners s = map LNote ids -> t_prev s = Some p ->
  size fuel v s =
  (mkT (if size_eqb (te_size v) p then t_screen s else resize (t_screen s) (te_size v) (lit " ") true)
     (t_cache s) (Some (te_size v)) (t_forced s) (t_title s) (t_bgcol s) (t_origin s) (t_listeners s) (t_out s) (t_writes s)
     (t_echo s) (t_log s ++ noted ids p (te_size v)) (t_cslog s), Ok (te_size v)).
Proof.
  intros fuel v s ids p L P. unfold noted.
  destruct fuel as [|fuel]; cbn [size]; rewrite P; destruct (size_eqb (te_size v) p); unfold retM, seqM, bindM;
    try (rewrite app_nil_r; destruct s; reflexivity); rewrite L, run_notes; rewrite <- L; reflexivity.
Qed.

(** the first look at the size notifies nobody *)
Lemma size_first : forall fuel v s, t_prev s = None -> size fuel v s = (set_prev (Some (te_size v)) s, Ok (te_size v)).
Proof. intros [|fuel] v s P; cbn [size]; rewrite P; reflexivity. Qed.

(** what the object needs to keep *)
Record healthy (ids : list Z) (p : Z * Z) (log : list (Z * (Z * Z))) (s : tstate) : Prop := {
  h_listeners : t_listeners s = map LNote ids;
  h_prev : t_prev s = Some p;
  h_size : (sc_w (t_screen s), sc_h (t_screen s)) = p;
  h_shaped : shaped (t_screen s);
  h_cache : cache_len (t_cache s);
  h_keyed : keyed (t_screen s);
  h_log : t_log s = log }.

Lemma healthy_size : forall fuel v s ids p log, healthy ids p log s ->
  healthy ids (te_size v) (log ++ noted ids p (te_size v)) (fst (size fuel v s)).
Proof.
  intros fuel v s ids p log [H1 H2 H3 H4 H5 H6 H7]. rewrite (size_notes fuel v s ids p H1 H2). cbn [fst].
  destruct (size_eqb (te_size v) p) eqn:E.
  - apply size_eqb_iff in E. constructor; cbn [t_listeners t_prev t_screen t_cache t_log]; auto; congruence.
  - constructor; cbn [t_listeners t_prev t_screen t_cache t_log]; auto; try congruence.
    + destruct (te_size v); reflexivity.
    + destruct (te_size v). apply resize_shape.
    + destruct (te_size v). now apply resize_keyed.
Qed.

(** Any change of the screen that keeps its shape is harmless *)
Lemma healthy_screen : forall ids p log s sc c, healthy ids p log s -> shaped sc -> keyed sc -> cache_len c ->
  sc_w sc = sc_w (t_screen s) -> sc_h sc = sc_h (t_screen s) -> healthy ids p log (set_screen sc c s).
Proof.
  intros ids p log s sc c [H1 H2 H3 H4 H5 H6 H7] A B C W H. constructor; cbn; auto. rewrite W, H. exact H3.
Qed.
Lemma healthy_other : forall ids p log s s', healthy ids p log s -> t_listeners s' = t_listeners s -> t_prev s' = t_prev s ->
  t_screen s' = t_screen s -> t_cache s' = t_cache s -> t_log s' = t_log s -> healthy ids p log s'.
Proof. intros ids p log s s' [H1 H2 H3 H4 H5 H6 H7] A B C D E. constructor; congruence. Qed.

Lemma stream_keeps : forall t v s, let s' := fst (stream_write t v s) in same_object s s'.
Proof. intros t v s. unfold stream_write, same_object. destruct (te_fail v (t_writes s)); cbn; intuition. Qed.

Lemma healthy_call : forall fuel ids p log s k, healthy ids p log s ->
  healthy ids (last (looked k) p) (log ++ notices ids (differing p (looked k))) (do_call fuel s k).
Proof.
  intros fuel ids p log s [v c] H. unfold looked. cbn [fst snd].
  assert (Hn : noted ids p (te_size v) = notices ids (differing p [te_size v])).
  { unfold noted, notices, differing, size_eqb. destruct ((_ =? _) && _); cbn; now rewrite ?app_nil_r. }
  pose proof H as [H1 H2 H3 H4 H5 H6 H7].
  destruct c; cbn [do_call last];
    try (change (notices ids (differing p [])) with (@nil (Z * (Z * Z))); rewrite app_nil_r).
  - rewrite <- Hn. now apply healthy_size.
  - rewrite <- Hn. unfold twidth, bindM. pose proof (healthy_size fuel v s ids p log H) as G.
    destruct (size fuel v s) as [s' [sz|x]]; exact G.
  - rewrite <- Hn. unfold theight, bindM. pose proof (healthy_size fuel v s ids p log H) as G.
    destruct (size fuel v s) as [s' [sz|x]]; exact G.
  - unfold twrite. destruct (color_env v s) as [e|]; [|exact H]. destruct (as_background _ _ _) as [tb|]; [|exact H].
    destruct cursor as [q|]; [|exact H]. destruct (match d with PSpans l => Ok l | PStr t => parse_line t end) as [l|]; [|exact H].
    cbn [write]. destruct (write_bulk_shape e (t_cache s) (t_screen s) [(q, l)] tb force H4 H5)
      as [sc [cc [r [-> [A1 [A2 [A3 [_ [A4 [A5 _]]]]]]]]]]. cbn [fst].
    apply healthy_screen; auto.
  - unfold twrite_bulk. destruct (color_env v s) as [e|]; [|exact H]. destruct (as_background _ _ _) as [tb|]; [|exact H].
    destruct (bulk_prefix d) as [dd [|]].
    + destruct (write_bulk_shape e (t_cache s) (t_screen s) dd tb force H4 H5)
        as [sc [cc [r [-> [A1 [A2 [A3 [_ [A4 [A5 _]]]]]]]]]]. cbn [fst]. apply healthy_screen; auto.
    + assert (D : dims (sc_w (t_screen s)) (sc_h (t_screen s)) (sc_cells (t_screen s))).
      { destruct H4 as [S1 S2]. split; [unfold zlen in S1; lia|].
        eapply Forall_impl; [|exact S2]. intros a Ha. cbn in Ha. unfold zlen in Ha. lia. }
      destruct (place_all_puts e (sc_w (t_screen s)) (sc_h (t_screen s)) dd
        (mkW (blank_matrix (sc_w (t_screen s)) (sc_h (t_screen s)) None) (blank_matrix (sc_w (t_screen s)) (sc_h (t_screen s)) [])
           (sc_cells (t_screen s)) (sc_off (t_screen s)) (t_cache s)) D H5) as [items [st [r [-> [_ [_ [D' [C' _]]]]]]]].
      cbn [fst]. apply healthy_screen; auto; try exact H6. now apply dims_shaped.
  - unfold tclear. cbn [fst]. apply healthy_screen; auto.
    + exact (resize_shape (t_screen s) (sc_w (t_screen s)) (sc_h (t_screen s)) fill false).
    + exact (resize_keyed (t_screen s) (sc_w (t_screen s)) (sc_h (t_screen s)) fill false H6).
  - cbn [fst set_cursor]. apply healthy_screen; auto.
  - assert (G : same_object s (set_custom_title (t_title s) (fst (set_title t v s)))).
    { unfold set_title, seqM, bindM, whenM, write_control, retM. destruct t as [t|].
      - destruct (match t_title s with Some (_ :: _) => false | _ => true end).
        + unfold stream_write. destruct (te_fail v (t_writes s)); [unfold same_object; cbn; intuition|].
          destruct (te_fail v _); unfold same_object; cbn; intuition.
        + unfold stream_write. destruct (te_fail v (t_writes s)); unfold same_object; cbn; intuition.
      - unfold stream_write. destruct (te_fail v (t_writes s)); unfold same_object; cbn; intuition. }
    unfold same_object in G. cbn [set_custom_title t_screen t_cache t_prev t_listeners t_log] in G.
    apply (healthy_other ids p log s); auto; tauto.
  - unfold draw. destruct (render (t_screen s) (t_origin s) redraw) as [ansi sc] eqn:E.
    assert (G : healthy ids p log (set_screen sc (t_cache s) s)).
    { unfold render in E. destruct (t_origin s). destruct redraw; injection E as _ <-; apply healthy_screen; auto;
        try exact H4; constructor. }
    destruct (te_file_ok v); [|exact G].
    pose proof (stream_keeps ansi v (set_screen sc (t_cache s) s)) as K. cbv zeta in K. unfold same_object in K.
    apply (healthy_other ids p log (set_screen sc (t_cache s) s)); auto; tauto.
  - cbn [fst set_color_space]. apply (healthy_other ids p log s); auto.
Qed.

Lemma last_cons_d : forall A (b : list A) x d, last (x :: b) d = last b x.
Proof. intros A b. induction b as [|y b IH]; intros x d; [reflexivity|]. transitivity (last (y :: b) d); [reflexivity|]. now rewrite !IH. Qed.
Lemma last_app_d : forall A (a b : list A) d, last (a ++ b) d = last b (last a d).
Proof. intros A a. induction a as [|x a IH]; intros b d; cbn [app]; [reflexivity|]. now rewrite !last_cons_d, IH. Qed.
Lemma differing_app : forall a b p, differing p (a ++ b) = differing p a ++ differing (last a p) b.
Proof.
  induction a as [|x a IH]; intros b p; cbn [app differing]; [reflexivity|].
  rewrite IH, app_assoc. now rewrite last_cons_d.
Qed.

Lemma healthy_calls : forall fuel ids calls p log s, healthy ids p log s ->
  healthy ids (last (seen_sizes calls) p) (log ++ notices ids (differing p (seen_sizes calls))) (do_calls fuel s calls).
Proof.
  intros fuel ids calls. induction calls as [|k calls IH]; intros p log s H; unfold do_calls in *; cbn [fold_left seen_sizes flat_map].
  - cbn. now rewrite app_nil_r.
  - apply (healthy_call fuel ids p log s k) in H. apply IH in H. fold (seen_sizes calls).
    rewrite last_app_d, differing_app. unfold notices in *. rewrite flat_map_app, app_assoc. exact H.
Qed.

Lemma screen_follows : forall fuel ids calls s p, t_listeners s = map LNote ids -> t_prev s = Some p ->
  (sc_w (t_screen s), sc_h (t_screen s)) = p -> shaped (t_screen s) -> keyed (t_screen s) -> cache_len (t_cache s) ->
  let s' := do_calls fuel s calls in
  (sc_w (t_screen s'), sc_h (t_screen s')) = last (seen_sizes calls) p /\ shaped (t_screen s') /\
  t_log s' = t_log s ++ notices ids (differing p (seen_sizes calls)).
Proof.
  intros fuel ids calls s p H1 H2 H3 H4 H5 H6. cbv zeta.
  destruct (healthy_calls fuel ids calls p (t_log s) s) as [G1 G2 G3 G4 G5 G6 G7]; [constructor; auto|]. auto.
Qed.

(** A listener that looks at the size when told about it recurses until the interpreter gives up *)
Lemma run_notes_app : forall rs sz ids rest v s,
  run_listeners rs sz (map LNote ids ++ rest) v s =
  run_listeners rs sz rest v (set_log (t_log s ++ map (fun id => (id, sz)) ids) s).
Proof.
  intros rs sz ids rest v. induction ids as [|id ids IH]; intro s; cbn [map app run_listeners].
  - rewrite app_nil_r. destruct s; reflexivity.
  - unfold seqM, bindM at 1. rewrite IH. f_equal. unfold set_log. cbn. now rewrite <- app_assoc.
Qed.

Lemma reading_recurses : forall fuel v ids rest s p, t_listeners s = map LNote ids ++ LReadSize :: rest -> t_prev s = Some p ->
  te_size v <> p -> exists s', size fuel v s = (s', Err RecursionError) /\ t_prev s' = Some p /\
    t_log s' = t_log s ++ notices ids (repeat (te_size v) (S fuel)).
Proof.
  induction fuel as [|fuel IH]; intros v ids rest s p L P N; cbn [size]; rewrite P;
    (destruct (size_eqb (te_size v) p) eqn:E; [apply size_eqb_iff in E; contradiction|]);
    unfold seqM at 1, bindM at 1; rewrite L, run_notes_app; cbn [run_listeners]; unfold seqM, bindM.
  - eexists. split; [reflexivity|]. cbn. rewrite app_nil_r. auto.
  - set (s1 := set_log _ _).
    destruct (IH v ids rest s1 p) as [s' [-> [P' L']]]; auto.
    eexists. split; [reflexivity|]. split; [exact P'|]. rewrite L'.
    change (notices ids (repeat (te_size v) (S (S fuel))))
      with (map (fun id => (id, te_size v)) ids ++ notices ids (repeat (te_size v) (S fuel))).
    rewrite app_assoc. reflexivity.
Qed.

(** A listener that raises leaves the remembered size as it was, so the same change is announced again *)
Lemma raising_repeats : forall fuel v ids n rest s p, t_listeners s = map LNote ids ++ LRaise n :: rest -> t_prev s = Some p ->
  te_size v <> p -> exists s', size fuel v s = (s', Err (UserError n)) /\ t_prev s' = Some p /\ t_listeners s' = t_listeners s /\
    t_log s' = t_log s ++ map (fun id => (id, te_size v)) ids.
Proof.
  intros fuel v ids n rest s p L P N.
  destruct fuel as [|fuel]; cbn [size]; rewrite P;
    (destruct (size_eqb (te_size v) p) eqn:E; [apply size_eqb_iff in E; contradiction|]);
    unfold seqM at 1, bindM at 1; rewrite L, run_notes_app; cbn [run_listeners];
    eexists; (split; [reflexivity|]); cbn; auto.
Qed.
