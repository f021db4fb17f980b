(** Lemmas about Terminal: nested managers, synchronized updates, string payloads, SVG background. *)
From Coq Require Import ZArith List Bool Lia String.
From Verif Require Import PyBase PyLemmas F64 SpaceModel ColorModel ColorSpec ColorProofs SpanModel KeyTab CoreModel KeySpec KeyProofs KeyProofs2
  ScreenModel Vt SpanProofs TermModel TermSpec TermProofs TermProofs2.
Import ListNotations.
Open Scope Z_scope.
Open Scope list_scope.

(** * Leaving an inner manager *)
Lemma inner_echo : forall A (body : M A) v s s2 a, te_stdin_tty v = true -> body v (set_echo_flag false s) = (s2, Ok a) ->
  exists s3, no_echo (no_echo body ;; echoing) v s = (s3, Ok true).
Proof.
  intros A body v s s2 a T H. unfold no_echo at 1, try_finally, seqM, bindM, set_echo at 1. rewrite T.
  unfold no_echo at 1, try_finally, seqM, bindM, set_echo. rewrite T.
  replace (set_echo_flag false (set_echo_flag false s)) with (set_echo_flag false s) by (destruct s; reflexivity).
  rewrite H. cbn. eexists. reflexivity.
Qed.
(** in the emulator: the alternate buffer and mouse reporting are off although the outer manager is
    still open *)
Lemma inner_modes : forall A m n b (body : M A) v s s2 r t, calm v -> In (n, b) (left_modes m) ->
  (enter m ;; enter m ;; body) v s = (s2, r) -> osc_closed (vt (t_out s2) t) ->
  exists s3, (enter m ;; within m body) v s = (s3, r) /\ mode_of n (e_modes (vt (t_out s3) t)) = Some b.
Proof.
  intros A m n b body v s s2 r t C Hn H Ht. unfold seqM at 1, bindM at 1 in H.
  destruct (enter_calm m v s C) as [s1 [E [_ _]]]. rewrite E in H.
  destruct (leaving A m body v s1 s2 r H) as [s3 [E3 [_ [O3 _]]]]; [intros k _; apply C|].
  exists s3. split. { unfold seqM, bindM. now rewrite E. }
  rewrite O3, vt_app. pose proof (left_terminal [m] (vt (t_out s2) t) m n b Ht (or_introl eq_refl) Hn) as L.
  unfold closings in L. cbn in L. now rewrite app_nil_r in L.
Qed.

(** * Synchronized updates *)
Lemma batch_no_mode : forall t n, osc_closed t ->
  mode_of n (e_modes (vt (opening Batch) t)) = mode_of n (e_modes t).
Proof.
  intros [w h g x y wr rd lk p md ti ts] n H. unfold osc_closed in H. cbn [e_parse] in H.
  destruct p; try contradiction; reflexivity.
Qed.

Lemma sync_spec : forall k, supports_synchronized_update true (Some k) = Ok true <-> In k sync_answers.
Proof.
  intro k. unfold supports_synchronized_update, bindr.
  change [[ESC; 91] ++ lit "?2026;1$y"; [ESC; 91] ++ lit "?2026;2$y"] with sync_answers.
  split.
  - unfold decode_key, bindr. destruct (parse_mouse_event _) as [[ev|]|x] eqn:E; [| |discriminate].
    + cbn [key_str]. intro H. exfalso.
      unfold parse_mouse_event in E. destruct (_ || _) in E; [discriminate|].
      destruct (split_on 59 _) as [|a [|b [|c [|]]]] in E; try discriminate. unfold bindr in E.
      destruct (index (-1) c); [|discriminate]. destruct (dict_get MOUSE_EVENTS a); [|discriminate]. injection E as <-.
      vm_compute in H. discriminate.
    + destruct (dict_get POSIX_KEY_NAMES k) as [names|] eqn:D.
      * intro H. exfalso. apply dict_get_in in D.
        assert (T : forallb (fun kv => match snd kv with v :: _ => negb (str_in v sync_answers) | [] => true end) POSIX_KEY_NAMES = true)
          by (vm_compute; reflexivity).
        rewrite forallb_forall in T. specialize (T _ D). cbn [snd] in T. destruct names as [|v names]; [discriminate|].
        cbn [key_str] in H. assert (H2 : str_in v sync_answers = true) by congruence. rewrite H2 in T. discriminate.
      * cbn [key_str]. intro H. apply str_in_In. congruence.
  - intros [<-|[<-|[]]]; vm_compute; reflexivity.
Qed.
Lemma sync_silent : forall tty, supports_synchronized_update tty None = Ok false.
Proof. intro tty. vm_compute. reflexivity. Qed.
Lemma sync_keyboard : forall k, keyboard k -> exists b, supports_synchronized_update true (Some k) = Ok b /\ (b = true <-> In k sync_answers).
Proof.
  intros k K. pose proof (sync_spec k) as S. unfold supports_synchronized_update, bindr in *.
  rewrite (decode_keyboard k K) in *.
  destruct (dict_get POSIX_KEY_NAMES k) as [names|] eqn:D.
  - destruct names as [|v names].
    + exfalso. apply dict_get_in in D. pose proof posix_names_ok as P. rewrite forallb_forall in P. specialize (P _ D). discriminate.
    + cbn [key_str] in *. eexists. split; [reflexivity|]. rewrite <- S. split; congruence.
  - cbn [key_str] in *. eexists. split; [reflexivity|]. rewrite <- S. split; congruence.
Qed.

Lemma sync_query : forall answer state v s, reports answer state -> te_fail v (t_writes s) = false ->
  snd (query_synchronized_update true answer v s) = Ok ((state 2026 =? 1) || (state 2026 =? 2)) /\
  t_out (fst (query_synchronized_update true answer v s)) = t_out s ++ mode_request 2026.
Proof.
  intros answer state v s [H1 H2] Hf. unfold query_synchronized_update, seqM, bindM, write_control, stream_write. rewrite Hf.
  cbn [set_out t_out fst snd]. change QUERY_SYNCHRONIZED_UPDATE with (mode_request 2026). rewrite H2. split; [|reflexivity].
  specialize (H1 2026). assert (C : state 2026 = 0 \/ state 2026 = 1 \/ state 2026 = 2 \/ state 2026 = 3 \/ state 2026 = 4) by lia.
  destruct C as [-> |[-> |[-> |[-> | ->]]]]; vm_compute; reflexivity.
Qed.

(** * Strings *)
Lemma write_string : forall t cursor force v s, twrite (PStr t) cursor force v s =
  match parse_line t with
  | Ok l => twrite (PSpans l) cursor force v s
  | Err x => match color_env v s, as_background (t_bgcol s) true None, cursor with
             | Ok _, Ok _, Some _ => (s, Err x)
             | Err y, _, _ => (s, Err y)
             | _, Err y, _ => (s, Err y)
             | _, _, None => (s, Err TypeError)
             end
  end.
Proof.
  intros t cursor force v s. unfold twrite. destruct (color_env v s) as [e|y], (as_background (t_bgcol s) true None) as [tb|z], cursor as [p|];
    destruct (parse_line t); reflexivity.
Qed.
Lemma bulk_spans : forall data, bulk_prefix (map (fun d => (fst d, PSpans (snd d))) data) = (data, true).
Proof. induction data as [|[p l] data IH]; [reflexivity|]. cbn [map fst snd bulk_prefix]. now rewrite IH. Qed.
Lemma bulk_string : forall p c t rest force v s e tb, color_env v s = Ok e -> as_background (t_bgcol s) true None = Ok tb ->
  twrite_bulk ((p, PStr (c :: t)) :: rest) force v s = (s, Err AttributeError).
Proof.
  intros p c t rest force v s e tb E B. unfold twrite_bulk. rewrite E, B. cbn [bulk_prefix place_all].
  destruct s as [[w h cells buf cur off]]. reflexivity.
Qed.
Lemma bulk_is_bulk : forall data force v s e tb, color_env v s = Ok e -> as_background (t_bgcol s) true None = Ok tb ->
  twrite_bulk (map (fun d => (fst d, PSpans (snd d))) data) force v s =
  let '(sc, ch, r) := write_bulk e (t_cache s) (t_screen s) data tb force in (set_screen sc ch s, r).
Proof. intros data force v s e tb E B. unfold twrite_bulk. now rewrite E, B, bulk_spans. Qed.

Lemma place_all_empty : forall e w h a p b st, place_all e w h (a ++ (p, []) :: b) st = place_all e w h (a ++ b) st.
Proof.
  intros e w h a p b. induction a as [|[[x y] l] a IH]; intros st.
  - destruct p as [x y]. reflexivity.
  - cbn [app place_all]. destruct (place_line e w h l 0 x y (zlen l - 1) st) as [st' [u|z]]; [apply IH|reflexivity].
Qed.
Lemma write_bulk_empty : forall e c s a p b tb force, write_bulk e c s (a ++ (p, []) :: b) tb force = write_bulk e c s (a ++ b) tb force.
Proof. intros. unfold write_bulk. now rewrite place_all_empty. Qed.
Lemma prefix_empty : forall a p b, exists x y ok, bulk_prefix (a ++ b) = (x ++ y, ok) /\
  (bulk_prefix (a ++ (p, PStr []) :: b) = (x ++ (p, []) :: y, ok) \/ bulk_prefix (a ++ (p, PStr []) :: b) = (x ++ y, ok)).
Proof.
  intros a p b. induction a as [|[q [l|[|c t]]] a IH].
  - cbn [app bulk_prefix]. destruct (bulk_prefix b) as [y ok]. exists [], y, ok. split; [reflexivity|]. now left.
  - destruct IH as (x & y & ok & E & D). exists ((q, l) :: x), y, ok. cbn [app bulk_prefix]. rewrite E. split; [reflexivity|].
    destruct D as [D|D]; rewrite D; [now left|now right].
  - destruct IH as (x & y & ok & E & D). exists ((q, []) :: x), y, ok. cbn [app bulk_prefix]. rewrite E. split; [reflexivity|].
    destruct D as [D|D]; rewrite D; [now left|now right].
  - exists [], [], false. cbn. split; [reflexivity|]. now right.
Qed.
Lemma bulk_empty : forall a p b force v s, twrite_bulk (a ++ (p, PStr []) :: b) force v s = twrite_bulk (a ++ b) force v s.
Proof.
  intros a p b force v s. unfold twrite_bulk. destruct (color_env v s) as [e|x]; [|reflexivity].
  destruct (as_background (t_bgcol s) true None) as [tb|x]; [|reflexivity].
  destruct (prefix_empty a p b) as (x & y & ok & E & [D|D]); rewrite E, D; [|reflexivity].
  destruct ok; [now rewrite write_bulk_empty|]. cbv zeta. now rewrite place_all_empty.
Qed.
Lemma prefix_string : forall a p c t b, snd (bulk_prefix (a ++ (p, PStr (c :: t)) :: b)) = false.
Proof.
  intros a p c t b. induction a as [|[q [l|[|d u]]] a IH]; [reflexivity| | |reflexivity].
  all: cbn [app bulk_prefix]; destruct (bulk_prefix (a ++ (p, PStr (c :: t)) :: b)) as [z ok]; exact IH.
Qed.
Lemma bulk_string_anywhere : forall a p c t b force v s,
  (exists x, snd (twrite_bulk (a ++ (p, PStr (c :: t)) :: b) force v s) = Err x) /\
  sc_buf (t_screen (fst (twrite_bulk (a ++ (p, PStr (c :: t)) :: b) force v s))) = sc_buf (t_screen s).
Proof.
  intros a p c t b force v s. unfold twrite_bulk. destruct (color_env v s) as [e|x]; [|split; [now exists x|reflexivity]].
  destruct (as_background (t_bgcol s) true None) as [tb|x]; [|split; [now exists x|reflexivity]].
  pose proof (prefix_string a p c t b) as P. destruct (bulk_prefix (a ++ (p, PStr (c :: t)) :: b)) as [d ok]. cbn in P. subst ok.
  cbv zeta. destruct (place_all _ _ _ _ _) as [st [u|x]]; (split; [eexists; reflexivity|reflexivity]).
Qed.

(** * Controls *)
Definition do_control (c : control) : M unit :=
  match c with Ring => bell | ShowCursor b => show_cursor b | Mouse b => set_report_mouse b end.
Definition sent (c : control) : str :=
  match c with
  | Ring => [BEL]
  | ShowCursor b => if b then SHOW_CURSOR else HIDE_CURSOR
  | Mouse b => if b then MOUSE_ON else MOUSE_OFF
  end.
Lemma sent_effect : forall c t, e_parse t = PGround ->
  exists m, vt (sent c) t = set_modes m t /\ (forall n, mode_of n m = match asks c n with Some b => Some b | None => mode_of n (e_modes t) end) /\
  rung (sent c) t = match c with Ring => 1 | _ => 0 end.
Proof.
  intros c [w h g x y wr r l p m ti ts] H. cbn in H. subst p. destruct c as [|b|b].
  - exists m. split; [reflexivity|]. split; reflexivity.
  - exists ((25, b) :: m). destruct b; (split; [reflexivity|split; [|reflexivity]]); intro n; cbn [mode_of asks e_modes];
      rewrite (Z.eqb_sym 25 n); now destruct (n =? 25).
  - exists ((1003, b) :: (1002, b) :: (1006, b) :: m). destruct b; (split; [reflexivity|split; [|reflexivity]]); intro n;
      cbn [mode_of asks e_modes]; rewrite (Z.eqb_sym 1002 n), (Z.eqb_sym 1003 n), (Z.eqb_sym 1006 n);
      destruct (n =? 1002), (n =? 1003), (n =? 1006); reflexivity.
Qed.
Lemma rung_app : forall a b t, rung (a ++ b) t = rung a t + rung b (vt a t).
Proof.
  induction a as [|c a IH]; intros b t; cbn [app rung]; [reflexivity|]. rewrite IH. unfold vt. cbn [fold_left]. lia.
Qed.
Lemma set_modes_twice : forall m m' t, set_modes m (set_modes m' t) = set_modes m t.
Proof. reflexivity. Qed.
Lemma controls_exact : forall l v s t, calm v -> e_parse (vt (t_out s) t) = PGround ->
  let s' := fst (fold_right (fun c k => do_control c ;; k) (retM tt) l v s) in
  snd (fold_right (fun c k => do_control c ;; k) (retM tt) l v s) = Ok tt /\ same_object s s' /\ t_echo s' = t_echo s /\
  same_but_modes (vt (t_out s) t) (vt (t_out s') t) /\
  (forall n, mode_of n (e_modes (vt (t_out s') t)) = mode_after l n (mode_of n (e_modes (vt (t_out s) t)))) /\
  rung (t_out s') t = rung (t_out s) t + rings l.
Proof.
  induction l as [|c l IH]; intros v s t Hc Hp; cbn [fold_right].
  - cbn [retM fst snd]. split; auto. split; [repeat split|]. split; auto. split; [now destruct (vt (t_out s) t)|].
    split; [reflexivity|]. unfold rings. cbn. lia.
  - assert (E : do_control c v s = (set_out (t_out s ++ sent c) (S (t_writes s)) s, Ok tt)).
    { destruct c; cbn [do_control]; unfold bell, show_cursor, set_report_mouse, write_control, stream_write; rewrite Hc; reflexivity. }
    set (s1 := set_out (t_out s ++ sent c) (S (t_writes s)) s) in *.
    assert (E' : (do_control c ;; fold_right (fun c k => do_control c ;; k) (retM tt) l) v s =
                 fold_right (fun c k => do_control c ;; k) (retM tt) l v s1).
    { unfold seqM at 1, bindM at 1. now rewrite E. }
    rewrite E'.
    destruct (sent_effect c (vt (t_out s) t) Hp) as [m [V [Md Rg]]].
    assert (V1 : vt (t_out s1) t = set_modes m (vt (t_out s) t)).
    { unfold s1, vt. cbn [set_out t_out]. rewrite fold_left_app. exact V. }
    assert (Hp1 : e_parse (vt (t_out s1) t) = PGround) by (rewrite V1; exact Hp).
    specialize (IH v s1 t Hc Hp1). cbn zeta in IH.
    destruct (fold_right (fun c k => do_control c ;; k) (retM tt) l v s1) as [s2 r2]. cbn [fst snd] in *.
    destruct IH as [R [O [Ec [D [Ms Rn]]]]]. split; auto. split; [exact O|]. split; [exact Ec|].
    split; [|split].
    + unfold same_but_modes in *. rewrite V1 in D. rewrite set_modes_twice in D. exact D.
    + intro n. rewrite Ms, V1. cbn [mode_after fold_left set_modes e_modes]. unfold mode_after. now rewrite Md.
    + rewrite Rn. unfold s1. cbn [set_out t_out]. rewrite rung_app, Rg. unfold rings. destruct c; cbn [filter List.length]; lia.
Qed.
