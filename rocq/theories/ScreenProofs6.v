(** The screen properties: shape along every history, resize, clear, render order. *)
From Coq Require Import ZArith Reals List Bool Lia Permutation Sorting.Sorted.
From Flocq Require Import Core IEEE754.BinarySingleNaN.
From Verif Require Import PyBase PyLemmas F64 FloatLemmas SpaceModel ColorModel ColorSpec ColorProofs ColorProofs2 BlendProofs
  SpanModel SpanSpec SpanProofs2 GroupProofs ParseProofs ScreenModel ScreenSpec ScreenProofs ScreenProofs2 ScreenProofs3 ScreenProofs4.
Import ListNotations.
Open Scope Z_scope.

(** * Any placement is a sequence of puts on the screen *)
Definition items_of (w h : Z) (P : span -> Prop) (items : list (pos * (str * span))) : Prop :=
  forall q ch s, In (q, (ch, s)) items -> on_screen w h q /\ P s.

Lemma place_puts : forall w h s chars i n x y lst wm am,
  exists x' y' lst' items, items_of w h (eq s) items /\
    place w h s chars i n x y lst wm am =
    (x', y', lst', fst (fold_left put items (wm, am)), snd (fold_left put items (wm, am))).
Proof.
  intros w h s chars. induction chars as [|ch chars IH]; intros i n x y lst wm am; cbn [place].
  - exists x, y, lst, []. split; auto. intros q ch s' [].
  - destruct ((w <=? x) || (x <? 0) || (h <=? y) || (y <? 0)) eqn:Eb.
    { exists x, y, lst, []. split; auto. intros q ch' s' []. }
    rewrite !orb_false_iff, !Z.leb_gt, !Z.ltb_ge in Eb.
    destruct (str_eqb ch [NL]); [apply IH|].
    set (lst1 := if i =? n - 1 then 1 else 0).
    set (nxy := if w <=? x + 1 then (0, y + 1) else (x + 1, y)). destruct nxy as [nx ny].
    destruct (over s ch _) as [c push] eqn:Eo.
    destruct (IH (i + 1) n nx ny lst1 (mset wm x y (Some c)) (am_push am x y push)) as [x' [y' [l' [items [Hi E]]]]].
    exists x', y', l', (((x, y), (ch, s)) :: items). split.
    + intros q ch' s' [H|H]; [|eapply Hi; eauto]. injection H as <- <- <-. split; auto. unfold on_screen. cbn. lia.
    + rewrite E. cbn [fold_left].
      assert (Ep : put (wm, am) ((x, y), (ch, s)) = (mset wm x y (Some c), am_push am x y push)) by (unfold put; now rewrite Eo).
      unfold str in *. rewrite Ep. reflexivity.
Qed.

Lemma key_eqb_text : forall e s x a s' x' a', key_eqb e (s, x, a) (s', x', a') = true -> s_text s = s_text s'.
Proof.
  intros e s x a s' x' a' H. unfold key_eqb in H. rewrite !andb_true_iff in H.
  destruct H as [[[[Hx Ha] Hs] _] _]. unfold span_eqb in Hs. rewrite !andb_true_iff, !str_eqb_eq in Hs. tauto.
Qed.
Lemma cache_put_len : forall e c s x a v, cache_len c -> zlen v = zlen (s_text s) -> cache_len (cache_put e (s, x, a) v c).
Proof. intros. unfold cache_put, cache_len. apply Forall_firstn. constructor; auto. now apply Forall_filter. Qed.
Lemma cached_len : forall e c s x a, cache_len c ->
  exists v c', cached_characters e c s x a = (v, c') /\ zlen v = zlen (s_text s) /\ cache_len c'.
Proof.
  intros e c s x a H. unfold cached_characters. destruct (cache_find e (s, x, a) c) as [v|] eqn:E.
  - assert (Hv : zlen v = zlen (s_text s)).
    { clear - H E. induction c as [|[[[s' x'] a'] v'] c IH]; [discriminate|]. inversion H; subst. cbn [cache_find] in E.
      destruct (key_eqb _ _ _) eqn:Ek; [|auto]. injection E as <-. apply key_eqb_text in Ek. congruence. }
    exists v, (cache_put e (s, x, a) v c). split; auto. split; auto. now apply cache_put_len.
  - eexists _, _. split; [reflexivity|]. split; [apply characters_length|]. apply cache_put_len; auto. apply characters_length.
Qed.
Lemma append_nl_len : forall l l', append_nl l = Ok l' -> zlen l' = zlen l.
Proof.
  intros l l' H. unfold append_nl in H. destruct (rev l) as [|a r] eqn:E; [discriminate|]. injection H as <-.
  assert (H : List.length l = List.length (rev l)) by now rewrite rev_length.
  unfold zlen. f_equal. change (@eq nat (List.length (rev ((a ++ [NL]) :: r))) (List.length l)). rewrite rev_length, H.
  unfold str in *. rewrite E. reflexivity.
Qed.
Lemma append_nl_ok : forall l, l <> [] -> exists l', append_nl l = Ok l'.
Proof.
  intros l H. unfold append_nl. destruct (rev l) eqn:E; [|eauto]. exfalso. apply H.
  rewrite <- (rev_involutive l), E. auto.
Qed.

Lemma dims_scroll : forall w h (r : list cell) m, dims w h (r :: m) -> dims w h (m ++ [map (fun _ => ([], None, None)) (range w)]).
Proof.
  intros w h r m [H1 H2]. split.
  - rewrite app_length. cbn in *. lia.
  - apply Forall_app. inversion H2; subst. split; auto. constructor; auto. now rewrite map_length, range_length.
Qed.

Definition nonempty (s : span) : Prop := s_text s <> [].
Lemma place_line_puts : forall e w h line i x y lst st, dims w h (ws_cells st) -> cache_len (ws_cache st) ->
  exists items st' r, place_line e w h line i x y lst st = (st', r) /\ items_of w h (fun s => In s line) items /\
    (ws_wm st', ws_am st') = fold_left put items (ws_wm st, ws_am st) /\ dims w h (ws_cells st') /\ cache_len (ws_cache st') /\
    (0 < h -> Forall nonempty line -> r = Ok tt).
Proof.
  intros e w h line. induction line as [|s line IH]; intros i x y lst st D C.
  - exists [], st, (Ok tt). cbn. repeat match goal with |- _ /\ _ => split end; auto. intros q ch s [].
  - cbn [place_line]. destruct (cached_len e (ws_cache st) s true true C) as [chars [c' [-> [Hv C']]]].
    cbn [ws_wm ws_am ws_cells ws_off ws_cache]. cbv zeta.
    match goal with |- context [if (i =? lst) && ?b then ?t else ?f] => set (scrolled := if (i =? lst) && b then t else f) end.
    assert (Hsc : exists st1 r1, scrolled = (st1, r1) /\ ws_wm st1 = ws_wm st /\ ws_am st1 = ws_am st /\
      dims w h (ws_cells st1) /\ cache_len (ws_cache st1) /\
      (0 < h -> nonempty s -> exists l, r1 = Ok l)).
    { unfold scrolled. destruct (_ && _).
      - destruct (append_nl chars) as [l|ex] eqn:Ea.
        + assert (Hl : cache_len (cache_put e (s, true, true) l c')).
          { apply cache_put_len; auto. apply append_nl_len in Ea. congruence. }
          destruct (ws_cells st) as [|row cells] eqn:Ec.
          * eexists _, _. split; [reflexivity|]. cbn. repeat match goal with |- _ /\ _ => split end; auto.
            intros Hh _. exfalso. destruct D as [D _]. cbn in D. lia.
          * eexists _, _. split; [reflexivity|]. cbn. repeat match goal with |- _ /\ _ => split end; eauto.
            eapply dims_scroll; eauto.
        + eexists _, _. split; [reflexivity|]. cbn. repeat match goal with |- _ /\ _ => split end; auto.
          intros _ Hn. exfalso. destruct (append_nl_ok chars) as [l El]; [|congruence].
          intros ->. apply Hn. rewrite zlen_nil in Hv. symmetry in Hv. now apply zlen_0 in Hv.
      - eexists _, _. split; [reflexivity|]. cbn. repeat match goal with |- _ /\ _ => split end; eauto. }
    destruct Hsc as [st1 [r1 [-> [Ew [Ea [D1 [C1 Hok]]]]]]]. destruct r1 as [chars1|ex].
    + destruct (place_puts w h s chars1 0 (zlen chars) x (y - ws_off st1) lst (ws_wm st1) (ws_am st1))
        as [x' [y' [l' [items [Hi E]]]]]. rewrite E.
      destruct (IH (i + 1) x' y' l' (mkW (fst (fold_left put items (ws_wm st1, ws_am st1)))
          (snd (fold_left put items (ws_wm st1, ws_am st1))) (ws_cells st1) (ws_off st1) (ws_cache st1)) D1 C1)
        as [items2 [st2 [r2 [E2 [Hi2 [Em [D2 [C2 Hr]]]]]]]].
      exists (items ++ items2), st2, r2. split; [exact E2|]. split; [|split; [|split; [auto|split; [auto|]]]].
      * intros q ch s' H. apply in_app_iff in H. destruct H as [H|H].
        -- destruct (Hi _ _ _ H) as [H1 <-]. split; auto. now left.
        -- destruct (Hi2 _ _ _ H) as [H1 H2]. split; auto. now right.
      * rewrite Em. cbn [ws_wm ws_am]. rewrite fold_left_app, Ew, Ea. f_equal. symmetry. apply surjective_pairing.
      * intros Hh Hn. inversion Hn; subst. auto.
    + exists [], st1, (Err ex). repeat match goal with |- _ /\ _ => split end; auto.
      * intros q ch s' [].
      * cbn [fold_left]. now rewrite Ew, Ea.
      * intros Hh Hn. inversion Hn; subst. destruct (Hok Hh H1). discriminate.
Qed.

Lemma place_all_puts : forall e w h data st, dims w h (ws_cells st) -> cache_len (ws_cache st) ->
  exists items st' r, place_all e w h data st = (st', r) /\
    items_of w h (fun s => exists entry, In entry data /\ In s (snd entry)) items /\
    (ws_wm st', ws_am st') = fold_left put items (ws_wm st, ws_am st) /\ dims w h (ws_cells st') /\ cache_len (ws_cache st') /\
    (0 < h -> Forall (fun entry => Forall nonempty (snd entry)) data -> r = Ok tt).
Proof.
  intros e w h data. induction data as [|[[x y] line] data IH]; intros st D C.
  - exists [], st, (Ok tt). cbn. repeat match goal with |- _ /\ _ => split end; auto. intros q ch s [].
  - cbn [place_all]. destruct (place_line_puts e w h line 0 x y (zlen line - 1) st D C) as [i1 [s1 [r1 [-> [H1 [E1 [D1 [C1 Hr1]]]]]]]].
    assert (Hsub : items_of w h (fun s => exists entry, In entry (((x, y), line) :: data) /\ In s (snd entry)) i1).
    { intros q ch s H. destruct (H1 _ _ _ H) as [H2 H3]. split; auto. exists ((x, y), line). split; auto. now left. }
    destruct r1 as [[]|ex].
    + destruct (IH s1 D1 C1) as [i2 [s2 [r2 [-> [H2 [E2 [D2 [C2 Hr2]]]]]]]]. exists (i1 ++ i2), s2, r2.
      split; auto. split; [|split; [|split; [auto|split; [auto|]]]].
      * intros q ch s H. apply in_app_iff in H. destruct H as [H|H]; [now apply (Hsub q ch)|].
        destruct (H2 _ _ _ H) as [H3 [en [H4 H5]]]. split; auto. exists en. split; auto. now right.
      * now rewrite E2, E1, fold_left_app.
      * intros Hh Hn. inversion Hn; subst. auto.
    + exists i1, s1, (Err ex). repeat match goal with |- _ /\ _ => split end; auto.
      intros Hh Hn. inversion Hn; subst. cbn [snd] in *. specialize (Hr1 Hh H2). discriminate.
Qed.

(** * Committing *)
Lemma commit_jobs_dims : forall e tb w h l cells buf n cells' buf' n' ex, dims w h cells ->
  commit_jobs e tb l cells buf n = (cells', buf', n', ex) ->
  dims w h cells' /\ (NoDup (map fst buf) -> NoDup (map fst buf')).
Proof.
  intros e tb w h l. induction l as [|[[[x y] [c|]] st] l IH]; intros cells buf n cells' buf' n' ex D H; cbn [commit_jobs] in H.
  - injection H as <- <- _ _. auto.
  - destruct (finish_cell tb c st) as [[new nl]|x']; [|injection H as <- <- _ _; auto].
    destruct (mget cells x y) as [old|]; [|injection H as <- <- _ _; auto].
    destruct (cell_eqb new old); [eauto|].
    apply IH in H; [|now apply dims_mset]. destruct H as [H1 H2]. split; auto. intro Hn. apply H2. now apply buf_set_NoDup.
  - eauto.
Qed.
Lemma commit_jobs_succeed : forall e tb w h l cells buf n, dims w h cells ->
  Forall (fun j => on_screen w h (job_pos j) /\ match snd (fst j) with None => True | Some c => exists r, finish_cell tb c (snd j) = Ok r end) l ->
  exists cells' buf' n', commit_jobs e tb l cells buf n = (cells', buf', n', None).
Proof.
  intros e tb w h l. induction l as [|[[[x y] [c|]] st] l IH]; intros cells buf n D H; cbn [commit_jobs]; [eauto| |].
  - inversion H as [|? ? [H1 H2] H3]; subst. cbn [fst snd job_pos] in *. destruct H2 as [[new nl] ->].
    destruct (dims_get_some _ w h cells x y D) as [old ->]; [apply H1|apply H1|].
    destruct (cell_eqb new old); [eauto|]. apply IH; auto. now apply dims_mset.
  - inversion H; subst. eauto.
Qed.

Lemma dims_shaped : forall s, dims (sc_w s) (sc_h s) (sc_cells s) -> shaped s.
Proof.
  intros s [H1 H2]. split.
  - unfold zlen. lia.
  - eapply Forall_impl; [|exact H2]. cbn. intros r Hr. unfold zlen. lia.
Qed.

Lemma write_bulk_shape : forall e c s data tb force, shaped s -> cache_len c ->
  exists s' c' r, write_bulk e c s data tb force = (s', c', r) /\ shaped s' /\ sc_w s' = sc_w s /\ sc_h s' = sc_h s /\
    sc_cursor s' = sc_cursor s /\ cache_len c' /\ (keyed s -> keyed s') /\
    (0 < sc_h s -> fine tb -> fine_data data -> Forall (fun entry => Forall nonempty (snd entry)) data -> exists n, r = Ok n).
Proof.
  intros e c s data tb force Hs C. unfold write_bulk.
  set (w := sc_w s). set (h := sc_h s).
  set (st0 := mkW (blank_matrix w h None) (blank_matrix w h []) (sc_cells s) (sc_off s) c).
  assert (D0 : dims w h (ws_cells st0)) by (apply shaped_dims in Hs; exact Hs).
  destruct (place_all_puts e w h data st0 D0 C) as [items [st [r [E [Hi [Em [D [C' Hr]]]]]]]]. rewrite E.
  destruct r as [u|ex].
  - rewrite commit_jobs_eq. destruct (commit_jobs e tb (jobs (ws_wm st) (ws_am st) 0) (ws_cells st) (sc_buf s) 0) as [[[cells' buf'] n'] ex] eqn:Ec.
    destruct (commit_jobs_dims _ _ w h _ _ _ _ _ _ _ _ D Ec) as [D' Hk].
    eexists _, _, _. split; [reflexivity|]. repeat match goal with |- _ /\ _ => split end; auto.
    { apply dims_shaped. exact D'. }
    intros Hh Ht Hf _.
    assert (Hd : dims w h (fst (fold_left put items (ws_wm st0, ws_am st0))) /\ dims w h (snd (fold_left put items (ws_wm st0, ws_am st0)))).
    { apply fold_put_dims; cbn; apply dims_blank. }
    rewrite <- Em in Hd. cbn [fst snd] in Hd. destruct Hd as [Dw Da].
    destruct (commit_jobs_succeed e tb w h (jobs (ws_wm st) (ws_am st) 0) (ws_cells st) (sc_buf s) 0 D) as [c2 [b2 [n2 E2]]].
    { rewrite (jobs_positions w h) by auto. apply Forall_forall. intros j Hj. apply in_map_iff in Hj.
      destruct Hj as [q [<- Hq]]. apply positions_in in Hq. unfold job_at. cbn [job_pos fst snd]. split; auto.
      assert (Hst : mstate (ws_wm st, ws_am st) q = Some (fold_left cstep (covering q items) (None, []))).
      { rewrite Em, (fold_put_state w h); auto; [|apply dims_blank|apply dims_blank|intros q0 [ch0 s0] H0; apply (Hi q0 ch0 s0 H0)].
        unfold mstate. cbn [fst snd ws_wm ws_am st0].
        destruct Hq. rewrite !mget_blank by lia. reflexivity. }
      unfold mstate in Hst. cbn [fst snd] in Hst. destruct (mget (ws_wm st) (fst q) (snd q)) as [c0|]; [|exact I].
      destruct (mget (ws_am st) (fst q) (snd q)) as [l0|]; [|discriminate]. injection Hst as Hst.
      assert (Hw : wfine (c0, l0)).
      { rewrite Hst. apply fold_cstep_fine; [split; cbn; auto|]. apply Forall_forall. intros [ch sp] Hin.
        apply in_covering in Hin. destruct (Hi _ _ _ Hin) as [_ [en [H1 H2]]]. cbn [snd].
        unfold fine_data in Hf. rewrite Forall_forall in Hf. specialize (Hf _ H1). rewrite Forall_forall in Hf. now apply Hf. }
      destruct Hw as [Hw1 Hw2]. cbn [fst snd] in *. destruct c0 as [[[[t fg] bg] bl]|]; [|exact I]. destruct Hw2 as [Hw2 Hw3].
      destruct (finish_cell_ok tb t fg bg bl l0 Ht Hw1 Hw2 Hw3) as [f [b [-> _]]]. eauto. }
    rewrite E2 in Ec. injection Ec as _ _ _ <-. eauto.
  - eexists _, _, _. split; [reflexivity|]. repeat match goal with |- _ /\ _ => split end; auto.
    { apply dims_shaped. exact D. }
    intros Hh _ _ Hn. specialize (Hr Hh Hn). discriminate.
Qed.

(** * Resizing *)
Lemma overlay_row_nth : forall new old k, nth_error (overlay_row new old) k =
  match nth_error new k with None => None | Some n => match nth_error old k with Some o => Some o | None => Some n end end.
Proof.
  induction new as [|n new IH]; intros [|o old] k; cbn [overlay_row].
  - now destruct k.
  - now destruct k.
  - destruct k; cbn; auto. now destruct (nth_error new k).
  - destruct k; cbn; auto.
Qed.
Lemma overlay_nth : forall new old k, nth_error (overlay new old) k =
  match nth_error new k with None => None | Some n => match nth_error old k with Some o => Some (overlay_row n o) | None => Some n end end.
Proof.
  induction new as [|n new IH]; intros [|o old] k; cbn [overlay].
  - now destruct k.
  - now destruct k.
  - destruct k; cbn; auto. now destruct (nth_error new k).
  - destruct k; cbn; auto.
Qed.
Lemma mget_overlay : forall new old x y, mget (overlay new old) x y =
  match mget new x y with None => None | Some n => match mget old x y with Some o => Some o | None => Some n end end.
Proof.
  intros new old x y. unfold mget. rewrite overlay_nth. destruct (nth_error new (Z.to_nat y)) as [nr|]; auto.
  destruct (nth_error old (Z.to_nat y)) as [o|]; [apply overlay_row_nth|]. now destruct (nth_error nr (Z.to_nat x)).
Qed.
Lemma overlay_row_length : forall new old, List.length (overlay_row new old) = List.length new.
Proof. induction new as [|n new IH]; intros [|o old]; cbn; auto. Qed.
Lemma overlay_dims : forall w h new old, dims w h new -> dims w h (overlay new old).
Proof.
  intros w h new old [H1 H2]. split.
  - rewrite <- H1. clear. revert old. induction new as [|n new IH]; intros [|o old]; cbn; auto.
  - clear H1. revert old. induction H2 as [|r new Hr H2 IH]; intros [|o old]; cbn; auto.
    constructor; auto. now rewrite overlay_row_length.
Qed.
Definition fill_cells (w h : Z) (fill : str) : list (list cell) := map (fun _ => fill_row w fill) (range h).
Lemma fill_cells_blank : forall w h fill, fill_cells w h fill = blank_matrix w h (fill, None, None).
Proof. reflexivity. Qed.

Lemma resize_shape : forall s w h fill keep, shaped (resize s (w, h) fill keep).
Proof.
  intros. apply dims_shaped. cbn [resize sc_w sc_h sc_cells]. fold (fill_cells w h fill). rewrite fill_cells_blank.
  destruct keep; [apply overlay_dims|]; apply dims_blank.
Qed.
Lemma resize_cell : forall s w h fill keep q, on_screen w h q ->
  cell_at (resize s (w, h) fill keep) q =
  Some (match (if keep then cell_at s q else None) with Some c => c | None => (fill, None, None) end).
Proof.
  intros s w h fill keep [x y] [Hx Hy]. cbn [fst snd] in *. unfold cell_at. cbn [fst snd resize sc_cells].
  rewrite (proj2 (Z.leb_le 0 x)), (proj2 (Z.leb_le 0 y)) by lia. cbn [andb].
  fold (fill_cells w h fill). rewrite fill_cells_blank. destruct keep.
  - rewrite mget_overlay, mget_blank by lia. now destruct (mget (sc_cells s) x y).
  - now rewrite mget_blank by lia.
Qed.

Lemma fill_buffer_positions : forall w h fill d,
  fill_buffer w h fill d = fold_left (fun d q => buf_set q fill d) (positions w h) d.
Proof.
  intros w h fill d. unfold fill_buffer, positions. generalize (range h) as ys. intro ys. revert d.
  induction ys as [|y ys IH]; intro d; cbn [fold_left flat_map]; auto.
  rewrite fold_left_app, IH. f_equal. generalize (range w) as xs. intro xs. revert d.
  induction xs as [|x xs IHx]; intro d; cbn [fold_left map]; auto.
Qed.
Lemma fold_set_get : forall fill l d q, buf_get q (fold_left (fun d q => buf_set q fill d) l d) =
  if existsb (pos_eqb q) l then Some fill else buf_get q d.
Proof.
  intros fill l. induction l as [|a l IH]; intros d q; cbn [fold_left existsb]; auto.
  rewrite IH, buf_get_set, (pos_eqb_sym q a). destruct (existsb (pos_eqb q) l); [now rewrite orb_true_r|].
  rewrite orb_false_r. reflexivity.
Qed.
Lemma fold_set_NoDup : forall fill l d, NoDup (map fst d) -> NoDup (map fst (fold_left (fun d q => buf_set q fill d) l d)).
Proof. intros fill l. induction l as [|a l IH]; intros d H; cbn; auto. apply IH. now apply buf_set_NoDup. Qed.
Lemma resize_pending : forall s w h fill keep q, pending (resize s (w, h) fill keep) q =
  if (0 <=? fst q) && (fst q <? w) && (0 <=? snd q) && (snd q <? h) then Some fill else pending s q.
Proof.
  intros s w h fill keep q. unfold pending. cbn [resize sc_buf]. rewrite fill_buffer_positions, fold_set_get.
  destruct (existsb (pos_eqb q) (positions w h)) eqn:E.
  - apply existsb_exists in E. destruct E as [q' [Hq E]]. apply pos_eqb_iff in E. subst q'. apply positions_in in Hq.
    destruct Hq. rewrite (proj2 (Z.leb_le 0 (fst q))), (proj2 (Z.leb_le 0 (snd q))), (proj2 (Z.ltb_lt (fst q) w)), (proj2 (Z.ltb_lt (snd q) h)) by lia.
    auto.
  - destruct (_ && _) eqn:Eb; auto. rewrite !andb_true_iff, !Z.leb_le, !Z.ltb_lt in Eb.
    assert (existsb (pos_eqb q) (positions w h) = true); [|congruence].
    apply existsb_exists. exists q. split; [|apply pos_eqb_refl]. apply positions_in. unfold on_screen. lia.
Qed.
Lemma resize_keyed : forall s w h fill keep, keyed s -> keyed (resize s (w, h) fill keep).
Proof. intros s w h fill keep H. unfold keyed in *. cbn [resize sc_buf]. rewrite fill_buffer_positions. now apply fold_set_NoDup. Qed.

(** * Histories *)
Lemma step_shape : forall e s c o, shaped s -> cache_len c -> keyed s ->
  let s' := fst (step e (s, c) o) in
  shaped s' /\ cache_len (snd (step e (s, c) o)) /\ keyed s' /\ (sc_w s', sc_h s') = size_after (sc_w s, sc_h s) o.
Proof.
  intros e s c o Hs C Hk. destruct o as [spans cursor tb force|data tb force|sp x a|fill|[w h] fill keep|origin redraw];
    cbn [step size_after].
  - destruct cursor as [p|]; cbn [write]; [|cbn; auto].
    destruct (write_bulk_shape e c s [(p, spans)] tb force Hs C) as [s' [c' [r [-> [H1 [H2 [H3 [_ [H4 [H5 _]]]]]]]]]].
    cbn. rewrite H2, H3. auto.
  - destruct (write_bulk_shape e c s data tb force Hs C) as [s' [c' [r [-> [H1 [H2 [H3 [_ [H4 [H5 _]]]]]]]]]].
    cbn. rewrite H2, H3. auto.
  - cbn [fst snd]. destruct (cached_len e c sp x a C) as [v [c' [-> [_ H]]]]. auto.
  - cbn [fst snd]. unfold clear. repeat match goal with |- _ /\ _ => split end; auto.
    + pose proof (resize_shape s (sc_w s) (sc_h s) fill false) as H. exact H.
    + pose proof (resize_keyed s (sc_w s) (sc_h s) fill false Hk) as H. exact H.
  - cbn [fst snd]. repeat match goal with |- _ /\ _ => split end; auto; [apply resize_shape|now apply resize_keyed].
  - cbn [fst snd]. unfold render. destruct origin. destruct redraw; cbn; repeat match goal with |- _ /\ _ => split end; auto; constructor.
Qed.
Lemma run_shape : forall e ops s c, shaped s -> cache_len c -> keyed s ->
  let s' := fst (run e (s, c) ops) in
  shaped s' /\ cache_len (snd (run e (s, c) ops)) /\ keyed s' /\ (sc_w s', sc_h s') = fold_left size_after ops (sc_w s, sc_h s).
Proof.
  intros e ops. induction ops as [|o ops IH]; intros s c Hs C Hk; [cbn; auto|]. unfold run in *. cbn [fold_left].
  destruct (step_shape e s c o Hs C Hk) as [H1 [H2 [H3 H4]]].
  destruct (step e (s, c) o) as [s1 c1]. cbn [fst snd] in *. rewrite <- H4. apply IH; auto.
Qed.
Lemma new_screen_shape : forall w h cursor fill, shaped (new_screen w h cursor fill) /\ keyed (new_screen w h cursor fill).
Proof. intros. unfold new_screen. split; [apply resize_shape|]. apply resize_keyed. constructor. Qed.
