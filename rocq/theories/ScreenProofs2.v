(** Proofs about write_bulk without scrolling: cell by cell. *)
From Coq Require Import ZArith List Bool Lia Sorting.Sorted Permutation.
From Verif Require Import PyBase PyLemmas F64 SpaceModel ColorModel SpanModel ScreenModel ScreenSpec ScreenProofs.
Open Scope Z_scope.

Lemma place_all_calm : forall e w h data st, cache_ok e (ws_cache st) -> ws_off st = 0 ->
  Forall (calm_entry w h) data ->
  exists c, place_all e w h data st =
    (after st (fold_left put (laid_all e w h data) (ws_wm st, ws_am st)) c, Ok tt) /\ cache_ok e c.
Proof.
  intros e w h data. induction data as [|[[x y] line] data IH]; intros st Hc Ho H.
  - exists (ws_cache st). destruct st; auto.
  - inversion H as [|? ? H0 H']; subst. unfold calm_entry in H0. destruct H0 as [Hy [Hn Hl]]. cbn [place_all].
    assert (E : exists c, place_line e w h line 0 x y (zlen line - 1) st =
      (after st (fold_left put (laid e w h ((x, y), line)) (ws_wm st, ws_am st)) c, Ok tt) /\ cache_ok e c).
    { unfold laid. destruct ((0 <=? x) && (x <? w) && (0 <=? y) && (y <? h)) eqn:Eb.
      - rewrite !andb_true_iff, !Z.leb_le, !Z.ltb_lt in Eb. destruct Eb as [[[H1 H2] H3] H4].
        apply place_line_on; auto; try lia. split; auto. destruct line as [|s [|t line]]; auto.
      - apply place_line_off; auto. rewrite !andb_false_iff, !Z.leb_gt, !Z.ltb_ge in Eb. lia. }
    destruct E as [c [-> Hc']].
    destruct (IH (after st (fold_left put (laid e w h ((x, y), line)) (ws_wm st, ws_am st)) c)) as [c' [-> Hc'']]; auto.
    exists c'. split; auto. f_equal. unfold after. cbn [ws_wm ws_am ws_cells ws_off].
    unfold laid_all. cbn [flat_map]. rewrite fold_left_app, <- surjective_pairing. reflexivity.
Qed.

Lemma laid_inside : forall e w h data q a, In (q, a) (laid_all e w h data) -> on_screen w h q.
Proof.
  intros e w h data q a H. apply in_flat_map in H. destruct H as [[[x y] line] [_ H]].
  unfold laid in H. destruct (_ && _) eqn:Eb; [|contradiction].
  rewrite !andb_true_iff, !Z.leb_le, !Z.ltb_lt in Eb.
  apply number_inside in H; auto; nia.
Qed.

(** * Cell by cell *)
Definition cstate := (option wcell * list color)%type.
Definition cstep (st : cstate) (i : str * span) : cstate :=
  let '(c, push) := over (snd i) (fst i) (fst st) in (Some c, snd st ++ opt_list push).

Definition mstate (m : wmatrix * amatrix) (q : pos) : option cstate :=
  match mget (fst m) (fst q) (snd q), mget (snd m) (fst q) (snd q) with
  | Some c, Some st => Some (c, st)
  | _, _ => None
  end.

Lemma put_dims : forall w h m i, dims w h (fst m) -> dims w h (snd m) -> dims w h (fst (put m i)) /\ dims w h (snd (put m i)).
Proof.
  intros w h [wm am] [[x y] [ch s]] H1 H2. cbn [fst snd put] in *.
  destruct (over s ch _) as [c push]. cbn [fst snd]. split; [now apply dims_mset|now apply dims_push].
Qed.
Lemma fold_put_dims : forall w h items m, dims w h (fst m) -> dims w h (snd m) ->
  dims w h (fst (fold_left put items m)) /\ dims w h (snd (fold_left put items m)).
Proof.
  intros w h items. induction items as [|i items IH]; intros m H1 H2; cbn; auto.
  destruct (put_dims w h m i H1 H2). auto.
Qed.
Lemma mstate_put : forall w h m q' i q, dims w h (fst m) -> dims w h (snd m) -> on_screen w h q' -> on_screen w h q ->
  mstate (put m (q', i)) q = if pos_eqb q' q then option_map (fun st => cstep st i) (mstate m q) else mstate m q.
Proof.
  intros w h [wm am] [x' y'] [ch s] [x y] D1 D2 [Hx' Hy'] [Hx Hy]. cbn [fst snd] in *.
  destruct (dims_get_some _ w h wm x y D1 Hx Hy) as [c Ec].
  destruct (dims_get_some _ w h am x y D2 Hx Hy) as [st Est].
  unfold put. destruct (over s ch _) as [c' push] eqn:Eo.
  unfold mstate. cbn [fst snd]. rewrite mget_mset, mget_push by lia. rewrite Ec, Est.
  unfold pos_eqb. cbn [fst snd]. rewrite (Z.eqb_sym x x'), (Z.eqb_sym y y').
  destruct (x' =? x) eqn:E1; [|auto]. destruct (y' =? y) eqn:E2; [|auto].
  apply Z.eqb_eq in E1, E2. subst x' y'. cbn [andb option_map]. unfold cstep. cbn [fst snd].
  rewrite Ec in Eo. rewrite Eo. auto.
Qed.
Lemma fold_put_state : forall w h items m q, dims w h (fst m) -> dims w h (snd m) ->
  (forall q' a, In (q', a) items -> on_screen w h q') -> on_screen w h q ->
  mstate (fold_left put items m) q = option_map (fun st => fold_left cstep (covering q items) st) (mstate m q).
Proof.
  intros w h items. induction items as [|[q' i] items IH]; intros m q D1 D2 Hi Hq.
  - cbn. now destruct (mstate m q).
  - cbn [fold_left]. destruct (put_dims w h m (q', i) D1 D2) as [D1' D2'].
    rewrite IH; auto; [|intros; eapply Hi; right; eauto].
    rewrite (mstate_put w h) by (auto; eapply Hi; left; eauto).
    unfold covering. cbn [filter fst]. destruct (pos_eqb q' q); auto.
    cbn [map fold_left snd]. now destruct (mstate m q).
Qed.

(** * The commit loop *)
Definition job := (pos * option wcell * list color)%type.
Fixpoint row_jobs (row : list (option wcell)) (arow : list (list color)) (x y : Z) : list job :=
  match row with
  | [] => []
  | c :: rest => ((x, y), c, hd [] arow) :: row_jobs rest (tl arow) (x + 1) y
  end.
Fixpoint jobs (wm : wmatrix) (am : amatrix) (y : Z) : list job :=
  match wm with
  | [] => []
  | row :: rest => row_jobs row (hd [] am) 0 y ++ jobs rest (tl am) (y + 1)
  end.
Fixpoint commit_jobs (e : env) (tb : color) (l : list job) (cells : list (list cell)) (buf : buffer) (n : Z)
  : list (list cell) * buffer * Z * option exn :=
  match l with
  | [] => (cells, buf, n, None)
  | (_, None, _) :: rest => commit_jobs e tb rest cells buf n
  | ((x, y), Some c, st) :: rest =>
      match finish_cell tb c st with
      | Err ex => (cells, buf, n, Some ex)
      | Ok (new, nl) =>
          match mget cells x y with
          | None => (cells, buf, n, Some IndexError)
          | Some old =>
              if cell_eqb new old then commit_jobs e tb rest cells buf n
              else commit_jobs e tb rest (mset cells x y new) (buf_set (x, y) (cell_entry e new nl) buf) (n + 1)
          end
      end
  end.

Lemma commit_row_jobs : forall e tb row arow x y l cells buf n,
  commit_jobs e tb (row_jobs row arow x y ++ l) cells buf n =
  match commit_row e tb row arow x y cells buf n with
  | (cells, buf, n, Some ex) => (cells, buf, n, Some ex)
  | (cells, buf, n, None) => commit_jobs e tb l cells buf n
  end.
Proof.
  intros e tb row. induction row as [|c row IH]; intros arow x y l cells buf n; auto.
  cbn [row_jobs app commit_jobs commit_row]. destruct c as [c|]; [|apply IH].
  destruct (finish_cell tb c (hd [] arow)) as [[new nl]|ex]; auto.
  destruct (mget cells x y) as [old|]; auto.
  destruct (cell_eqb new old); apply IH.
Qed.
Lemma commit_jobs_eq : forall e tb wm am y cells buf n,
  commit e tb wm am y cells buf n = commit_jobs e tb (jobs wm am y) cells buf n.
Proof.
  intros e tb wm. induction wm as [|row wm IH]; intros am y cells buf n; auto.
  cbn [commit jobs]. rewrite commit_row_jobs.
  destruct (commit_row e tb row (hd [] am) 0 y cells buf n) as [[[cells' buf'] n'] [ex|]]; auto.
Qed.

(** the positions, row by row *)
Definition positions (w h : Z) : list pos := flat_map (fun y => map (fun x => (x, y)) (range w)) (range h).
Definition job_at (wm : wmatrix) (am : amatrix) (q : pos) : job :=
  (q, match mget wm (fst q) (snd q) with Some c => c | None => None end,
   match mget am (fst q) (snd q) with Some l => l | None => [] end).

Lemma range_from : forall n k, map (fun i => k + i) (map Z.of_nat (seq 0 n)) = map (fun i => k + Z.of_nat i) (seq 0 n).
Proof. intros. now rewrite map_map. Qed.
Lemma row_jobs_spec : forall row arow x y,
  row_jobs row arow x y =
  map (fun k => ((x + Z.of_nat k, y), nth k row None, nth k arow [])) (seq 0 (List.length row)).
Proof.
  induction row as [|c row IH]; intros arow x y; auto.
  cbn [row_jobs List.length seq map]. f_equal.
  - rewrite Z.add_0_r. destruct arow; auto.
  - rewrite IH. rewrite <- seq_shift, map_map. apply map_ext. intro k. f_equal.
    + f_equal. f_equal. lia. 
    + destruct arow; cbn; auto. now destruct k.
Qed.
Lemma jobs_spec : forall wm am y,
  jobs wm am y =
  flat_map (fun k => row_jobs (nth k wm []) (nth k am []) 0 (y + Z.of_nat k)) (seq 0 (List.length wm)).
Proof.
  induction wm as [|row wm IH]; intros am y; auto.
  cbn [jobs List.length seq flat_map]. f_equal.
  - rewrite Z.add_0_r. destruct am; auto.
  - rewrite IH. rewrite <- seq_shift. rewrite !flat_map_concat_map, map_map. f_equal. apply map_ext. intro k.
    replace (y + 1 + Z.of_nat k) with (y + Z.of_nat (S k)) by lia.
    cbn [nth]. f_equal. destruct am; cbn; auto. now destruct k.
Qed.
Lemma jobs_positions : forall w h wm am, dims w h wm -> dims w h am ->
  jobs wm am 0 = map (job_at wm am) (positions w h).
Proof.
  intros w h wm am [L1 R1] [L2 R2]. rewrite jobs_spec. unfold positions.
  rewrite L1. unfold range at 2. rewrite !flat_map_concat_map, map_map, concat_map, map_map. f_equal.
  apply map_ext_in. intros k Hk. apply in_seq in Hk.
  destruct (nth_error wm k) as [row|] eqn:E; [|apply nth_error_None in E; lia].
  destruct (nth_error am k) as [arow|] eqn:E2; [|apply nth_error_None in E2; lia].
  rewrite (nth_error_nth wm k _ E), (nth_error_nth am k _ E2).
  assert (Hr : List.length row = Z.to_nat w) by (eapply Forall_forall in R1; eauto; eapply nth_error_In; eauto).
  assert (Hr2 : List.length arow = Z.to_nat w) by (eapply Forall_forall in R2; eauto; eapply nth_error_In; eauto).
  rewrite row_jobs_spec, Hr. unfold range. rewrite !map_map. apply map_ext_in. intros j Hj. apply in_seq in Hj.
  unfold job_at, mget. cbn [fst snd]. rewrite !Nat2Z.id, E, E2.
  rewrite (nth_error_nth' row None) by lia. rewrite (nth_error_nth' arow []) by lia.
  reflexivity.
Qed.

(** * The change buffer *)
Lemma buf_get_set : forall k v d k', buf_get k' (buf_set k v d) = if pos_eqb k k' then Some v else buf_get k' d.
Proof.
  induction d as [|[j u] d IH]; intros k'; cbn [buf_set buf_get]; auto.
  destruct (pos_eqb j k) eqn:E; cbn [buf_get].
  - apply pos_eqb_iff in E. subst j. now destruct (pos_eqb k k').
  - destruct (pos_eqb j k') eqn:E2.
    + apply pos_eqb_iff in E2. subst j. rewrite pos_eqb_sym, E. auto.
    + apply IH.
Qed.
Lemma buf_set_keys : forall k v d j, In j (map fst (buf_set k v d)) <-> j = k \/ In j (map fst d).
Proof.
  induction d as [|[i u] d IH]; intros j; cbn; [intuition|].
  destruct (pos_eqb i k) eqn:E; cbn.
  - apply pos_eqb_iff in E. subst i. intuition.
  - rewrite IH. intuition.
Qed.
Lemma buf_set_NoDup : forall k v d, NoDup (map fst d) -> NoDup (map fst (buf_set k v d)).
Proof.
  induction d as [|[i u] d IH]; intros H; cbn; [constructor; [auto|constructor]|].
  cbn in H. inversion H; subst. destruct (pos_eqb i k) eqn:E; cbn.
  - auto.
  - constructor; auto. rewrite buf_set_keys. intros [->|Hi]; [|auto]. now rewrite pos_eqb_refl in E.
Qed.
Lemma buf_get_in : forall d k v, NoDup (map fst d) -> (buf_get k d = Some v <-> In (k, v) d).
Proof.
  induction d as [|[i u] d IH]; intros k v H; cbn; [split; [discriminate|tauto]|].
  cbn in H. inversion H; subst. destruct (pos_eqb i k) eqn:E.
  - apply pos_eqb_iff in E. subst i. split.
    + intro G. injection G as ->. auto.
    + intros [G|G]; [congruence|]. exfalso. apply H2. apply in_map_iff. now exists (k, v).
  - rewrite IH by auto. split; auto. intros [G|G]; auto. injection G as -> ->. now rewrite pos_eqb_refl in E.
Qed.
Lemma buf_get_none : forall d k, buf_get k d = None <-> ~ In k (map fst d).
Proof.
  induction d as [|[i u] d IH]; intros k; cbn; [tauto|].
  destruct (pos_eqb i k) eqn:E.
  - apply pos_eqb_iff in E. split; [discriminate|]. intro H. exfalso. auto.
  - rewrite IH. split; [|tauto]. intros H [->|G]; auto. now rewrite pos_eqb_refl in E.
Qed.

(** * The effect of the commit loop *)
Definition job_pos (j : job) : pos := fst (fst j).
Section Commit.
Variable (e : env) (tb : color) (f : pos -> option (cell * bool)).

Definition changes (cells : list (list cell)) (q : pos) : bool :=
  match f q, mget cells (fst q) (snd q) with
  | Some (new, _), Some old => negb (cell_eqb new old)
  | _, _ => false
  end.
Definition job_ok (j : job) : Prop :=
  let '(q, c, st) := j in
  match c with
  | None => f q = None
  | Some c => exists r, finish_cell tb c st = Ok r /\ f q = Some r
  end.
Definition log_change (b : buffer) (q : pos) : buffer :=
  match f q with Some (new, nl) => buf_set q (cell_entry e new nl) b | None => b end.

Lemma commit_effect : forall w h l cells buf n, dims w h cells -> Forall job_ok l ->
  let qs := map job_pos l in
  NoDup qs -> (forall q, In q qs -> on_screen w h q) ->
  exists cells', commit_jobs e tb l cells buf n =
    (cells', fold_left log_change (filter (changes cells) qs) buf, n + zlen (filter (changes cells) qs), None) /\
    dims w h cells' /\
    forall q, on_screen w h q -> mget cells' (fst q) (snd q) =
      if existsb (pos_eqb q) qs && changes cells q then option_map fst (f q) else mget cells (fst q) (snd q).
Proof.
  intros w h l. induction l as [|[[[x y] c] st] l IH]; intros cells buf n D Hok qs Hnd Hin.
  - exists cells. cbn. rewrite zlen_nil, Z.add_0_r. auto.
  - inversion Hok as [|? ? Hj Hok']; subst. unfold qs in *. cbn [map] in Hnd, Hin |- *. change (job_pos (x, y, c, st)) with (x, y) in Hnd, Hin |- *.
    inversion Hnd as [|? ? Hni Hnd']; subst.
    assert (Hxy : on_screen w h (x, y)) by (apply Hin; now left).
    assert (Hin' : forall q, In q (map job_pos l) -> on_screen w h q) by (intros; apply Hin; now right).
    destruct (dims_get_some _ w h cells x y D (proj1 Hxy) (proj2 Hxy)) as [old Eold].
    cbn [commit_jobs]. unfold job_ok in Hj. destruct c as [c|].
    + destruct Hj as [[new nl] [-> Ef]]. rewrite Eold.
      cbn [filter existsb].
      assert (Ec : changes cells (x, y) = negb (cell_eqb new old)) by (unfold changes; cbn [fst snd]; now rewrite Ef, Eold).
      rewrite Ec. destruct (cell_eqb new old) eqn:Eq; cbn [negb].
      * destruct (IH cells buf n D Hok' Hnd' Hin') as [cells' [-> [D' G]]]. exists cells'.
        split; auto. split; auto. intros q Hq. rewrite G by auto.
        destruct (pos_eqb q (x, y)) eqn:E; [|auto]. apply pos_eqb_iff in E. subst q. rewrite Ec.
        now rewrite !andb_false_r.
      * set (cells1 := mset cells x y new). assert (D1 : dims w h cells1) by now apply dims_mset.
        assert (Hother : forall q, on_screen w h q -> q <> (x, y) -> mget cells1 (fst q) (snd q) = mget cells (fst q) (snd q)).
        { intros [x' y'] [H1 H2] Hne. cbn [fst snd] in *. destruct Hxy as [H3 H4]. cbn [fst snd] in *.
          unfold cells1. rewrite mget_mset by lia.
          destruct (Z.eqb_spec x' x); [|auto]. destruct (Z.eqb_spec y' y); [|auto]. congruence. }
        assert (Ech : forall q, In q (map job_pos l) -> changes cells1 q = changes cells q).
        { intros q Hq. unfold changes. rewrite Hother; auto. intros ->. auto. }
        destruct (IH cells1 (buf_set (x, y) (cell_entry e new nl) buf) (n + 1) D1 Hok' Hnd' Hin') as [cells' [-> [D' G]]].
        exists cells'. rewrite (filter_ext_in _ _ _ Ech).
        split; [|split; auto].
        -- rewrite zlen_cons. cbn [fold_left]. unfold log_change at 3. rewrite Ef.
           do 2 f_equal. lia.
        -- intros q Hq. rewrite G by auto. destruct (pos_eqb q (x, y)) eqn:E.
           ++ apply pos_eqb_iff in E. subst q. cbn [orb]. rewrite Ec, Ef. cbn [negb andb option_map fst].
              replace (existsb (pos_eqb (x, y)) (map job_pos l)) with false.
              ** cbn [andb]. unfold cells1. cbn [fst snd]. destruct Hxy. cbn [fst snd] in *.
                 rewrite mget_mset by lia. rewrite !Z.eqb_refl, Eold. auto.
              ** symmetry. apply not_true_iff_false. intro E. apply existsb_exists in E.
                 destruct E as [q [Hi Hqe]]. apply pos_eqb_iff in Hqe. subst q. auto.
           ++ cbn [orb]. destruct (existsb (pos_eqb q) _) eqn:Ex; cbn [andb].
              ** apply existsb_exists in Ex. destruct Ex as [q' [Hi Hqe]]. apply pos_eqb_iff in Hqe. subst q'.
                 rewrite Ech by auto. rewrite Hother; auto. intros ->. auto.
              ** apply Hother; auto. intros ->. now rewrite pos_eqb_refl in E.
    + cbn [filter existsb].
      assert (Ec : changes cells (x, y) = false) by (unfold changes; now rewrite Hj).
      rewrite Ec.
      destruct (IH cells buf n D Hok' Hnd' Hin') as [cells' [-> [D' G]]]. exists cells'.
      split; auto. split; auto. intros q Hq. rewrite G by auto.
      destruct (pos_eqb q (x, y)) eqn:E; [|auto]. apply pos_eqb_iff in E. subst q. rewrite Ec.
      now rewrite !andb_false_r.
Qed.

Lemma log_change_get : forall qs buf q, NoDup qs -> (forall q, In q qs -> f q <> None) ->
  buf_get q (fold_left log_change qs buf) =
  if existsb (pos_eqb q) qs then option_map (fun r => cell_entry e (fst r) (snd r)) (f q) else buf_get q buf.
Proof.
  induction qs as [|q0 qs IH]; intros buf q Hn Hf; cbn [fold_left existsb]; auto.
  inversion Hn as [|? ? Hi Hn']; subst.
  rewrite IH; auto; [|intros; apply Hf; now right].
  destruct (existsb (pos_eqb q) qs) eqn:Ex; [now rewrite orb_true_r|]. rewrite orb_false_r.
  unfold log_change. specialize (Hf q0 (or_introl eq_refl)). destruct (f q0) as [[new nl]|] eqn:E0; [|congruence].
  rewrite buf_get_set, pos_eqb_sym. destruct (pos_eqb q q0) eqn:E; auto.
  apply pos_eqb_iff in E. subst q. now rewrite E0.
Qed.
Lemma log_change_NoDup : forall qs buf, NoDup (map fst buf) -> NoDup (map fst (fold_left log_change qs buf)).
Proof.
  induction qs as [|q qs IH]; intros buf H; cbn; auto. apply IH. unfold log_change.
  destruct (f q) as [[new nl]|]; auto. now apply buf_set_NoDup.
Qed.
End Commit.

(** positions are distinct *)
Lemma positions_in : forall w h q, In q (positions w h) <-> on_screen w h q.
Proof.
  intros w h [x y]. unfold positions, on_screen. rewrite in_flat_map. cbn [fst snd]. split.
  - intros [y' [H1 H2]]. apply in_map_iff in H2. destruct H2 as [x' [E H2]]. injection E as <- <-.
    apply in_range in H1, H2. auto.
  - intros [H1 H2]. exists y. split; [now apply in_range|]. apply in_map_iff. exists x. split; auto. now apply in_range.
Qed.
Lemma positions_NoDup : forall w h, NoDup (positions w h).
Proof.
  intros w h. unfold positions. pose proof (range_NoDup h) as H.
  induction (range h) as [|y l IH]; cbn; [constructor|]. inversion H; subst.
  assert (Hn : NoDup (map (fun x => (x, y)) (range w))).
  { apply FinFun.Injective_map_NoDup; [|apply range_NoDup]. intros a b E. congruence. }
  assert (Hd : forall q, In q (map (fun x => (x, y)) (range w)) -> ~ In q (flat_map (fun y => map (fun x => (x, y)) (range w)) l)).
  { intros q Hq Hq2. apply in_map_iff in Hq. destruct Hq as [x [<- _]]. apply in_flat_map in Hq2.
    destruct Hq2 as [y' [Hy' Hx']]. apply in_map_iff in Hx'. destruct Hx' as [x' [E _]]. injection E as _ ->. auto. }
  specialize (IH H3). clear H. revert Hn Hd. generalize (map (fun x => (x, y)) (range w)) as a.
  induction a as [|q a IHa]; intros Hn Hd; cbn; auto.
  inversion Hn; subst. constructor.
  - rewrite in_app_iff. intros [G|G]; auto. apply (Hd q); auto. now left.
  - apply IHa; auto. intros q' Hq'. apply Hd. now right.
Qed.

(** * write_bulk without scrolling *)
Lemma shaped_dims : forall s, shaped s <-> dims (sc_w s) (sc_h s) (sc_cells s).
Proof.
  intro s. unfold shaped, dims, zlen. split; intros [H1 H2]; split; try lia;
    eapply Forall_impl; try exact H2; cbn; intros; lia.
Qed.

(** what write_bulk puts in the cell at [q], if anything *)
Definition outcome (tb : color) (items : list (pos * (str * span))) (q : pos) : option (res (cell * bool)) :=
  match fold_left cstep (covering q items) (None, []) with
  | (None, _) => None
  | (Some c, st) => Some (finish_cell tb c st)
  end.
Definition okf {A} (o : option (res A)) : option A :=
  match o with Some (Ok a) => Some a | _ => None end.

Lemma write_bulk_calm : forall e c s data tb force, cache_ok e c -> shaped s -> calm_write s data ->
  let items := laid_all e (sc_w s) (sc_h s) data in
  (forall q x, on_screen (sc_w s) (sc_h s) q -> outcome tb items q <> Some (Err x)) ->
  let f := fun q => okf (outcome tb items q) in
  let qs := filter (changes f (sc_cells s)) (positions (sc_w s) (sc_h s)) in
  exists cells' c', write_bulk e c s data tb force =
    (mkScreen (sc_w s) (sc_h s) cells' (fold_left (log_change e f) qs (sc_buf s)) (sc_cursor s) 0, c', Ok (zlen qs)) /\
    cache_ok e c' /\ dims (sc_w s) (sc_h s) cells' /\
    forall q, on_screen (sc_w s) (sc_h s) q -> mget cells' (fst q) (snd q) =
      if changes f (sc_cells s) q then option_map fst (f q) else mget (sc_cells s) (fst q) (snd q).
Proof.
  intros e c s data tb force Hc Hs [Ho Hd] items Herr f qs.
  apply shaped_dims in Hs. unfold write_bulk. set (w := sc_w s) in *. set (h := sc_h s) in *.
  set (st := mkW (blank_matrix w h None) (blank_matrix w h []) (sc_cells s) (sc_off s) c).
  destruct (place_all_calm e w h data st Hc Ho Hd) as [c' [-> Hc']]. fold items.
  unfold after. cbn [ws_wm ws_am ws_cells ws_off ws_cache].
  set (m := fold_left put items (ws_wm st, ws_am st)).
  assert (D : dims w h (fst m) /\ dims w h (snd m)).
  { apply fold_put_dims; cbn; apply dims_blank. }
  destruct D as [D1 D2].
  rewrite commit_jobs_eq. rewrite (jobs_positions w h) by auto.
  assert (Hm : forall q, on_screen w h q -> mstate m q = Some (fold_left cstep (covering q items) (None, []))).
  { intros q Hq. unfold m. rewrite (fold_put_state w h); auto; try (cbn; apply dims_blank).
    - unfold mstate. cbn [fst snd st ws_wm ws_am]. destruct Hq. rewrite !mget_blank by auto. reflexivity.
    - intros q' a. apply laid_inside. }
  assert (Eqs : map job_pos (map (job_at (fst m) (snd m)) (positions w h)) = positions w h).
  { rewrite map_map. cbn. apply map_id. }
  destruct (commit_effect e tb f w h (map (job_at (fst m) (snd m)) (positions w h)) (sc_cells s) (sc_buf s) 0 Hs)
    as [cells' [E [D' G]]].
  - apply Forall_forall. intros j Hj. apply in_map_iff in Hj. destruct Hj as [q [<- Hq]].
    apply positions_in in Hq. specialize (Hm q Hq). specialize (Herr q).
    unfold job_ok, job_at. unfold mstate in Hm.
    destruct (mget (fst m) (fst q) (snd q)) as [oc|]; [|discriminate].
    destruct (mget (snd m) (fst q) (snd q)) as [ost|]; [|discriminate].
    injection Hm as Hm. unfold f. unfold outcome in *. rewrite <- Hm in *. destruct oc as [oc|]; auto.
    destruct (finish_cell tb oc ost) as [r|x]; [eauto|]. exfalso. eapply Herr; eauto.
  - rewrite Eqs. apply positions_NoDup.
  - rewrite Eqs. intros q Hq. now apply positions_in.
  - rewrite Eqs in E, G. change (ws_cells st) with (sc_cells s). change (ws_off st) with (sc_off s). rewrite E. exists cells', c'. rewrite Ho. rewrite Z.add_0_l.
    split; auto. split; auto. split; auto. intros q Hq. rewrite G by auto.
    replace (existsb (pos_eqb q) (positions w h)) with true; auto.
    symmetry. apply existsb_exists. exists q. split; [now apply positions_in|apply pos_eqb_refl].
Qed.
