(** Proofs about writing while another thread resizes the screen: each thread alone, and which writes fail. *)
From Coq Require Import ZArith List Bool Lia.
From Verif Require Import PyBase PyLemmas F64 SpaceModel ColorModel AnsiRe SpanModel ScreenModel ScreenSpec ScreenProofs ScreenProofs2 ScreenProofs6
  RaceModel RaceSpec RaceProofs ResizeRaceModel ResizeRaceSpec.
Import ListNotations.
Open Scope Z_scope.

Lemma scene_app : forall e a b k, scene_run e (a ++ b) k = match scene_run e a k with Some k' => scene_run e b k' | None => None end.
Proof. intros e a b. induction a as [|ev a IH]; intro k; cbn [app scene_run]; auto. destruct (scene_step e ev k); auto. Qed.
Lemma places_in : forall w h q, In q (places w h) <-> on_screen w h q.
Proof. exact positions_in. Qed.

(** * A resize alone *)
Lemma fill_run : forall e todo w h fill keep s wr sent,
  scene_run e (map Fill todo) (mkScene s wr (Filling w h fill keep todo) sent) =
  Some (mkScene (with_buf s (fold_left (fun d q => buf_set q fill d) todo (sc_buf s))) wr (Filling w h fill keep []) sent).
Proof.
  intros e todo w h fill keep. induction todo as [|q todo IH]; intros s wr sent; cbn [map scene_run].
  - destruct s; reflexivity.
  - cbn [scene_step resize_step]. rewrite pos_eqb_refl. rewrite IH. reflexivity.
Qed.
Definition copies (old : list (list cell)) (todo : list pos) (cells : list (list cell)) : list (list cell) :=
  fold_left (fun m q => match mget old (fst q) (snd q) with Some c => mset m (fst q) (snd q) c | None => m end) todo cells.
Lemma copy_run : forall e todo w h cells s wr sent, (forall q, In q todo -> mget (sc_cells s) (fst q) (snd q) <> None) ->
  scene_run e (map Copy todo) (mkScene s wr (Copying w h cells todo) sent) =
  Some (mkScene s wr (Copying w h (copies (sc_cells s) todo cells) []) sent).
Proof.
  intros e todo w h. induction todo as [|q todo IH]; intros cells s wr sent H; cbn [map scene_run]; [reflexivity|].
  cbn [scene_step resize_step]. rewrite pos_eqb_refl. unfold copies. cbn [fold_left].
  destruct (mget (sc_cells s) (fst q) (snd q)) as [c|] eqn:E; [|exfalso; apply (H q); auto; now left].
  apply IH. intros q' Hq'. apply H. now right.
Qed.
Lemma kept_in : forall w h cells q, In q (kept_places w h cells) <-> on_screen w h q /\ mget cells (fst q) (snd q) <> None.
Proof.
  intros w h cells [x y]. unfold kept_places, on_screen, mget. rewrite in_flat_map. cbn [fst snd].
  assert (R : forall y, 0 <= y < zlen cells -> nth_error cells (Z.to_nat y) = Some (nth (Z.to_nat y) cells [])).
  { intros y' Hy. apply nth_error_nth'. unfold zlen in Hy. lia. }
  split.
  - intros [y' [H1 H2]]. apply in_map_iff in H2. destruct H2 as [x' [E H2]]. injection E as <- <-. apply in_range in H1, H2.
    split; [lia|]. rewrite R by lia. apply nth_error_Some. unfold zlen in H2. lia.
  - intros [[H1 H2] H3]. exists y. destruct (nth_error cells (Z.to_nat y)) as [row|] eqn:E; [|congruence].
    assert (Ly : (Z.to_nat y < List.length cells)%nat) by (apply nth_error_Some; congruence).
    rewrite (nth_error_nth _ _ [] E). apply nth_error_Some in H3.
    split; [apply in_range; unfold zlen; lia|]. apply in_map_iff. exists x. split; auto. apply in_range. unfold zlen. lia.
Qed.
Lemma copies_dims : forall w h old todo cells, dims w h cells -> dims w h (copies old todo cells).
Proof.
  intros w h old todo. induction todo as [|q todo IH]; intros cells D; cbn; auto. apply IH.
  destruct (mget old (fst q) (snd q)); auto. now apply dims_mset.
Qed.
Lemma copies_get : forall w h old todo cells q, dims w h cells -> (forall q', In q' todo -> on_screen w h q') -> on_screen w h q ->
  mget (copies old todo cells) (fst q) (snd q) =
  if existsb (pos_eqb q) todo then match mget old (fst q) (snd q) with Some c => Some c | None => mget cells (fst q) (snd q) end
  else mget cells (fst q) (snd q).
Proof.
  intros w h old todo. induction todo as [|a todo IH]; intros cells q D Ht Hq; [reflexivity|].
  change (copies old (a :: todo) cells) with (copies old todo (match mget old (fst a) (snd a) with Some c => mset cells (fst a) (snd a) c | None => cells end)).
  cbn [existsb].
  assert (Ha : on_screen w h a) by (apply Ht; now left).
  assert (Dn : dims w h (match mget old (fst a) (snd a) with Some c => mset cells (fst a) (snd a) c | None => cells end)).
  { destruct (mget old (fst a) (snd a)); auto. now apply dims_mset. }
  rewrite IH; auto; [|intros; apply Ht; now right].
  assert (G : mget (match mget old (fst a) (snd a) with Some c => mset cells (fst a) (snd a) c | None => cells end) (fst q) (snd q) =
    if pos_eqb q a then match mget old (fst q) (snd q) with Some c => Some c | None => mget cells (fst q) (snd q) end else mget cells (fst q) (snd q)).
  { destruct (mget old (fst a) (snd a)) as [c|] eqn:E.
    - destruct Hq, Ha. rewrite mget_mset by lia. unfold pos_eqb. destruct (fst q =? fst a) eqn:E1; [|reflexivity]. destruct (snd q =? snd a) eqn:E2; [|reflexivity].
      apply Z.eqb_eq in E1, E2. cbn [andb]. rewrite E1, E2, E.
      destruct (dims_get_some _ w h cells (fst a) (snd a) D) as [c' ->]; auto.
    - destruct (pos_eqb q a) eqn:E1; auto. apply pos_eqb_iff in E1. subst a. now rewrite E. }
  rewrite G. destruct (pos_eqb q a); cbn [orb]; [|reflexivity].
  destruct (existsb (pos_eqb q) todo); destruct (mget old (fst q) (snd q)); reflexivity.
Qed.
Lemma copies_overlay : forall w h old cells, dims w h cells -> copies old (kept_places w h old) cells = overlay cells old.
Proof.
  intros w h old cells D. apply (mget_ext _ w h); [now apply copies_dims|now apply overlay_dims|].
  intros x y Hx Hy. rewrite mget_overlay. rewrite (copies_get w h old _ cells (x, y)); auto.
  - destruct (dims_get_some _ w h cells x y D Hx Hy) as [c Ec]. cbn [fst snd]. rewrite Ec.
    destruct (existsb (pos_eqb (x, y)) (kept_places w h old)) eqn:E; [reflexivity|].
    destruct (mget old x y) as [o|] eqn:Eo; [|reflexivity]. exfalso.
    assert (existsb (pos_eqb (x, y)) (kept_places w h old) = true); [|congruence].
    apply existsb_exists. exists (x, y). split; [|apply pos_eqb_refl]. apply kept_in. cbn [fst snd]. split; [split; auto|congruence].
  - intros q' Hq'. now apply kept_in in Hq'.
  - split; auto.
Qed.

Definition resizing (s : screen) (w h : Z) (fill : str) (keep : bool) : list step2 :=
  Ask w h fill keep :: map Fill (places w h) ++ Filled :: (if keep then map Copy (kept_places w h (sc_cells s)) ++ [Copied] else []) ++ [Width; Height; Swap].
Lemma resize_under : forall e s w h fill keep wr sent,
  scene_run e (resizing s w h fill keep) (mkScene s wr Still sent) = Some (mkScene (resize s (w, h) fill keep) wr Still sent).
Proof.
  intros e s w h fill keep wr sent. unfold resizing. cbn [scene_run scene_step resize_step]. rewrite scene_app, fill_run.
  cbn [scene_run scene_step resize_step with_buf sc_cells].
  assert (B : fold_left (fun d q => buf_set q fill d) (places w h) (sc_buf s) = fill_buffer w h fill (sc_buf s)).
  { symmetry. apply fill_buffer_positions. }
  rewrite B. destruct keep.
  - rewrite <- app_assoc, scene_app, copy_run.
    + cbn [app scene_run scene_step resize_step with_buf with_width with_height with_cells sc_cells sc_w sc_h sc_buf sc_cursor sc_off].
      rewrite copies_overlay by (fold (fill_cells w h fill); rewrite fill_cells_blank; apply dims_blank). reflexivity.
    + intros q Hq. apply kept_in in Hq. cbn [sc_cells with_buf]. apply Hq.
  - reflexivity.
Qed.
Lemma resizing_by : forall s w h fill keep, Forall by_resizer (resizing s w h fill keep).
Proof.
  intros s w h fill keep. unfold resizing. constructor; [exact I|]. apply Forall_app. split.
  - apply Forall_forall. intros ev H. apply in_map_iff in H. destruct H as [q [<- _]]. exact I.
  - constructor; [exact I|]. apply Forall_app. split; [|repeat constructor]. destruct keep; [|constructor].
    apply Forall_app. split; [|repeat constructor]. apply Forall_forall. intros ev H. apply in_map_iff in H. destruct H as [q [<- _]]. exact I.
Qed.
Lemma resize_alone : forall e s w h fill keep sent, exists tr, Forall by_resizer tr /\
  scene_run e tr (quiet s sent) = Some (quiet (resize s (w, h) fill keep) sent).
Proof. intros. exists (resizing s w h fill keep). split; [apply resizing_by|apply resize_under]. Qed.

(** * A write alone *)
Lemma lay_run : forall e sp tb w h chars i n x y lst wm am s rz sent, dims w h wm -> sc_w s = w -> sc_h s = h ->
  exists k, scene_run e (repeat Lay k) (mkScene s (Laying sp tb w h wm am x y chars) rz sent) =
    (let '(_, _, _, wm', am') := place w h sp chars i n x y lst wm am in Some (mkScene s (Storing tb (to_store w h wm' am')) rz sent)).
Proof.
  intros e sp tb w h chars. induction chars as [|ch chars IH]; intros i n x y lst wm am s rz sent D Hw Hh.
  - exists 1%nat. reflexivity.
  - cbn [place]. destruct ((w <=? x) || (x <? 0) || (h <=? y) || (y <? 0)) eqn:Eb.
    + exists 1%nat. cbn [repeat scene_run scene_step write_step]. rewrite Hw, Hh, Eb. reflexivity.
    + destruct (str_eqb ch [NL]) eqn:En.
      * destruct (IH (i + 1) n x (y + 1) lst wm am s rz sent D Hw Hh) as [k Hk]. exists (S k). cbn [repeat scene_run scene_step write_step].
        rewrite Hw, Hh, Eb, En. exact Hk.
      * apply orb_false_iff in Eb as Eb'. destruct Eb' as [Eb' B4]. apply orb_false_iff in Eb'. destruct Eb' as [Eb' B3].
        apply orb_false_iff in Eb'. destruct Eb' as [B1 B2]. apply Z.leb_gt in B1, B3. apply Z.ltb_ge in B2, B4.
        destruct (dims_get_some _ w h wm x y D) as [old Eo]; [lia|lia|]. rewrite Eo.
        destruct (over sp ch old) as [c push] eqn:Eov.
        destruct (if w <=? x + 1 then (0, y + 1) else (x + 1, y)) as [nx ny] eqn:Ex.
        destruct (IH (i + 1) n nx ny (if i =? n - 1 then 1 else 0) (mset wm x y (Some c)) (am_push am x y push) s rz sent) as [k Hk]; auto.
        { now apply dims_mset. }
        exists (S k). cbn [repeat scene_run scene_step write_step]. rewrite Hw, Hh, Eb, En, Ex, Eo, Eov. exact Hk.
Qed.
Lemma place_dims : forall w h sp chars i n x y lst wm am, dims w h wm -> dims w h am ->
  let '(_, _, _, wm', am') := place w h sp chars i n x y lst wm am in dims w h wm' /\ dims w h am'.
Proof.
  intros w h sp chars. induction chars as [|ch chars IH]; intros i n x y lst wm am D1 D2; cbn [place]; auto.
  destruct (_ || _ || _ || _); auto. destruct (str_eqb ch [NL]); [apply IH; auto|].
  destruct (if w <=? x + 1 then (0, y + 1) else (x + 1, y)) as [nx ny]. destruct (over sp ch _) as [c push].
  apply IH; [now apply dims_mset|now apply dims_push].
Qed.

Fixpoint commit_store (e : env) (tb : color) (l : list wjob) (cells : list (list cell)) (buf : buffer) (n : Z)
  : list (list cell) * buffer * Z * option exn :=
  match l with
  | [] => (cells, buf, n, None)
  | ((x, y), c, st) :: rest =>
      match finish_cell tb c st with
      | Err ex => (cells, buf, n, Some ex)
      | Ok (new, nl) =>
          match mget cells x y with
          | None => (cells, buf, n, Some IndexError)
          | Some old =>
              if cell_eqb new old then commit_store e tb rest cells buf n
              else commit_store e tb rest (mset cells x y new) (buf_set (x, y) (cell_entry e new nl) buf) (n + 1)
          end
      end
  end.
Lemma commit_to_store : forall e tb wm am l cells buf n,
  commit_jobs e tb (map (job_at wm am) l) cells buf n =
  commit_store e tb (flat_map (fun q => match mget wm (fst q) (snd q) with
     | Some (Some c) => [(q, c, match mget am (fst q) (snd q) with Some l => l | None => [] end)] | _ => [] end) l) cells buf n.
Proof.
  intros e tb wm am l. induction l as [|[x y] l IH]; intros cells buf n; [reflexivity|].
  cbn [map flat_map fst snd]. unfold job_at at 1. cbn [fst snd].
  destruct (mget wm x y) as [[c|]|]; cbn [app commit_jobs commit_store]; try apply IH.
  destruct (finish_cell tb c _) as [[new nl]|ex]; auto. destruct (mget cells x y) as [old|]; auto. destruct (cell_eqb new old); apply IH.
Qed.
Lemma store_run : forall e tb s rz sent l cells buf n cells' buf' n',
  commit_store e tb l cells buf n = (cells', buf', n', None) ->
  exists tr, Forall by_writer tr /\ scene_run e tr (mkScene (full s cells buf) (Storing tb l) rz sent) = Some (mkScene (full s cells' buf') Idle rz sent).
Proof.
  intros e tb s rz sent l. induction l as [|[[[x y] c] st] l IH]; intros cells buf n cells' buf' n' H; cbn [commit_store] in H.
  - injection H as <- <- _. exists [Return]. split; [repeat constructor|reflexivity].
  - destruct (finish_cell tb c st) as [[new nl]|ex] eqn:Ef; [|discriminate].
    destruct (mget cells x y) as [old|] eqn:Eg; [|discriminate]. destruct (cell_eqb new old) eqn:Ee.
    + destruct (IH _ _ _ _ _ _ H) as [tr [Hw Hr]]. exists (Save (x, y) :: tr). split; [constructor; [exact I|exact Hw]|].
      cbn [scene_run scene_step write_step full sc_cells fst snd]. rewrite pos_eqb_refl, Ef, Eg, Ee. exact Hr.
    + destruct (IH _ _ _ _ _ _ H) as [tr [Hw Hr]]. exists (Save (x, y) :: Enter (x, y) :: tr). split; [constructor; [exact I|constructor; [exact I|exact Hw]]|].
      cbn [scene_run scene_step write_step full sc_cells fst snd]. rewrite pos_eqb_refl, Ef, Eg, Ee.
      cbn [scene_step write_step]. rewrite pos_eqb_refl. exact Hr.
Qed.
Lemma write_alone2 : forall e c s x y sp tb force sent, cache_ok e c -> shaped s -> sc_off s = 0 -> y < sc_h s ->
  match write_bulk e c s [((x, y), [sp])] tb force with
  | (s', _, Ok _) => exists tr, Forall by_writer tr /\ scene_run e tr (quiet s sent) = Some (quiet s' sent)
  | _ => True
  end.
Proof.
  intros e c s x y sp tb force sent Hc Hs Ho Hy. unfold write_bulk. cbn [place_all place_line].
  destruct (cached_ok e c sp true true Hc) as [c' [Ec Hc']]. cbn [ws_cache ws_wm ws_am ws_cells ws_off]. rewrite Ec.
  cbn [ws_cache ws_wm ws_am ws_cells ws_off]. replace (zlen [sp] - 1) with 0 by reflexivity. rewrite Ho.
  replace (sc_h s - 1 <? y - 0) with false by (symmetry; apply Z.ltb_ge; lia). rewrite andb_false_r. cbn [ws_cache ws_wm ws_am ws_cells ws_off].
  rewrite Z.sub_0_r.
  pose proof (lay_run e sp tb (sc_w s) (sc_h s) (get_characters e sp true true) 0 (zlen (get_characters e sp true true)) x y 0
    (blank_matrix (sc_w s) (sc_h s) None) (blank_matrix (sc_w s) (sc_h s) []) s Still sent (dims_blank _ _ _ _) eq_refl eq_refl) as [k Hk].
  pose proof (place_dims (sc_w s) (sc_h s) sp (get_characters e sp true true) 0 (zlen (get_characters e sp true true)) x y 0
    (blank_matrix (sc_w s) (sc_h s) None) (blank_matrix (sc_w s) (sc_h s) []) (dims_blank _ _ _ _) (dims_blank _ _ _ _)) as PD.
  destruct (place _ _ _ _ _ _ _ _ _ _ _) as [[[[x' y'] lst'] wm] am]. destruct PD as [D1 D2]. cbn [ws_cache ws_wm ws_am ws_cells ws_off].
  rewrite commit_jobs_eq, (jobs_positions (sc_w s) (sc_h s)) by auto. rewrite commit_to_store.
  change (flat_map _ (positions (sc_w s) (sc_h s))) with (to_store (sc_w s) (sc_h s) wm am).
  destruct (commit_store e tb (to_store (sc_w s) (sc_h s) wm am) (sc_cells s) (sc_buf s) 0) as [[[cells' buf'] n'] [ex|]] eqn:E; [exact I|].
  destruct (store_run e tb s Still sent _ _ _ _ _ _ _ E) as [tr [Hw Hr]].
  exists (Call (x, y) sp tb :: repeat Lay k ++ tr). split.
  - constructor; [exact I|]. apply Forall_app. split; [|exact Hw]. apply Forall_forall. intros ev H. apply repeat_spec in H. subst ev. exact I.
  - cbn [scene_run scene_step write_step quiet fst snd]. rewrite Ho. replace (y <? sc_h s) with true by (symmetry; apply Z.ltb_lt; lia). cbn [andb].
    change (0 =? 0) with true. cbv iota. rewrite scene_app, Hk.
    replace (mkScene s (Storing tb (to_store (sc_w s) (sc_h s) wm am)) Still sent) with
      (mkScene (full s (sc_cells s) (sc_buf s)) (Storing tb (to_store (sc_w s) (sc_h s) wm am)) Still sent) by (destruct s; reflexivity).
    rewrite Hr. unfold full, quiet. rewrite Ho. reflexivity.
Qed.

(** * Writes that cannot fail *)
Record sized (w h : Z) (k : scene) : Prop := {
  z_size : sc_w (z_screen k) = w /\ sc_h (z_screen k) = h;
  z_dims : dims w h (sc_cells (z_screen k));
  z_new : match z_resizer k with
          | Still => True
          | Filling w' h' _ _ _ => w' = w /\ h' = h
          | Copying w' h' cells _ | Resized w' h' cells => w' = w /\ h' = h /\ dims w h cells
          | Widened h' cells => h' = h /\ dims w h cells
          | Heightened cells => dims w h cells
          end;
  z_matrix : match z_writer k with
             | Laying _ _ w' h' wm am _ _ _ => w' = w /\ h' = h /\ dims w h wm
             | Storing _ todo | Noting _ _ _ todo => Forall (fun j => on_screen w h (fst (fst j))) todo
             | _ => True
             end;
  z_alive : z_writer k <> Failed
}.
Lemma to_store_on : forall w h wm am, Forall (fun j : wjob => on_screen w h (fst (fst j))) (to_store w h wm am).
Proof.
  intros w h wm am. apply Forall_forall. intros [[q c] st] H. apply in_flat_map in H. destruct H as [q' [H1 H2]]. apply places_in in H1.
  destruct (mget wm (fst q') (snd q')) as [[c'|]|]; cbn in H2; try tauto. destruct H2 as [E|[]]. injection E as <- _ _. exact H1.
Qed.
Lemma sized_step : forall e w h ev k k', sized w h k -> same_size w h ev -> scene_step e ev k = Some k' -> sized w h k'.
Proof.
  intros e w h ev [s wr rz sent] k' [S1 S2 S3 S4 S5] Hs H. cbn [z_screen z_writer z_resizer] in *. destruct S1 as [Sw Sh].
  destruct ev as [p sp tb| |q|q| |w' h' fill keep|q| |q| | | | |]; cbn [scene_step] in H.
  - destruct wr; try discriminate H. cbn [write_step] in H. destruct (_ && _); [|discriminate]. injection H as <-. split; cbn; auto; [|discriminate].
    rewrite Sw, Sh. split; [reflexivity|]. split; [reflexivity|apply dims_blank].
  - destruct wr as [|sp tb w' h' wm am x y chars| | | |]; try discriminate H. cbn [write_step] in H. destruct S4 as [-> [-> D]].
    destruct chars as [|ch chars].
    { injection H as <-. split; cbn; auto; [apply to_store_on|discriminate]. }
    destruct (_ || _ || _ || _) eqn:Eb.
    { injection H as <-. split; cbn; auto; [apply to_store_on|discriminate]. }
    destruct (str_eqb ch [NL]).
    { injection H as <-. split; cbn; auto. discriminate. }
    destruct (if sc_w s <=? x + 1 then (0, y + 1) else (x + 1, y)) as [nx ny].
    apply orb_false_iff in Eb. destruct Eb as [Eb B4]. apply orb_false_iff in Eb. destruct Eb as [Eb B3].
    apply orb_false_iff in Eb. destruct Eb as [B1 B2]. apply Z.leb_gt in B1, B3. apply Z.ltb_ge in B2, B4.
    destruct (dims_get_some _ w h wm x y D) as [old Eo]; [lia|lia|]. rewrite Eo in H. destruct (over sp ch old) as [c push].
    injection H as <-. split; cbn; auto; [|discriminate]. split; [reflexivity|]. split; [reflexivity|now apply dims_mset].
  - destruct wr as [| |tb todo| | |]; try discriminate H. cbn [write_step] in H. destruct todo as [|[[q' c] st] todo]; [discriminate|].
    destruct (pos_eqb q' q) eqn:Eq; [|discriminate]. apply pos_eqb_iff in Eq. subst q'.
    pose proof (Forall_inv S4) as Hq. pose proof (Forall_inv_tail S4) as Ht. cbn [fst] in Hq.
    destruct (finish_cell tb c st) as [[new nl]|ex].
    2:{ injection H as <-. split; cbn; auto. discriminate. }
    destruct Hq as [Hx Hy]. destruct (dims_get_some _ w h (sc_cells s) (fst q) (snd q) S2 Hx Hy) as [old Eo]. rewrite Eo in H.
    destruct (cell_eqb new old); injection H as <-; split; cbn; auto; try discriminate. now apply dims_mset.
  - destruct wr as [| | |tb q' t todo| |]; try discriminate H. cbn [write_step] in H. destruct (pos_eqb q' q); [|discriminate].
    injection H as <-. split; cbn; auto. discriminate.
  - destruct wr as [| |tb todo| | |]; try discriminate H. cbn [write_step] in H. destruct todo; [|discriminate]. injection H as <-. split; cbn; auto. discriminate.
  - destruct rz; try discriminate H. injection H as <-. split; cbn; auto.
  - destruct rz as [|w' h' fill keep todo| | | |]; try discriminate H. cbn [resize_step] in H. destruct todo as [|q' todo]; [discriminate|].
    destruct (pos_eqb q' q); [|discriminate]. injection H as <-. split; cbn; auto.
  - destruct rz as [|w' h' fill keep todo| | | |]; try discriminate H. cbn [resize_step] in H. destruct todo as [|q' todo]; [|discriminate].
    destruct S3 as [-> ->].
    assert (D : dims w h (map (fun _ : Z => fill_row w fill) (range h))) by (fold (fill_cells w h fill); rewrite fill_cells_blank; apply dims_blank).
    destruct keep; injection H as <-; split; cbn; auto.
  - destruct rz as [| |w' h' cells todo| | |]; try discriminate H. cbn [resize_step] in H. destruct todo as [|q' todo]; [discriminate|].
    destruct (pos_eqb q' q); [|discriminate]. destruct (mget (sc_cells s) (fst q) (snd q)) as [c|]; [|discriminate].
    injection H as <-. destruct S3 as [-> [-> D]]. split; cbn; auto. split; [reflexivity|]. split; [reflexivity|now apply dims_mset].
  - destruct rz as [| |w' h' cells todo| | |]; try discriminate H. cbn [resize_step] in H. destruct todo as [|q' todo]; [|discriminate].
    injection H as <-. split; cbn; auto.
  - destruct rz; try discriminate H. injection H as <-. destruct S3 as [-> [-> D]]. split; cbn; auto.
  - destruct rz; try discriminate H. injection H as <-. destruct S3 as [-> D]. split; cbn; auto.
  - destruct rz; try discriminate H. injection H as <-. split; cbn; auto.
  - injection H as <-. split; cbn; auto.
Qed.
Lemma sized_run : forall e w h tr k k', sized w h k -> Forall (same_size w h) tr -> scene_run e tr k = Some k' -> sized w h k'.
Proof.
  intros e w h tr. induction tr as [|ev tr IH]; intros k k' S F H; cbn [scene_run] in H; [injection H as <-; exact S|].
  destruct (scene_step e ev k) as [k1|] eqn:E; [|discriminate]. eapply IH; [|exact (Forall_inv_tail F)|exact H].
  eapply sized_step; eauto. exact (Forall_inv F).
Qed.
Lemma sized_start : forall s sent, shaped s -> sized (sc_w s) (sc_h s) (quiet s sent).
Proof. intros s sent H. split; cbn; auto; [now apply shaped_dims|discriminate]. Qed.
Lemma never_fails : forall e s sent tr k, shaped s -> Forall (same_size (sc_w s) (sc_h s)) tr -> scene_run e tr (quiet s sent) = Some k ->
  z_writer k <> Failed /\ (z_resizer k = Still -> shaped (z_screen k)).
Proof.
  intros e s sent tr k Hs Ht Hr. pose proof (sized_run e _ _ tr _ _ (sized_start s sent Hs) Ht Hr) as [S1 S2 S3 S4 S5].
  split; auto. intros _. apply shaped_dims. destruct S1 as [-> ->]. exact S2.
Qed.

(** * Writes that fail *)
Lemma to_store_one : forall w h q c, on_screen w h q ->
  to_store w h (mset (blank_matrix w h None) (fst q) (snd q) (Some c)) (blank_matrix w h []) = [(q, c, [])].
Proof.
  intros w h q c Hq. unfold to_store.
  assert (G : forall l, NoDup l -> (forall p, In p l -> on_screen w h p) ->
    flat_map (fun p => match mget (mset (blank_matrix w h None) (fst q) (snd q) (Some c)) (fst p) (snd p) with
      | Some (Some c) => [(p, c, match mget (blank_matrix w h []) (fst p) (snd p) with Some l => l | None => ([] : list color) end)] | _ => [] end) l =
    if existsb (pos_eqb q) l then [(q, c, [])] else []).
  { intro l. induction l as [|p l IH]; intros N O; [reflexivity|]. inversion N as [|? ? N1 N2]; subst. cbn [flat_map existsb].
    rewrite IH; auto; [|intros; apply O; now right]. assert (Op : on_screen w h p) by (apply O; now left). destruct Op, Hq.
    rewrite mget_mset by lia. rewrite !mget_blank by lia. destruct (pos_eqb q p) eqn:E.
    - apply pos_eqb_iff in E. subst p. rewrite !Z.eqb_refl. cbn [andb option_map orb app]. 
      destruct (existsb (pos_eqb q) l) eqn:E2; [|reflexivity]. exfalso. apply existsb_exists in E2. destruct E2 as [q' [H3 H4]]. apply pos_eqb_iff in H4. subst q'. auto.
    - cbn [orb]. replace ((fst p =? fst q) && (snd p =? snd q)) with false; [reflexivity|].
      rewrite <- E. unfold pos_eqb. now rewrite (Z.eqb_sym (fst q)), (Z.eqb_sym (snd q)). }
  rewrite G; [|apply positions_NoDup|intros p Hp; now apply places_in].
  replace (existsb (pos_eqb q) (places w h)) with true; [reflexivity|]. symmetry. apply existsb_exists. exists q. split; [now apply places_in|apply pos_eqb_refl].
Qed.

(** made smaller after the layout *)
Lemma shrinking_fails : forall e s q sp tb ch w h fill keep sent, shaped s -> sc_off s = 0 -> on_screen (sc_w s) (sc_h s) q -> ~ on_screen w h q ->
  get_characters e sp true true = [ch] -> ch <> [NL] -> (exists new nl, finish_cell tb (ch, s_fg sp, s_bg sp, false) [] = Ok (new, nl)) ->
  exists a b k, Forall by_writer a /\ Forall by_resizer b /\ scene_run e b (quiet s sent) = Some (quiet (resize s (w, h) fill keep) sent) /\
  scene_run e (a ++ b ++ [Save q]) (quiet s sent) = Some k /\ z_writer k = Failed.
Proof.
  intros e s q sp tb ch w h fill keep sent Hs Ho Hq Hn Hch Hnl [new [nl Hf]].
  exists [Call q sp tb; Lay; Lay], (resizing s w h fill keep).
  eexists. split; [repeat constructor|]. split; [apply resizing_by|]. split; [apply resize_under|].
  assert (C : str_eqb ch [NL] = false) by (destruct (str_eqb ch [NL]) eqn:E; auto; apply str_eqb_eq in E; congruence).
  destruct Hq as [Hx Hy].
  assert (Eb : (sc_w s <=? fst q) || (fst q <? 0) || (sc_h s <=? snd q) || (snd q <? 0) = false).
  { rewrite !orb_false_iff, !Z.leb_gt, !Z.ltb_ge. lia. }
  assert (R1 : exists nx ny, scene_run e [Call q sp tb; Lay] (quiet s sent) =
    Some (mkScene s (Laying sp tb (sc_w s) (sc_h s) (mset (blank_matrix (sc_w s) (sc_h s) None) (fst q) (snd q) (Some (ch, s_fg sp, s_bg sp, false)))
       (blank_matrix (sc_w s) (sc_h s) []) nx ny []) Still sent)).
  { cbn [scene_run scene_step write_step quiet]. rewrite Ho. replace (snd q <? sc_h s) with true by (symmetry; apply Z.ltb_lt; lia).
    change (0 =? 0) with true. cbn [andb]. rewrite Hch. cbn [scene_step write_step]. rewrite Eb, C. 
    destruct (if sc_w s <=? fst q + 1 then (0, snd q + 1) else (fst q + 1, snd q)) as [nx ny]. rewrite mget_blank by lia.
    cbn [over]. exists nx, ny. reflexivity. }
  destruct R1 as [nx [ny R1]].
  change [Call q sp tb; Lay; Lay] with ([Call q sp tb; Lay] ++ [Lay]). rewrite <- app_assoc, scene_app, R1, scene_app.
  cbn [scene_run scene_step write_step]. rewrite to_store_one by (split; auto). rewrite scene_app, resize_under.
  cbn [scene_run scene_step write_step]. rewrite pos_eqb_refl, Hf.
  replace (mget (sc_cells (resize s (w, h) fill keep)) (fst q) (snd q)) with (@None cell).
  - split; reflexivity.
  - symmetry. pose proof (resize_shape s w h fill keep) as S. apply shaped_dims in S.
    assert (Hn' : ~ on_screen (sc_w (resize s (w, h) fill keep)) (sc_h (resize s (w, h) fill keep)) q) by exact Hn.
    set (s' := resize s (w, h) fill keep) in *. clearbody s'.
    pose proof (dims_get _ _ _ _ (fst q) (snd q) S ltac:(lia) ltac:(lia)) as G.
    destruct (mget (sc_cells s') (fst q) (snd q)); auto. exfalso. apply Hn'. unfold on_screen. lia.
Qed.
(** made wider before the layout: the write alone would have changed nothing *)
Lemma growing_fails : forall e s q sp tb ch rest w fill keep sent, shaped s -> sc_off s = 0 -> sc_w s <= fst q < w -> 0 <= fst q -> 0 <= snd q < sc_h s ->
  get_characters e sp true true = ch :: rest -> ch <> [NL] ->
  exists b k, Forall by_resizer b /\ scene_run e b (quiet s sent) = Some (quiet (resize s (w, sc_h s) fill keep) sent) /\
  scene_run e ([Call q sp tb] ++ b ++ [Lay]) (quiet s sent) = Some k /\ z_writer k = Failed.
Proof.
  intros e s q sp tb ch rest w fill keep sent Hs Ho Hx Hx0 Hy Hch Hnl.
  exists (resizing s w (sc_h s) fill keep). eexists. split; [apply resizing_by|]. split; [apply resize_under|].
  assert (C : str_eqb ch [NL] = false) by (destruct (str_eqb ch [NL]) eqn:E; auto; apply str_eqb_eq in E; congruence).
  rewrite scene_app. cbn [scene_run scene_step write_step quiet]. rewrite Ho. replace (snd q <? sc_h s) with true by (symmetry; apply Z.ltb_lt; lia).
  change (0 =? 0) with true. cbn [andb]. rewrite scene_app, resize_under. rewrite Hch. cbn [scene_run scene_step write_step resize sc_w sc_h].
  assert (Eb : (w <=? fst q) || (fst q <? 0) || (sc_h s <=? snd q) || (snd q <? 0) = false).
  { rewrite !orb_false_iff, !Z.leb_gt, !Z.ltb_ge. lia. }
  rewrite Eb, C. destruct (if w <=? fst q + 1 then (0, snd q + 1) else (fst q + 1, snd q)) as [nx ny].
  replace (mget (blank_matrix (sc_w s) (sc_h s) None) (fst q) (snd q)) with (@None (option wcell)); [split; reflexivity|].
  symmetry. pose proof (dims_get _ (sc_w s) (sc_h s) (blank_matrix (sc_w s) (sc_h s) (None : option wcell)) (fst q) (snd q) (dims_blank _ _ _ _) ltac:(lia) ltac:(lia)) as G.
  destruct (mget (blank_matrix (sc_w s) (sc_h s) None) (fst q) (snd q)); auto. lia.
Qed.
