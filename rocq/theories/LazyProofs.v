(** Proofs about writing from iterables that run code while they are consumed. *)
From Coq Require Import ZArith List Bool Lia.
From Verif Require Import PyBase PyLemmas F64 SpaceModel ColorModel AnsiRe SpanModel ScreenModel ScreenSpec ScreenProofs ScreenProofs2 ScreenProofs6 LazyModel LazySpec.
Import ListNotations.
Open Scope Z_scope.

(** * A matrix within a larger one *)
Definition widen {A} (a : A) (dw dh W : nat) (m : list (list A)) : list (list A) :=
  map (fun r => r ++ repeat a dw) m ++ repeat (repeat a W) dh.

Lemma upd_nth_in : forall A n (f : A -> A) l l', (n < List.length l)%nat ->
  upd_nth n f (l ++ l') = upd_nth n f l ++ l'.
Proof.
  induction n as [|n IH]; intros f [|a l] l' H; cbn in *; try lia; auto. f_equal. apply IH. lia.
Qed.
Lemma upd_nth_map : forall A B n (f : A -> A) (g : B -> B) (k : A -> B) l,
  (forall a, In a l -> g (k a) = k (f a)) -> upd_nth n g (map k l) = map k (upd_nth n f l).
Proof.
  intros A B. induction n as [|n IH]; intros f g k [|a l] H; cbn; auto; f_equal; auto.
  - apply H. now left.
  - apply IH. intros. apply H. now right.
Qed.
Lemma set_nth_in : forall A n (v : A) l l', (n < List.length l)%nat ->
  set_nth n v (l ++ l') = set_nth n v l ++ l'.
Proof.
  induction n as [|n IH]; intros v [|a l] l' H; cbn in *; try lia; auto. f_equal. apply IH. lia.
Qed.

Lemma mget_widen : forall A (a : A) dw dh W w h m x y, dims w h m -> 0 <= x < w -> 0 <= y < h ->
  mget (widen a dw dh W m) x y = mget m x y.
Proof.
  intros A a dw dh W w h m x y [H1 H2] Hx Hy. unfold mget, widen.
  rewrite nth_error_app1 by (rewrite map_length; lia). rewrite nth_error_map.
  destruct (nth_error m (Z.to_nat y)) as [r|] eqn:E; cbn; auto.
  apply nth_error_app1. eapply Forall_forall in H2; [|eapply nth_error_In; eauto]. lia.
Qed.
Lemma mset_widen : forall A (a : A) dw dh W w h m x y v, dims w h m -> 0 <= x < w -> 0 <= y < h ->
  mset (widen a dw dh W m) x y v = widen a dw dh W (mset m x y v).
Proof.
  intros A a dw dh W w h m x y v [H1 H2] Hx Hy. unfold mset, widen.
  rewrite upd_nth_in by (rewrite map_length; lia). f_equal. apply upd_nth_map.
  intros r Hr. apply set_nth_in. eapply Forall_forall in H2; eauto. lia.
Qed.
Lemma push_widen : forall dw dh W w h m x y c, dims w h m -> 0 <= x < w -> 0 <= y < h ->
  am_push (widen [] dw dh W m) x y c = widen [] dw dh W (am_push m x y c).
Proof.
  intros dw dh W w h m x y [c|] [H1 H2] Hx Hy; auto. unfold am_push, widen.
  rewrite upd_nth_in by (rewrite map_length; lia). f_equal. apply upd_nth_map.
  intros r Hr. apply upd_nth_in. eapply Forall_forall in H2; eauto. lia.
Qed.
Lemma widen_same : forall A (a : A) W m, widen a 0 0 W m = m.
Proof.
  intros. unfold widen. cbn [repeat]. rewrite app_nil_r. induction m; cbn; auto. now rewrite app_nil_r, IHm.
Qed.
Lemma map_const : forall A B (b : B) (l : list A), map (fun _ => b) l = repeat b (List.length l).
Proof. induction l; cbn; auto. now f_equal. Qed.
Lemma widen_blank : forall A (a : A) w h w' h', 0 <= w' <= w -> 0 <= h' <= h ->
  blank_matrix w h a = widen a (Z.to_nat (w - w')) (Z.to_nat (h - h')) (Z.to_nat w) (blank_matrix w' h' a).
Proof.
  intros A a w h w' h' Hw Hh. unfold blank_matrix, widen.
  rewrite !map_map, !map_const, !range_length, <- repeat_app.
  replace (Z.to_nat w' + Z.to_nat (w - w'))%nat with (Z.to_nat w) by lia. rewrite <- repeat_app.
  replace (Z.to_nat h' + Z.to_nat (h - h'))%nat with (Z.to_nat h) by lia. reflexivity.
Qed.

(** * Placing in the larger matrix *)
Section Within.
Variables (dw dh W : nat).
Notation wd := (widen None dw dh W).
Notation ad := (widen [] dw dh W).

Lemma place_within : forall w h s chars i n x y lst wm am, dims w h wm -> dims w h am ->
  exists x' y' lst' wm' am', place w h s chars i n x y lst wm am = (x', y', lst', wm', am') /\
    place_in w h s chars i n x y lst (wd wm) (ad am) = Ok (x', y', lst', wd wm', ad am') /\
    dims w h wm' /\ dims w h am'.
Proof.
  intros w h s chars. induction chars as [|ch chars IH]; intros i n x y lst wm am D1 D2; cbn [place place_in].
  - exists x, y, lst, wm, am. auto.
  - destruct ((w <=? x) || (x <? 0) || (h <=? y) || (y <? 0)) eqn:Eb.
    + exists x, y, lst, wm, am. auto.
    + rewrite !orb_false_iff, !Z.leb_gt, !Z.ltb_ge in Eb. destruct Eb as [[[H1 H2] H3] H4].
      destruct (str_eqb ch [NL]); [apply IH; auto|]. cbv zeta.
      destruct (if w <=? x + 1 then (0, y + 1) else (x + 1, y)) as [nx ny].
      rewrite (mget_widen _ _ _ _ _ w h wm x y) by auto.
      destruct (dims_get_some _ w h wm x y D1) as [old E]; auto. rewrite E.
      destruct (over s ch old) as [c push].
      rewrite (mset_widen _ _ _ _ _ w h wm x y) by auto. rewrite (push_widen _ _ _ w h am x y) by auto.
      apply IH; [now apply dims_mset|now apply dims_push].
Qed.

Definition wide (st : wstate) : wstate := mkW (wd (ws_wm st)) (ad (ws_am st)) (ws_cells st) (ws_off st) (ws_cache st).
Definition sized (w h : Z) (st : wstate) : Prop := dims w h (ws_wm st) /\ dims w h (ws_am st).

Lemma line_within : forall e w h line i x y lst st, sized w h st ->
  exists st' r, place_line e w h line i x y lst st = (st', r) /\
    line_in e w h line i x y lst (wide st) = (wide st', r) /\ sized w h st'.
Proof.
  intros e w h line. induction line as [|s line IH]; intros i x y lst st D.
  - exists st, (Ok tt). auto.
  - unfold wide at 1. cbn [place_line line_in ws_cache ws_wm ws_am ws_cells ws_off].
    destruct (cached_characters e (ws_cache st) s true true) as [chars c]. cbv zeta.
    cbn [ws_cache ws_wm ws_am ws_cells ws_off].
    destruct ((i =? lst) && (h - 1 <? y - ws_off st)).
    + destruct (append_nl chars) as [chars'|ex].
      * destruct (ws_cells st) as [|r cells].
        -- eexists _, _. split; [reflexivity|]. split; [reflexivity|]. exact D.
        -- cbn [ws_cache ws_wm ws_am ws_cells ws_off].
           destruct (place_within w h s chars' 0 (zlen chars) x (y - (y - h + 1)) lst (ws_wm st) (ws_am st)) as
             [x' [y' [l' [wm' [am' [E1 [E2 [D1 D2]]]]]]]]; [apply D|apply D|].
           rewrite E1, E2. apply (IH (i + 1) x' y' l' (mkW wm' am' _ _ _)). split; auto.
      * eexists _, _. split; [reflexivity|]. split; [reflexivity|]. exact D.
    + cbn [ws_cache ws_wm ws_am ws_cells ws_off].
      destruct (place_within w h s chars 0 (zlen chars) x (y - ws_off st) lst (ws_wm st) (ws_am st)) as
             [x' [y' [l' [wm' [am' [E1 [E2 [D1 D2]]]]]]]]; [apply D|apply D|].
      rewrite E1, E2. apply (IH (i + 1) x' y' l' (mkW wm' am' _ _ _)). split; auto.
Qed.

(** * Committing the larger matrix *)
Lemma commit_row_none : forall e tb k arow x y cells buf n,
  commit_row e tb (repeat None k) arow x y cells buf n = (cells, buf, n, None).
Proof. induction k as [|k IH]; intros; cbn; auto. Qed.
Lemma commit_none : forall e tb k W' am y cells buf n,
  commit e tb (repeat (repeat None W') k) am y cells buf n = (cells, buf, n, None).
Proof.
  induction k as [|k IH]; intros; cbn [repeat commit]; auto. rewrite commit_row_none. apply IH.
Qed.
Lemma tl_repeat : forall A (a : A) k, tl (repeat a k) = repeat a (pred k).
Proof. destruct k; auto. Qed.
Lemma hd_repeat : forall A (a : A) k, hd a (repeat a k) = a.
Proof. destruct k; auto. Qed.
Lemma commit_row_within : forall e tb d row arow k x y cells buf n,
  commit_row e tb (row ++ repeat None d) (arow ++ repeat [] k) x y cells buf n = commit_row e tb row arow x y cells buf n.
Proof.
  intros e tb d row. induction row as [|c row IH]; intros arow k x y cells buf n.
  - apply commit_row_none.
  - assert (Ht : exists k', tl (arow ++ repeat [] k) = tl arow ++ repeat ([] : list color) k').
    { destruct arow; cbn; [exists (pred k); apply tl_repeat|exists k; auto]. }
    assert (Hh : hd [] (arow ++ repeat [] k) = hd ([] : list color) arow).
    { destruct arow; cbn; auto. apply hd_repeat. }
    destruct Ht as [k' Ht]. cbn [app commit_row]. rewrite Ht, Hh.
    destruct c as [c|]; [|apply IH].
    destruct (finish_cell tb c (hd [] arow)) as [[new nl]|]; auto.
    destruct (mget cells x y) as [old|]; auto. destruct (cell_eqb new old); apply IH.
Qed.
Lemma commit_within : forall e tb wm am y cells buf n, List.length wm = List.length am ->
  commit e tb (wd wm) (ad am) y cells buf n = commit e tb wm am y cells buf n.
Proof.
  intros e tb wm. unfold widen. induction wm as [|row wm IH]; intros [|arow am] y cells buf n H; try discriminate.
  - apply commit_none.
  - cbn [map app commit hd tl]. rewrite commit_row_within.
    destruct (commit_row e tb row arow 0 y cells buf n) as [[[cs b] n'] [ex|]]; auto.
Qed.
End Within.

Lemma sized_len : forall w h st, sized w h st -> List.length (ws_wm st) = List.length (ws_am st).
Proof. intros w h st [[H _] [H' _]]. congruence. Qed.
Lemma wide_same : forall W st, wide 0 0 W st = st.
Proof. intros W [m1 m2 cs o c]. unfold wide. cbn [ws_wm ws_am ws_cells ws_off ws_cache]. now rewrite !widen_same. Qed.
Lemma sized_blank : forall w h cells off c, sized w h (mkW (blank_matrix w h None) (blank_matrix w h []) cells off c).
Proof. split; apply dims_blank. Qed.

(** * Iterables that only give spans *)
Lemma lazy_plain_wide : forall dw dh W e data rest s st, sized (sc_w s) (sc_h s) st ->
  exists st' r, place_all e (sc_w s) (sc_h s) data st = (st', r) /\ sized (sc_w s) (sc_h s) st' /\
    lazy_all e (plain data ++ rest) (put_back s st) (ws_cache st) (widen None dw dh W (ws_wm st)) (widen [] dw dh W (ws_am st)) =
    match r with
    | Err ex => (put_back s st', ws_cache st', Err ex)
    | Ok _ => lazy_all e rest (put_back s st') (ws_cache st') (widen None dw dh W (ws_wm st')) (widen [] dw dh W (ws_am st'))
    end.
Proof.
  intros dw dh W e data rest s. induction data as [|[[x y] line] data IH]; intros st D.
  - exists st, (Ok tt). auto.
  - cbn [plain map app fst snd place_all lazy_all gives g_run g_out]. cbv zeta.
    destruct (line_within dw dh W e (sc_w s) (sc_h s) line 0 x y (zlen line - 1) st D) as [st1 [r1 [E1 [E2 D1]]]].
    unfold wide at 1 in E2. unfold put_back at 1 2 3 4. cbn [sc_w sc_h sc_cells sc_off].
    rewrite E1, E2. destruct r1 as [u|ex].
    + destruct (IH st1 D1) as [st2 [r2 [E3 [D2 E4]]]]. exists st2, r2. split; [exact E3|]. split; [exact D2|].
      exact E4.
    + exists st1, (Err ex). auto.
Qed.
Lemma lazy_plain_app : forall e data rest s st, sized (sc_w s) (sc_h s) st ->
  exists st' r, place_all e (sc_w s) (sc_h s) data st = (st', r) /\ sized (sc_w s) (sc_h s) st' /\
    lazy_all e (plain data ++ rest) (put_back s st) (ws_cache st) (ws_wm st) (ws_am st) =
    match r with
    | Err ex => (put_back s st', ws_cache st', Err ex)
    | Ok _ => lazy_all e rest (put_back s st') (ws_cache st') (ws_wm st') (ws_am st')
    end.
Proof.
  intros e data rest s st D. destruct (lazy_plain_wide 0 0 0 e data rest s st D) as [st' [r [E1 [D1 E2]]]].
  rewrite !widen_same in E2. eauto.
Qed.

Lemma eager : forall e c s data tb force, write_lazy e c s (plain data) tb = write_bulk e c s data tb force.
Proof.
  intros. unfold write_lazy, write_bulk. cbv zeta.
  destruct (lazy_plain_app e data [] s (mkW (blank_matrix (sc_w s) (sc_h s) None) (blank_matrix (sc_w s) (sc_h s) []) (sc_cells s) (sc_off s) c)) as [st [r [E1 [D E2]]]];
    [apply sized_blank|].
  cbn [ws_cache ws_wm ws_am] in E2. rewrite app_nil_r in E2.
  replace (put_back s _) with s in E2 at 1 by (destruct s; reflexivity).
  rewrite E1, E2. destruct r as [u|ex]; [|reflexivity]. cbn [lazy_all put_back sc_w sc_h sc_cells sc_off sc_buf sc_cursor]. reflexivity.
Qed.

(** * Raising *)
Lemma stopped : forall e c s before x y g ex rest tb, cache_ok e c -> calm_write s before ->
  g_run g = (fun k => k) -> g_out g = Err ex ->
  exists c', write_lazy e c s (plain before ++ ((x, y), g) :: rest) tb = (s, c', Err ex) /\ cache_ok e c'.
Proof.
  intros e c s before x y g ex rest tb Hc [Ho Hd] Hr Hg. unfold write_lazy.
  set (st := mkW (blank_matrix (sc_w s) (sc_h s) None) (blank_matrix (sc_w s) (sc_h s) []) (sc_cells s) (sc_off s) c).
  destruct (place_all_calm e (sc_w s) (sc_h s) before st Hc Ho Hd) as [c' [E Hc']].
  destruct (lazy_plain_app e before (((x, y), g) :: rest) s st) as [st' [r [E1 [D E2]]]]; [apply sized_blank|].
  rewrite E in E1. injection E1 as <- <-. cbn [ws_cache ws_wm ws_am] in E2.
  replace (put_back s st) with s in E2 by (destruct s; reflexivity).
  cbn [lazy_all] in E2. rewrite Hr, Hg in E2. cbn [after ws_cache ws_wm ws_am] in E2.
  exists c'. split; auto. subst st. cbn [ws_cache ws_wm ws_am] in E2. rewrite E2. f_equal. f_equal. unfold put_back, after. cbn. destruct s; cbn in *. reflexivity.
Qed.

(** * A window that grows while the iterable runs *)
Lemma place_in_beyond : forall w h w' h' s chars i n x y lst wm am q a,
  0 <= x < w' -> 0 <= y -> Forall (fun ch => ch <> [NL]) chars -> dims w h wm ->
  In (q, a) (number w' h' (y * w' + x) (span_items s chars)) -> ~ on_screen w h q ->
  place_in w' h' s chars i n x y lst wm am = Err IndexError.
Proof.
  intros w h w' h' s chars. induction chars as [|ch chars IH]; intros i n x y lst wm am q a Hx Hy Hn D Hi Hq; [contradiction|].
  pose proof (Forall_inv Hn) as Hch. apply Forall_inv_tail in Hn. cbn [span_items map number] in Hi.
  destruct (y * w' + x <? w' * h') eqn:Ep; [|contradiction]. apply Z.ltb_lt in Ep.
  assert (Hy' : y < h') by nia. cbn [place_in].
  replace ((w' <=? x) || (x <? 0) || (h' <=? y) || (y <? 0)) with false
    by (symmetry; rewrite !orb_false_iff, !Z.leb_gt, !Z.ltb_ge; lia).
  destruct (str_eqb ch [NL]) eqn:En; [apply str_eqb_eq in En; contradiction|]. cbv zeta.
  destruct (mget wm x y) as [old|] eqn:Eg; [|destruct (w' <=? x + 1); reflexivity].
  pose proof (dims_get _ w h wm x y D ltac:(lia) ltac:(lia)) as G. rewrite Eg in G.
  destruct Hi as [Hi|Hi].
  { exfalso. apply Hq. injection Hi as <- _. destruct (cell_number w' x y Hx) as [-> ->]. split; cbn; lia. }
  destruct (over s ch old) as [c push]. destruct (w' <=? x + 1) eqn:Ew.
  - apply Z.leb_le in Ew. eapply IH; eauto; try lia; [now apply dims_mset|].
    replace ((y + 1) * w' + 0) with (y * w' + x + 1) by nia. exact Hi.
  - apply Z.leb_gt in Ew. eapply IH; eauto; try lia; [now apply dims_mset|].
    replace (y * w' + (x + 1)) with (y * w' + x + 1) by lia. exact Hi.
Qed.

Lemma pieces_one : forall e sp, pieces e [sp] = span_items sp (get_characters e sp true true).
Proof. intros. unfold pieces. cbn [flat_map]. now rewrite app_nil_r. Qed.

Lemma grown : forall e c s size x y sp tb q a, cache_ok e c -> sc_off s = 0 -> ~ In NL (s_text sp) ->
  In (q, a) (laid e (fst size) (snd size) ((x, y), [sp])) -> ~ on_screen (sc_w s) (sc_h s) q ->
  exists c', write_lazy e c s [((x, y), gives_resized size [sp])] tb = (resize s size [32] true, c', Err IndexError) /\ cache_ok e c'.
Proof.
  intros e c s [w' h'] x y sp tb q a Hc Ho Hn Hi Hq. cbn [fst snd] in Hi. unfold laid in Hi.
  destruct ((0 <=? x) && (x <? w') && (0 <=? y) && (y <? h')) eqn:Eb; [|contradiction].
  rewrite !andb_true_iff, !Z.leb_le, !Z.ltb_lt in Eb. destruct Eb as [[[H1 H2] H3] H4].
  unfold write_lazy. cbn [lazy_all gives_resized g_run g_out fst snd].
  replace (sc_off (resize s (w', h') [32] true)) with 0 by (rewrite <- Ho; reflexivity).
  replace (sc_w (resize s (w', h') [32] true)) with w' by reflexivity.
  replace (sc_h (resize s (w', h') [32] true)) with h' by reflexivity.
  set (s' := resize s (w', h') [32] true). cbn [line_in ws_cache ws_wm ws_am ws_cells ws_off].
  destruct (cached_ok e c sp true true Hc) as [c' [-> Hc']]. cbv zeta.
  replace (h' - 1 <? y - 0) with false by (symmetry; apply Z.ltb_ge; lia). rewrite andb_false_r.
  cbn [ws_cache ws_wm ws_am ws_cells ws_off]. rewrite Z.sub_0_r. rewrite pieces_one in Hi.
  rewrite (place_in_beyond (sc_w s) (sc_h s) w' h' sp _ 0 _ x y _ _ _ q a); auto; try lia.
  - exists c'. split; auto. unfold put_back, s'. cbn [ws_cells ws_off ws_cache]. f_equal. f_equal. cbn. now rewrite Ho.
  - now apply characters_no_nl.
  - apply dims_blank.
Qed.

(** * A window that shrinks while the iterable runs *)
Lemma shrunk : forall e c s w h x y line rest tb force, 0 <= w <= sc_w s -> 0 <= h <= sc_h s ->
  write_lazy e c s (((x, y), gives_resized (w, h) line) :: plain rest) tb =
  write_bulk e c (resize s (w, h) [32] true) (((x, y), line) :: rest) tb force.
Proof.
  intros e c s w h x y line rest tb force Hw Hh. unfold write_lazy, write_bulk.
  set (s' := resize s (w, h) [32] true). cbv zeta.
  set (dw := Z.to_nat (sc_w s - w)). set (dh := Z.to_nat (sc_h s - h)). set (W := Z.to_nat (sc_w s)).
  set (st := mkW (blank_matrix w h None) (blank_matrix w h []) (sc_cells s') (sc_off s') c).
  destruct (lazy_plain_wide dw dh W e (((x, y), line) :: rest) [] s' st) as [st' [r [E1 [D E2]]]];
    [apply sized_blank|].
  rewrite app_nil_r in E2. cbn [ws_cache ws_wm ws_am st] in E2.
  rewrite <- (widen_blank _ None (sc_w s) (sc_h s) w h), <- (widen_blank _ [] (sc_w s) (sc_h s) w h) in E2 by auto.
  replace (put_back s' st) with s' in E2 by reflexivity.
  match type of E2 with lazy_all _ _ _ _ ?m ?a = _ =>
    replace (lazy_all e (((x, y), gives_resized (w, h) line) :: plain rest) s c m a)
      with (lazy_all e (plain (((x, y), line) :: rest)) s' c m a) by reflexivity end.
  rewrite E2. replace (mkW (blank_matrix (sc_w s') (sc_h s') None) (blank_matrix (sc_w s') (sc_h s') []) (sc_cells s') (sc_off s') c) with st by reflexivity.
  rewrite E1. destruct r as [u|ex]; [|reflexivity]. cbn [lazy_all].
  rewrite commit_within by (eapply sized_len; eauto). reflexivity.
Qed.
