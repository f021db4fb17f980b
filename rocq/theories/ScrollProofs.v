(** Writing below the last row. *)
From Coq Require Import ZArith Reals List Bool Lia Permutation Sorting.Sorted.
From Verif Require Import PyBase PyLemmas F64 SpaceModel ColorModel ColorSpec ColorProofs ColorProofs2 AnsiRe SpanModel Vt SpanSpec
  SpanProofs SpanProofs2 GroupProofs ParseProofs ScreenModel ScreenSpec ScreenProofs ScreenProofs2 ScreenProofs3 ScreenProofs4 ScreenProofs5 ScreenProofs6 ScreenProofs7
  ScreenProofs8 DrawSpec.
Import ListNotations.
Open Scope Z_scope.

(** * The commit loop after any layout *)
Lemma commit_items : forall e w h items tb cells buf, dims w h cells ->
  (forall q a, In (q, a) items -> on_screen w h q) ->
  (forall q x, on_screen w h q -> outcome tb items q <> Some (Err x)) ->
  let f := fun q => okf (outcome tb items q) in
  let qs := filter (changes f cells) (positions w h) in
  let m := fold_left put items (blank_matrix w h None, blank_matrix w h []) in
  exists cells', commit e tb (fst m) (snd m) 0 cells buf 0 = (cells', fold_left (log_change e f) qs buf, zlen qs, None) /\
    dims w h cells' /\
    forall q, on_screen w h q -> mget cells' (fst q) (snd q) =
      if changes f cells q then option_map fst (f q) else mget cells (fst q) (snd q).
Proof.
  intros e w h items tb cells buf Hs Hin Herr f qs m.
  assert (D : dims w h (fst m) /\ dims w h (snd m)).
  { apply fold_put_dims; cbn; apply dims_blank. }
  destruct D as [D1 D2].
  rewrite commit_jobs_eq. rewrite (jobs_positions w h) by auto.
  assert (Hm : forall q, on_screen w h q -> mstate m q = Some (fold_left cstep (covering q items) (None, []))).
  { intros q Hq. unfold m. rewrite (fold_put_state w h); auto; try (cbn; apply dims_blank).
    unfold mstate. cbn [fst snd]. destruct Hq. rewrite !mget_blank by auto. reflexivity. }
  assert (Eqs : map job_pos (map (job_at (fst m) (snd m)) (positions w h)) = positions w h).
  { rewrite map_map. cbn. apply map_id. }
  destruct (commit_effect e tb f w h (map (job_at (fst m) (snd m)) (positions w h)) cells buf 0 Hs)
    as [cells' [E [D' G]]].
  - apply Forall_forall. intros j Hj. apply in_map_iff in Hj. destruct Hj as [q [<- Hq]].
    apply positions_in in Hq. specialize (Hm q Hq). specialize (Herr q).
    unfold job_ok, job_at. unfold mstate in Hm.
    destruct (mget (fst m) (fst q) (snd q)) as [oc|]; [|discriminate].
    destruct (mget (snd m) (fst q) (snd q)) as [ost|]; [|discriminate].
    injection Hm as Hm. unfold f. unfold outcome in *. rewrite <- Hm in *. destruct oc as [oc|]; auto.
    destruct (finish_cell tb oc ost) as [r|x]; [eauto|]. exfalso. eapply Herr; eauto.
  - rewrite Eqs. apply positions_NoDup.
  - rewrite Eqs. intros q Hq. now apply positions_in.
  - rewrite Eqs in E, G. rewrite E. exists cells'. rewrite Z.add_0_l.
    split; auto. split; auto. intros q Hq. rewrite G by auto.
    replace (existsb (pos_eqb q) (positions w h)) with true; auto.
    symmetry. apply existsb_exists. exists q. split; [now apply positions_in|apply pos_eqb_refl].
Qed.

(** * Text on one row *)
Fixpoint row_items {A} (x y : Z) (l : list A) : list (pos * A) :=
  match l with [] => [] | a :: r => ((x, y), a) :: row_items (x + 1) y r end.
Lemma number_row : forall A w h y (l : list A) x, 0 <= x -> x + zlen l <= w -> 0 <= y < h ->
  number w h (y * w + x) l = row_items x y l.
Proof.
  intros A w h y l. induction l as [|a l IH]; intros x Hx Hw Hy; [reflexivity|]. rewrite zlen_cons in Hw.
  pose proof (zlen_nonneg _ l). cbn [number row_items].
  rewrite (proj2 (Z.ltb_lt (y * w + x) (w * h))) by nia.
  destruct (cell_number w x y ltac:(lia)) as [-> ->]. f_equal. rewrite <- IH by lia. f_equal. lia.
Qed.
Definition row_nth {A} (x y : Z) (l : list A) (q : pos) : option A :=
  if (snd q =? y) && (x <=? fst q) then nth_error l (Z.to_nat (fst q - x)) else None.
Lemma covering_row : forall A y (l : list A) x q, covering q (row_items x y l) = opt_list (row_nth x y l q).
Proof.
  intros A y l. induction l as [|a l IH]; intros x [qx qy].
  - unfold row_nth. cbn [fst snd]. destruct (_ && _); [|reflexivity]. cbn. now destruct (Z.to_nat (qx - x)).
  - specialize (IH (x + 1) (qx, qy)). unfold covering in *. cbn [row_items filter fst]. unfold pos_eqb at 1. cbn [fst snd].
    unfold row_nth in *. cbn [fst snd] in *. rewrite (Z.eqb_sym qy y) in *.
    destruct (Z.eqb_spec x qx) as [->|Hne]; cbn [andb].
    + destruct (y =? qy); cbn [andb] in *.
      * rewrite Z.leb_refl. rewrite Z.sub_diag. cbn [map snd Z.to_nat nth_error opt_list]. f_equal. rewrite IH.
        rewrite (proj2 (Z.leb_gt (qx + 1) qx)) by lia. reflexivity.
      * exact IH.
    + rewrite IH. destruct (y =? qy); cbn [andb]; [|reflexivity].
      destruct (Z.leb_spec (x + 1) qx), (Z.leb_spec x qx); try lia; try reflexivity.
      replace (Z.to_nat (qx - x)) with (S (Z.to_nat (qx - (x + 1)))) by lia. reflexivity.
Qed.
Lemma row_items_in : forall A y (l : list A) x q a, In (q, a) (row_items x y l) -> snd q = y /\ x <= fst q < x + zlen l.
Proof.
  intros A y l. induction l as [|b l IH]; intros x q a H; [contradiction|]. rewrite zlen_cons. pose proof (zlen_nonneg _ l).
  destruct H as [H|H]; [injection H as <- _; cbn; lia|]. apply IH in H. lia.
Qed.
Lemma row_nth_in : forall A x y (l : list A) q a, row_nth x y l q = Some a -> snd q = y /\ x <= fst q < x + zlen l.
Proof.
  intros A x y l q a H. unfold row_nth in H. destruct (_ && _) eqn:E; [|discriminate]. rewrite andb_true_iff, Z.eqb_eq, Z.leb_le in E.
  assert (Z.to_nat (fst q - x) < List.length l)%nat by (apply nth_error_Some; congruence). unfold zlen. lia.
Qed.

(** * The finished cell *)
Lemma finish_plain : forall tb ch s, opaque_span s ->
  finish_cell tb (ch, s_fg s, s_bg s, false) [] =
  Ok (rstrip_by is_nl ch, Some (match s_fg s with Some f => f | None => WHITE end), s_bg s, endswith [NL] ch).
Proof.
  intros tb ch s [Hf Hb]. unfold finish_cell. cbn [blend_stack bindr]. rewrite (solid_alpha _ Hb). cbn [bindr].
  assert (E : bg_has_alpha (match s_fg s with Some f => Some f | None => Some WHITE end) = false).
  { apply solid_alpha. destruct (s_fg s); auto. intros c E. injection E as <-. reflexivity. }
  rewrite E. cbn [bindr]. destruct (s_fg s); reflexivity.
Qed.
(** characters whose last one was given [t] line feeds *)
Definition spoiled (t : nat) (chars : list str) : list str :=
  match chars with [] => [] | _ => removelast chars ++ [last chars [] ++ repeat NL t] end.
Lemma spoiled_snoc : forall t l a, spoiled t (l ++ [a]) = l ++ [a ++ repeat NL t].
Proof.
  intros t l a. unfold spoiled. destruct (l ++ [a]) eqn:E; [destruct l; discriminate|]. rewrite <- E. now rewrite removelast_last, last_last.
Qed.
Lemma spoiled_0 : forall chars, spoiled 0 chars = chars.
Proof.
  intros [|c chars]; [reflexivity|]. destruct (@exists_last _ (c :: chars)) as [l [a E]]; [discriminate|]. rewrite E, spoiled_snoc. cbn. now rewrite app_nil_r.
Qed.
Lemma append_spoiled : forall t chars, chars <> [] -> append_nl (spoiled t chars) = Ok (spoiled (S t) chars).
Proof.
  intros t chars H. destruct (exists_last H) as [l [a ->]]. rewrite !spoiled_snoc. unfold append_nl. rewrite rev_app_distr. cbn [rev app].
  rewrite rev_involutive. change (repeat NL (S t)) with (NL :: repeat NL t). rewrite (repeat_cons t NL), app_assoc. reflexivity.
Qed.
Lemma spoiled_length : forall t chars, zlen (spoiled t chars) = zlen chars.
Proof.
  intros t chars. destruct chars as [|c chars]; [reflexivity|]. destruct (@exists_last _ (c :: chars)) as [l [a ->]]; [discriminate|].
  rewrite spoiled_snoc. unfold zlen. rewrite !app_length. reflexivity.
Qed.
Lemma spoiled_nth : forall t chars k, nth_error (spoiled t chars) k =
  option_map (fun ch => if Nat.eqb (S k) (List.length chars) then ch ++ repeat NL t else ch) (nth_error chars k).
Proof.
  intros t chars k. destruct chars as [|c chars]; [destruct k; reflexivity|]. destruct (@exists_last _ (c :: chars)) as [l [a ->]]; [discriminate|].
  rewrite spoiled_snoc. rewrite app_length. cbn [List.length].
  destruct (Nat.ltb_spec k (List.length l)) as [Hk|Hk].
  - rewrite !nth_error_app1 by lia. destruct (nth_error l k); [|reflexivity]. cbn [option_map].
    rewrite (proj2 (Nat.eqb_neq (S k) (List.length l + 1))) by lia. reflexivity.
  - rewrite !nth_error_app2 by lia. destruct (k - List.length l)%nat as [|n] eqn:E.
    + cbn [nth_error option_map]. rewrite (proj2 (Nat.eqb_eq (S k) (List.length l + 1))) by lia. reflexivity.
    + cbn [nth_error]. destruct n; reflexivity.
Qed.
Lemma spoiled_no_nl : forall t e s, ~ In NL (s_text s) ->
  Forall (fun ch => ch <> [NL]) (spoiled t (get_characters e s true true)).
Proof.
  intros n e s Hn. apply Forall_forall. intros ch Hi. apply In_nth_error in Hi. destruct Hi as [k Hi]. rewrite spoiled_nth in Hi.
  destruct (nth_error (get_characters e s true true) k) as [d|] eqn:E; [|discriminate]. cbn [option_map] in Hi. apply nth_error_In in E.
  destruct (characters_tail e s d Hn E) as [t [c [-> Hc]]]. destruct (Nat.eqb _ _); injection Hi as <-.
  - intro X. destruct t as [|a t]; [injection X as X _; congruence|]. injection X as _ X. destruct t; discriminate.
  - destruct t as [|? [|? ?]]; try discriminate. cbn. congruence.
Qed.
Lemma rstrip_repeat : forall t u c, c <> NL -> rstrip_by is_nl ((u ++ [c]) ++ repeat NL t) = u ++ [c].
Proof.
  intros t u c Hc. unfold rstrip_by. rewrite rev_app_distr. assert (R : rev (repeat NL t) = repeat NL t).
  { induction t as [|t IH]; [reflexivity|]. cbn [repeat rev]. rewrite IH. symmetry. apply repeat_cons. }
  rewrite R. clear R. induction t as [|t IH]; [|exact IH].
  pose proof (proj1 (tail_clean u c Hc)) as T. unfold rstrip_by in T. exact T.
Qed.
Lemma spoiled_strip : forall t e s k ch, ~ In NL (s_text s) -> nth_error (get_characters e s true true) k = Some ch ->
  exists ch', nth_error (spoiled (S t) (get_characters e s true true)) k = Some ch' /\ rstrip_by is_nl ch' = ch /\
    endswith [NL] ch' = Nat.eqb (S k) (List.length (get_characters e s true true)).
Proof.
  intros n e s k ch Hn E. rewrite spoiled_nth. rewrite E. cbn [option_map].
  eexists. split; [reflexivity|]. apply nth_error_In in E. destruct (characters_tail e s ch Hn E) as [t [c [-> Hc]]].
  destruct (Nat.eqb _ _).
  - split; [apply rstrip_repeat; exact Hc|]. change (repeat NL (S n)) with (NL :: repeat NL n). rewrite repeat_cons, app_assoc. rewrite endswith_char. reflexivity.
  - apply tail_clean. exact Hc.
Qed.

(** * The cache after scrolling *)
(** every cached result may have been spoiled *)
Definition tainted (e : env) (c : ccache) : Prop :=
  Forall (fun kv => let '((s, x, a), v) := kv in exists t, v = spoiled t (get_characters e s x a)) c.
Lemma ok_tainted : forall e c, cache_ok e c -> tainted e c.
Proof. intros e c. apply Forall_impl. intros [[[s x] a] v] ->. exists O. now rewrite spoiled_0. Qed.
Lemma tainted_put : forall e c s x a t, tainted e c -> tainted e (cache_put e (s, x, a) (spoiled t (get_characters e s x a)) c).
Proof. intros. unfold cache_put, tainted. apply Forall_firstn. constructor; [eauto|]. now apply Forall_filter. Qed.
Lemma tainted_find : forall e c s x a v, tainted e c -> cache_find e (s, x, a) c = Some v -> exists t, v = spoiled t (get_characters e s x a).
Proof.
  induction c as [|[[[s' x'] a'] v'] c IH]; intros s x a v H E; [discriminate|].
  inversion H as [|? ? H1 H2]; subst. cbn [cache_find] in E. destruct (key_eqb _ _ _) eqn:Ek.
  - injection E as <-. rewrite <- (key_eqb_characters _ _ _ _ _ _ _ Ek). exact H1.
  - eauto.
Qed.
Lemma cached_tainted : forall e c s x a, tainted e c ->
  exists t c', cached_characters e c s x a = (spoiled t (get_characters e s x a), c') /\ tainted e c'.
Proof.
  intros e c s x a H. unfold cached_characters. destruct (cache_find e (s, x, a) c) as [v|] eqn:E.
  - apply tainted_find in E; auto. destruct E as [t ->]. exists t. eexists. split; eauto. now apply tainted_put.
  - exists O. eexists. rewrite spoiled_0. split; eauto. rewrite <- (spoiled_0 (get_characters e s x a)) at 1. now apply tainted_put.
Qed.

(** * The write *)
Lemma scroll_write_tainted : forall e c s sp x y tb force, tainted e c -> shaped s ->
  opaque_span sp -> fine_span sp -> ~ In NL (s_text sp) -> s_text sp <> [] ->
  0 <= x -> x + zlen (s_text sp) <= sc_w s -> 0 < sc_h s -> sc_h s + sc_off s <= y ->
  exists s' c', write_bulk e c s [((x, y), [sp])] tb force = (s', c', Ok (zlen (s_text sp))) /\ scrolled e sp x y s s' /\ tainted e c'.
Proof.
  intros e c s sp x y tb force Hc Hs Ho Hf Hn Hne Hx Hw Hh Hy.
  pose proof (characters_length e sp true true) as L. set (chars := get_characters e sp true true) in *.
  assert (Hcn : chars <> []) by (intro E; rewrite E, zlen_nil in L; symmetry in L; apply zlen_0 in L; auto).
  destruct (cached_tainted e c sp true true Hc) as [t [c1 [Ec Hc1]]].
  assert (Lb : zlen (spoiled (S t) chars) = zlen (s_text sp)) by (rewrite spoiled_length; exact L).
  apply shaped_dims in Hs. unfold write_bulk. set (w := sc_w s) in *. set (h := sc_h s) in *.
  cbn [place_all place_line]. cbn [ws_cache]. rewrite Ec. fold chars.
  cbn [ws_wm ws_am ws_cells ws_off ws_cache]. rewrite zlen_cons, zlen_nil. change (1 + 0 - 1) with 0. rewrite Z.eqb_refl.
  rewrite (proj2 (Z.ltb_lt (h - 1) (y - sc_off s))) by lia. cbn [andb]. rewrite append_spoiled by exact Hcn. rewrite (spoiled_length t chars).
  destruct (sc_cells s) as [|row0 cells0] eqn:Ecells.
  { exfalso. destruct Hs as [H0 _]. cbn in H0. lia. }
  cbn [ws_wm ws_am ws_cells ws_off ws_cache].
  replace (y - (y - h + 1)) with (h - 1) by lia.
  destruct (place_spec w h sp (spoiled (S t) chars) 0 (zlen chars) x (h - 1) 0 (blank_matrix w h None) (blank_matrix w h []))
    as [lst' [Ep _]]; try lia.
  { pose proof (zlen_nonneg _ (s_text sp)). assert (0 < zlen (s_text sp)) by (destruct (s_text sp); [congruence|rewrite zlen_cons; unfold zlen; lia]). lia. }
  { unfold chars. now apply spoiled_no_nl. }
  rewrite number_row in Ep.
  2: lia.
  2: { unfold span_items. unfold zlen in *. rewrite map_length. lia. }
  2: lia.
  set (items := row_items x (h - 1) (span_items sp (spoiled (S t) chars))) in *.
  rewrite Ep. cbn [ws_wm ws_am ws_cells ws_off ws_cache].
  set (cells1 := cells0 ++ [map (fun _ : Z => ([], None, None)) (range w)]).
  assert (D1 : dims w h cells1) by (eapply dims_scroll; exact Hs).
  assert (Hrow : forall q, row_nth x (h - 1) (span_items sp (spoiled (S t) chars)) q = option_map (fun ch => (ch, sp)) (row_nth x (h - 1) (spoiled (S t) chars) q)).
  { intro q. unfold row_nth. destruct (_ && _); [|reflexivity]. unfold span_items. apply nth_error_map. }
  assert (Hout : forall q, outcome tb items q = option_map (fun ch => Ok (rstrip_by is_nl ch, Some (match s_fg sp with Some f => f | None => WHITE end), s_bg sp, endswith [NL] ch))
                                                  (row_nth x (h - 1) (spoiled (S t) chars) q)).
  { intro q. unfold outcome, items. rewrite covering_row, Hrow. destruct (row_nth x (h - 1) (spoiled (S t) chars) q) as [ch|]; [|reflexivity].
    cbn [option_map opt_list fold_left]. rewrite cstep_opaque by exact Ho. f_equal. apply finish_plain. exact Ho. }
  destruct (commit_items e w h items tb cells1 (sc_buf s) D1) as [cells' [Ecm [D' G]]].
  { intros q a Hi. apply row_items_in in Hi. unfold span_items in Hi. unfold zlen in Hi. rewrite map_length in Hi.
    unfold zlen in Lb, Hw. unfold on_screen. lia. }
  { intros q ex _ E. rewrite Hout in E. destruct (row_nth _ _ _ q); discriminate. }
  set (f := fun q => okf (outcome tb items q)) in *.
  match type of Ecm with _ = ?r => match goal with |- context [commit ?a ?b ?c ?d ?i ?j ?k ?l] => replace (commit a b c d i j k l) with r by (symmetry; exact Ecm) end end.
  (* the text, cell by cell *)
  assert (Hk : forall k ch, nth_error chars k = Some ch ->
     f (x + Z.of_nat k, h - 1) = Some (plain_cell (ch, sp), Z.of_nat k =? zlen (s_text sp) - 1) /\ 0 <= x + Z.of_nat k < w /\ x <= x + Z.of_nat k < x + zlen (s_text sp)).
  { intros k ch E. assert (Hkl : (k < List.length chars)%nat) by (apply nth_error_Some; congruence).
    destruct (spoiled_strip t e sp k ch Hn E) as [ch' [E1 [E2 E3]]]. fold chars in E1, E3. unfold f. rewrite Hout. unfold row_nth. cbn [fst snd].
    rewrite Z.eqb_refl, (proj2 (Z.leb_le x (x + Z.of_nat k))) by lia. cbn [andb]. replace (Z.to_nat (x + Z.of_nat k - x)) with k by lia.
    rewrite E1. cbn [option_map okf]. rewrite E2, E3. unfold zlen in *. split; [|lia]. unfold plain_cell. do 2 f_equal.
    rewrite <- L. destruct (Nat.eqb_spec (S k) (List.length chars)), (Z.eqb_spec (Z.of_nat k) (Z.of_nat (List.length chars) - 1)); auto; lia. }
  assert (Hnone : forall q, ~ (snd q = h - 1 /\ x <= fst q < x + zlen (s_text sp)) -> f q = None).
  { intros q Hq. unfold f. rewrite Hout. destruct (row_nth x (h - 1) (spoiled (S t) chars) q) as [ch|] eqn:E; [|reflexivity].
    apply row_nth_in in E. rewrite Lb in E. contradiction. }
  assert (Hlast : forall X, 0 <= X < w -> mget cells1 X (h - 1) = Some ([], None, None)).
  { intros X HX. unfold mget, cells1. destruct Hs as [H0 _]. cbn [List.length] in H0.
    rewrite nth_error_app2 by lia. replace (Z.to_nat (h - 1) - List.length cells0)%nat with O by lia. cbn [nth_error].
    rewrite nth_error_map. assert (E : nth_error (range w) (Z.to_nat X) <> None) by (apply nth_error_Some; rewrite range_length; lia).
    destruct (nth_error (range w) (Z.to_nat X)); [reflexivity|congruence]. }
  assert (Hch : forall q, on_screen w h q -> (changes f cells1 q = true <-> snd q = h - 1 /\ x <= fst q < x + zlen (s_text sp))).
  { intros q Hq. split.
    - intro E. assert (Dc : (snd q = h - 1 /\ x <= fst q < x + zlen (s_text sp)) \/ ~ (snd q = h - 1 /\ x <= fst q < x + zlen (s_text sp))) by lia.
      destruct Dc as [Dc|Dc]; auto. unfold changes in E. rewrite (Hnone q Dc) in E. discriminate.
    - intros [E1 E2]. destruct (nth_error chars (Z.to_nat (fst q - x))) as [ch|] eqn:E.
      2: { apply nth_error_None in E. unfold zlen in *. lia. }
      destruct (Hk _ ch E) as [F _]. replace (x + Z.of_nat (Z.to_nat (fst q - x)), h - 1) with q in F by (destruct q; cbn in *; f_equal; lia).
      unfold changes. rewrite F. rewrite E1. rewrite Hlast by (destruct Hq; lia). unfold plain_cell, cell_eqb. cbn [opt_color_eqb].
      rewrite andb_false_r. reflexivity. }
  assert (Hnd : NoDup (filter (changes f cells1) (positions w h))) by apply NoDup_filter, positions_NoDup.
  assert (Hfn : forall q, In q (filter (changes f cells1) (positions w h)) -> f q <> None).
  { intros q Hq. apply filter_In in Hq. destruct Hq as [_ Hq]. unfold changes in Hq. destruct (f q); congruence. }
  assert (Hex : forall q, existsb (pos_eqb q) (filter (changes f cells1) (positions w h)) = true <-> snd q = h - 1 /\ x <= fst q < x + zlen (s_text sp)).
  { intro q. rewrite existsb_exists. split.
    - intros [q' [Hi Hq]]. apply pos_eqb_iff in Hq. subst q'. apply filter_In in Hi. rewrite positions_in in Hi. destruct Hi as [H1 H2]. now apply (Hch q).
    - intro H1. exists q. split; [|apply pos_eqb_refl]. apply filter_In. rewrite positions_in.
      assert (on_screen w h q) by (unfold on_screen; lia). split; auto. now apply Hch. }
  eexists. eexists. split; [apply f_equal2; [reflexivity|f_equal]|split; [|apply tainted_put; exact Hc1]].
  { (* the count *)
    assert (P : Permutation (filter (changes f cells1) (positions w h)) (map (fun k => (x + k, h - 1)) (range (zlen (s_text sp))))).
    { apply NoDup_Permutation; auto.
      - apply FinFun.Injective_map_NoDup; [|apply range_NoDup]. intros a b E. injection E. lia.
      - intro q. split; intro Hq.
        + apply filter_In in Hq. rewrite positions_in in Hq. destruct Hq as [H1 H2]. apply Hch in H2; auto. apply in_map_iff. exists (fst q - x).
          split; [destruct q; cbn in *; f_equal; lia|apply in_range; lia].
        + apply in_map_iff in Hq. destruct Hq as [k [<- Hk']]. apply in_range in Hk'. apply filter_In. rewrite positions_in.
          assert (on_screen w h (x + k, h - 1)) by (unfold on_screen; cbn; lia). split; auto. apply Hch; auto. cbn. lia. }
    apply Permutation_length in P. unfold zlen. unfold zlen in P. rewrite P, map_length, range_length. lia. }
  assert (On : forall cs bf cu of q, on_screen w h q -> cell_at (mkScreen w h cs bf cu of) q = mget cs (fst q) (snd q)).
  { intros cs bf cu of q Hq. rewrite cell_at_on by exact Hq. reflexivity. }
  split; cbn [sc_w sc_h sc_cells sc_buf sc_cursor sc_off].
  - auto.
  - reflexivity.
  - apply shaped_dims. exact D'.
  - intro Hk0. unfold keyed in *. cbn [sc_buf]. now apply log_change_NoDup.
  - intros q [Q1 Q2]. fold w h in Q1, Q2. assert (Hq : on_screen w h q) by (unfold on_screen; lia).
    rewrite On by exact Hq. rewrite G by exact Hq.
    destruct (changes f cells1 q) eqn:E; [apply Hch in E; auto; lia|].
    unfold cell_at. cbn [fst snd]. rewrite (proj2 (Z.leb_le 0 (fst q))), (proj2 (Z.leb_le 0 (snd q + 1))) by lia. cbn [andb].
    rewrite Ecells. unfold mget, cells1. destruct Hs as [H0 _]. cbn [List.length] in H0.
    rewrite nth_error_app1 by lia. replace (Z.to_nat (snd q + 1)) with (S (Z.to_nat (snd q))) by lia. reflexivity.
  - intros k ch E. destruct (Hk k ch E) as [F [F1 F2]]. assert (Hq : on_screen w h (x + Z.of_nat k, h - 1)) by (unfold on_screen; cbn; lia).
    fold h. rewrite On by exact Hq. rewrite G by exact Hq.
    rewrite (proj2 (Hch _ Hq)) by (cbn; lia). transitivity (option_map fst (f (x + Z.of_nat k, h - 1))); [reflexivity|]. rewrite F. reflexivity.
  - intros X HX Hout'. fold w in HX. assert (Hq : on_screen w h (X, h - 1)) by (unfold on_screen; cbn; lia). fold h. rewrite On by exact Hq. rewrite G by exact Hq.
    destruct (changes f cells1 (X, h - 1)) eqn:E; [apply Hch in E; auto; cbn in E; lia|]. cbn [fst snd]. now apply Hlast.
  - intros k ch E. destruct (Hk k ch E) as [F [F1 F2]]. fold h. unfold pending. cbn [sc_buf]. rewrite log_change_get by auto.
    rewrite (proj2 (Hex _)) by (cbn; lia). rewrite F. cbn [option_map fst snd]. f_equal.
    rewrite <- (drawn_entry e (plain_cell (ch, sp))). unfold cell_entry. destruct (plain_cell (ch, sp)) as [[tt ff] bb]. rewrite app_nil_r. reflexivity.
  - intros q Hq. unfold pending. cbn [sc_buf]. rewrite log_change_get by auto. destruct (existsb _ _) eqn:E; [|reflexivity].
    apply Hex in E. contradiction.
Qed.
Lemma scroll_write : forall e c s sp x y tb force, cache_ok e c -> shaped s ->
  opaque_span sp -> fine_span sp -> ~ In NL (s_text sp) -> s_text sp <> [] ->
  0 <= x -> x + zlen (s_text sp) <= sc_w s -> 0 < sc_h s -> sc_h s + sc_off s <= y ->
  exists s' c', write_bulk e c s [((x, y), [sp])] tb force = (s', c', Ok (zlen (s_text sp))) /\ scrolled e sp x y s s'.
Proof.
  intros e c s sp x y tb force Hc H1 H2 H3 H4 H5 H6 H7 H8 H9.
  destruct (scroll_write_tainted e c s sp x y tb force (ok_tainted _ _ Hc) H1 H2 H3 H4 H5 H6 H7 H8 H9) as [s' [c' [A [B _]]]]. eauto.
Qed.
