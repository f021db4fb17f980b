(** Slices with a step: proofs. *)
From Coq Require Import ZArith List Bool String Lia Sorting.Sorted.
From Verif Require Import PyBase PyLemmas F64 ColorModel ColorSpec AnsiRe SpanModel SpanSpec SpanProofs SpanProofs2 KeyUseModel ColorProofs2 StepModel StepSpec.
Import ListNotations.
Open Scope Z_scope.

Lemma sorted_same : forall l l' : list Z, StronglySorted Z.lt l -> StronglySorted Z.lt l' -> (forall i, In i l <-> In i l') -> l = l'.
Proof.
  induction l as [|a l IH]; intros [|b l'] S S' H; [reflexivity|destruct (proj2 (H b) (or_introl eq_refl))|destruct (proj1 (H a) (or_introl eq_refl))|].
  inversion S as [|? ? S1 S2]; subst. inversion S' as [|? ? S1' S2']; subst. rewrite Forall_forall in S2, S2'.
  assert (E : a = b).
  { destruct (proj1 (H a) (or_introl eq_refl)) as [E|E]; [now symmetry|]. destruct (proj2 (H b) (or_introl eq_refl)) as [F|F]; [exact F|].
    specialize (S2 _ F). specialize (S2' _ E). lia. }
  subst b. f_equal. apply IH; auto. intro i. specialize (H i). cbn [In] in H. split; intro Hi.
  - destruct (proj1 H (or_intror Hi)) as [E|E]; [|exact E]. subst i. specialize (S2 _ Hi). lia.
  - destruct (proj2 H (or_intror Hi)) as [E|E]; [|exact E]. subst i. specialize (S2' _ Hi). lia.
Qed.
Lemma in_range : forall n i, In i (range n) <-> 0 <= i < n.
Proof.
  intros n i. unfold range. rewrite in_map_iff. split.
  - intros [k [E H]]. apply in_seq in H. lia.
  - intro H. exists (Z.to_nat i). rewrite in_seq. lia.
Qed.
Lemma map_sorted : forall (f : Z -> Z) n, (forall i j, i < j -> f i < f j) -> StronglySorted Z.lt (map f (range n)).
Proof.
  intros f n Hf. unfold range. rewrite map_map. generalize 0%nat. induction (Z.to_nat n) as [|m IH]; intro b; cbn [seq map]; constructor; auto.
  apply Forall_forall. intros z Hz. apply in_map_iff in Hz. destruct Hz as [j [E Hj]]. apply in_seq in Hj. subst z. apply Hf. lia.
Qed.
Lemma filter_sorted : forall (f : Z -> bool) l, StronglySorted Z.lt l -> StronglySorted Z.lt (filter f l).
Proof.
  intros f l S. induction S as [|a l S IH H]; cbn [filter]; [constructor|]. destruct (f a); [|exact IH].
  constructor; [exact IH|]. apply Forall_forall. intros z Hz. apply filter_In in Hz. rewrite Forall_forall in H. now apply H.
Qed.
Lemma range_sorted : forall n, StronglySorted Z.lt (range n).
Proof. intro n. rewrite <- (map_id (range n)). apply map_sorted. auto. Qed.

Lemma forward_positions : forall n lo hi k, 0 < k -> 0 <= lo -> hi <= n ->
  map (fun j => lo + j * k) (range (slice_count lo hi k)) = filter (fun i => (lo <=? i) && (i <? hi) && ((i - lo) mod k =? 0)) (range n).
Proof.
  intros n lo hi k Hk Hlo Hhi. apply sorted_same.
  - apply map_sorted. intros. nia.
  - apply filter_sorted, range_sorted.
  - intro i. rewrite filter_In, in_range, !andb_true_iff, Z.leb_le, Z.ltb_lt, Z.eqb_eq, in_map_iff.
    unfold slice_count. rewrite (proj2 (Z.ltb_ge k 0)) by lia. split.
    + intros [j [E Hj]]. apply in_range in Hj. destruct (lo <? hi) eqn:El; [|lia]. apply Z.ltb_lt in El.
      assert (j <= (hi - lo - 1) / k) by lia. pose proof (Z.mul_div_le (hi - lo - 1) k Hk). subst i.
      replace (lo + j * k - lo) with (j * k) by lia. rewrite Z.mod_mul by lia. nia.
    + intros [H1 [[H2 H3] H4]]. rewrite (proj2 (Z.ltb_lt lo hi)) by lia. exists ((i - lo) / k).
      pose proof (Z.div_mod (i - lo) k ltac:(lia)) as D. rewrite H4 in D. split; [lia|]. apply in_range.
      split; [apply Z.div_pos; lia|]. assert ((i - lo) / k <= (hi - lo - 1) / k) by (apply Z.div_le_mono; lia). lia.
Qed.
Lemma backward_positions : forall n lo hi k, k < 0 -> -1 <= lo -> hi < n ->
  map (fun j => hi + j * k) (range (slice_count hi lo k)) = rev (filter (fun i => (lo <? i) && (i <=? hi) && ((hi - i) mod - k =? 0)) (range n)).
Proof.
  intros n lo hi k Hk Hlo Hhi.
  assert (R : forall l, StronglySorted Z.lt l -> rev (map Z.opp (rev (map Z.opp l))) = l).
  { intros l _. rewrite map_rev, rev_involutive, map_map. rewrite (map_ext (fun x => - - x) (fun x => x)) by (intro; lia). apply map_id. }
  assert (E : map Z.opp (map (fun j => hi + j * k) (range (slice_count hi lo k))) = map Z.opp (rev (filter (fun i => (lo <? i) && (i <=? hi) && ((hi - i) mod - k =? 0)) (range n)))).
  { apply sorted_same.
    - rewrite map_map. apply map_sorted. intros. nia.
    - rewrite map_rev. set (l := filter _ _). assert (S : StronglySorted Z.lt l) by (apply filter_sorted, range_sorted). clearbody l. clear - S.
      induction S as [|a l S IH H]; [constructor|]. cbn [map rev]. 
      assert (G : forall (u : list Z) z, StronglySorted Z.lt u -> (forall i, In i u -> i < z) -> StronglySorted Z.lt (u ++ [z])).
      { clear. intros u z S. induction S as [|b u S IH F]; intro Hz; cbn [app]; [constructor; constructor|]. constructor.
        - apply IH. intros i Hi. apply Hz. now right.
        - apply Forall_app. split; [exact F|]. constructor; [|constructor]. apply Hz. now left. }
      apply G; [exact IH|]. intros i Hi. apply in_rev in Hi. apply in_map_iff in Hi. destruct Hi as [j [E Hj]]. rewrite Forall_forall in H. specialize (H _ Hj). lia.
    - intro i. rewrite !in_map_iff. split; intros [p [Ep Hp]]; exists p; (split; [exact Ep|]).
      + apply in_rev. rewrite rev_involutive. rewrite filter_In, in_range, !andb_true_iff, Z.leb_le, Z.ltb_lt, Z.eqb_eq.
        apply in_map_iff in Hp. destruct Hp as [j [E Hj]]. apply in_range in Hj. unfold slice_count in Hj. rewrite (proj2 (Z.ltb_lt k 0)) in Hj by lia.
        destruct (lo <? hi) eqn:El; [|lia]. apply Z.ltb_lt in El.
        assert (j <= (hi - lo - 1) / - k) by lia. pose proof (Z.mul_div_le (hi - lo - 1) (- k) ltac:(lia)). subst p.
        replace (hi - (hi + j * k)) with (j * - k) by lia. rewrite Z.mod_mul by lia. nia.
      + apply in_rev in Hp. rewrite filter_In, in_range, !andb_true_iff, Z.leb_le, Z.ltb_lt, Z.eqb_eq in Hp. destruct Hp as [H1 [[H2 H3] H4]].
        apply in_map_iff. exists ((hi - p) / - k). pose proof (Z.div_mod (hi - p) (- k) ltac:(lia)) as D. rewrite H4 in D. split; [lia|].
        apply in_range. unfold slice_count. rewrite (proj2 (Z.ltb_lt k 0)), (proj2 (Z.ltb_lt lo hi)) by lia.
        split; [apply Z.div_pos; lia|]. assert ((hi - p) / - k <= (hi - lo - 1) / - k) by (apply Z.div_le_mono; lia). lia. }
  apply (f_equal (map Z.opp)) in E. rewrite !map_map in E.
  rewrite (map_ext (fun x => - - x) (fun x => x)) in E by (intro; lia). rewrite map_id in E.
  rewrite <- E. apply map_ext. intro. lia.
Qed.
Lemma opt_firstn : forall (t : str) k, opt_list (nth_error t k) = firstn 1 (skipn k t).
Proof. induction t as [|c t IH]; intros [|k]; cbn [nth_error skipn]; try reflexivity. apply IH. Qed.
Lemma flat_map_map : forall A B C (f : A -> B) (g : B -> list C) l, flat_map g (map f l) = flat_map (fun a => g (f a)) l.
Proof. intros. induction l as [|a l IH]; [reflexivity|]. cbn. now rewrite IH. Qed.

Lemma slice_step_spec : forall a b k t, k <> 0 -> slice_step a b k t = Ok (characters_at t (positions_taken (zlen t) a b k)).
Proof.
  intros a b k t Hk. unfold slice_step. rewrite (proj2 (Z.eqb_neq k 0) Hk). f_equal. unfold characters_at, positions_taken.
  pose proof (zlen_nonneg _ t) as Hn. set (n := zlen t) in *.
  rewrite (flat_map_ext _ (fun j => firstn 1 (skipn (Z.to_nat (slice_start n a k + j * k)) t))) by (intro; apply opt_firstn).
  rewrite <- (flat_map_map _ _ _ (fun j => slice_start n a k + j * k) (fun i => firstn 1 (skipn (Z.to_nat i) t))). f_equal.
  destruct (0 <? k) eqn:Ek.
  - apply Z.ltb_lt in Ek.
    assert (S : slice_start n a k = Z.min n (match a with Some a => Z.max 0 (from_end n a) | None => 0 end)).
    { unfold slice_start, adjust, from_end. rewrite (proj2 (Z.ltb_ge k 0)) by lia. destruct a as [a|]; [destruct (a <? 0) eqn:Ea; [apply Z.ltb_lt in Ea|apply Z.ltb_ge in Ea]|]; lia. }
    assert (T : slice_stop n b k = Z.max 0 (Z.min n (match b with Some b => from_end n b | None => n end))).
    { unfold slice_stop, adjust, from_end. rewrite (proj2 (Z.ltb_ge k 0)) by lia. destruct b as [b|]; [destruct (b <? 0) eqn:Eb; [apply Z.ltb_lt in Eb|apply Z.ltb_ge in Eb]|]; lia. }
    unfold taken_forwards. set (lo := match a with Some a => _ | None => _ end) in *. set (hi := match b with Some b => _ | None => _ end) in *.
    assert (L0 : 0 <= lo) by (unfold lo; destruct a; lia). clearbody lo hi. rewrite S, T.
    rewrite (forward_positions n) by lia. apply filter_ext_in. intros i Hi. apply in_range in Hi.
    destruct (Z.le_gt_cases lo n) as [Hl|Hl].
    + rewrite (Z.min_r n lo) by lia. f_equal. f_equal.
      destruct (Z.ltb_spec i (Z.max 0 (Z.min n hi))), (Z.ltb_spec i hi); auto; lia.
    + rewrite (Z.min_l n lo) by lia. rewrite (proj2 (Z.leb_gt n i)), (proj2 (Z.leb_gt lo i)) by lia. reflexivity.
  - apply Z.ltb_ge in Ek. assert (Hk' : k < 0) by lia.
    assert (S : slice_start n a k = Z.max (-1) (match a with Some a => Z.min (n - 1) (from_end n a) | None => n - 1 end)).
    { unfold slice_start, adjust, from_end. rewrite (proj2 (Z.ltb_lt k 0)) by lia. destruct a as [a|]; [destruct (a <? 0) eqn:Ea; [apply Z.ltb_lt in Ea|apply Z.ltb_ge in Ea]|]; lia. }
    assert (T : slice_stop n b k = Z.max (-1) (Z.min (n - 1) (match b with Some b => from_end n b | None => -1 end))).
    { unfold slice_stop, adjust, from_end. rewrite (proj2 (Z.ltb_lt k 0)) by lia. destruct b as [b|]; [destruct (b <? 0) eqn:Eb; [apply Z.ltb_lt in Eb|apply Z.ltb_ge in Eb]|]; lia. }
    unfold taken_backwards. set (hi := match a with Some a => _ | None => _ end) in *. set (lo := match b with Some b => _ | None => _ end) in *.
    assert (L0 : hi <= n - 1) by (unfold hi; destruct a; lia). clearbody lo hi. rewrite S, T.
    rewrite (backward_positions n) by lia. f_equal. apply filter_ext_in. intros i Hi. apply in_range in Hi.
    destruct (Z.le_gt_cases (-1) hi) as [Hl|Hl].
    + rewrite (Z.max_r (-1) hi) by lia.
      destruct (Z.leb_spec i hi); [|now rewrite !andb_false_r].
      destruct (Z.ltb_spec (Z.max (-1) (Z.min (n - 1) lo)) i), (Z.ltb_spec lo i); auto; lia.
    + rewrite (Z.max_l (-1) hi) by lia. rewrite (proj2 (Z.leb_gt i (-1))), (proj2 (Z.leb_gt i hi)) by lia. now rewrite !andb_false_r.
Qed.

Lemma step_of_span : forall s a b k,
  (k <> 0 -> span_slice_step s a b k = Ok (mkSpan (characters_at (s_text s) (positions_taken (zlen (s_text s)) a b k)) (s_fg s) (s_bg s) (s_link s) (s_flags s) true)) /\
  (k = 0 -> span_slice_step s a b k = Err ValueError).
Proof.
  intros s a b k. split; intro Hk.
  - unfold span_slice_step. rewrite slice_step_spec by exact Hk. reflexivity.
  - subst k. reflexivity.
Qed.
(** forwards and whole, by ones; backwards *)
Lemma characters_range : forall t, characters_at t (range (zlen t)) = t.
Proof.
  intro t. unfold characters_at, range, zlen. rewrite Nat2Z.id. rewrite flat_map_map.
  rewrite (flat_map_ext _ (fun k => opt_list (nth_error t k))) by (intro; now rewrite Nat2Z.id, opt_firstn).
  induction t as [|c t IH]; [reflexivity|]. cbn [List.length seq flat_map nth_error opt_list app]. f_equal.
  rewrite <- seq_shift, flat_map_map. exact IH.
Qed.
Lemma filter_all : forall (f : Z -> bool) l, (forall i, In i l -> f i = true) -> filter f l = l.
Proof. intros f l H. induction l as [|a l IH]; [reflexivity|]. cbn [filter]. rewrite H by now left. rewrite IH; [reflexivity|]. intros. apply H. now right. Qed.
Lemma characters_rev : forall t l, characters_at t (rev l) = rev (characters_at t l).
Proof.
  intros t l. unfold characters_at. induction l as [|i l IH]; [reflexivity|]. cbn [rev flat_map]. rewrite flat_map_app, IH, rev_app_distr. f_equal.
  cbn [flat_map]. rewrite app_nil_r. destruct (skipn (Z.to_nat i) t); reflexivity.
Qed.
Lemma reversed : forall s, span_slice_step s None None (-1) = Ok (mkSpan (rev (s_text s)) (s_fg s) (s_bg s) (s_link s) (s_flags s) true).
Proof.
  intro s. rewrite (proj1 (step_of_span s None None (-1))) by lia. unfold positions_taken. change (0 <? -1) with false. cbv iota.
  rewrite filter_all, characters_rev, characters_range; [reflexivity|].
  intros i Hi. apply in_range in Hi. unfold taken_backwards. rewrite (proj2 (Z.ltb_lt (-1) i)), (proj2 (Z.leb_le i _)) by lia.
  change (- -1) with 1. now rewrite Z.mod_1_r.
Qed.

(** * Iteration *)
Lemma iteration : forall s,
  (forall k sp, nth_error (span_iter s) k = Some sp <-> span_index s (Z.of_nat k) = Ok sp) /\
  span_index s (zlen (s_text s)) = Err IndexError /\
  List.concat (map s_text (span_iter s)) = s_text s.
Proof.
  intro s. split; [|split].
  - intros k sp. unfold span_iter. rewrite nth_error_map. unfold span_index, index.
    rewrite (proj2 (Z.ltb_ge (Z.of_nat k) 0)) by lia. cbv zeta. rewrite (proj2 (Z.ltb_ge (Z.of_nat k) 0)) by lia. cbn [orb].
    rewrite Nat2Z.id. destruct (zlen (s_text s) <=? Z.of_nat k) eqn:E.
    + apply Z.leb_le in E. unfold zlen in E. assert (N : nth_error (s_text s) k = None) by (apply nth_error_None; lia). rewrite N.
      cbn [option_map bindr]. split; discriminate.
    + destruct (nth_error (s_text s) k) as [c|] eqn:N; cbn [option_map bindr]; split; intro H; try discriminate; injection H as <-; reflexivity.
  - unfold span_index, index. pose proof (zlen_nonneg _ (s_text s)). rewrite (proj2 (Z.ltb_ge (zlen (s_text s)) 0)) by lia. cbv zeta.
    rewrite (proj2 (Z.ltb_ge (zlen (s_text s)) 0)) by lia. rewrite Z.leb_refl. reflexivity.
  - unfold span_iter. rewrite map_map. cbn [mutate fold_left apply_mopt s_text]. induction (s_text s) as [|c t IH]; [reflexivity|]. cbn. now rewrite IH.
Qed.

(** * Colors by description *)
Lemma described_color : forall s d,
  (forall c, color_of d = Ok c -> as_color_desc s d = Ok (as_color s c)) /\
  (forall x, color_of d = Err x -> as_color_desc s d = Err x).
Proof. intros s d. unfold as_color_desc. split; intros ? ->; reflexivity. Qed.

(** * The command [slate size] *)
Lemma size_line : forall w h, exists a b, run_size (w, h) = a ++ lit " x "%string ++ b ++ [NL] /\ py_int a = Ok w /\ py_int b = Ok h.
Proof.
  intros w h. exists (dec w), (dec h). split; [|split; apply py_int_dec_all].
  unfold run_size. cbn [fst snd]. unfold join. rewrite <- !app_assoc. reflexivity.
Qed.
