(** Proofs about matrices, the change buffer and the layout of writes. *)
From Coq Require Import ZArith List Bool Lia Sorting.Sorted Permutation.
From Verif Require Import PyBase PyLemmas F64 SpaceModel ColorModel SpanModel ScreenModel ScreenSpec.
Open Scope Z_scope.

(** * Matrices *)
Definition dims {A} (w h : Z) (m : list (list A)) : Prop :=
  List.length m = Z.to_nat h /\ Forall (fun r => List.length r = Z.to_nat w) m.

Lemma upd_nth_length : forall A n (f : A -> A) l, List.length (upd_nth n f l) = List.length l.
Proof. induction n as [|n IH]; intros f [|a l]; cbn; auto. Qed.
Lemma set_nth_length : forall A n (v : A) l, List.length (set_nth n v l) = List.length l.
Proof. induction n as [|n IH]; intros f [|a l]; cbn; auto. Qed.
Lemma nth_upd : forall A n (f : A -> A) l k, nth_error (upd_nth n f l) k =
  if (k =? n)%nat then option_map f (nth_error l k) else nth_error l k.
Proof.
  induction n as [|n IH]; intros f [|a l] [|k]; cbn; auto.
  - now destruct (k =? n)%nat.
Qed.
Lemma nth_set : forall A n (v : A) l k, nth_error (set_nth n v l) k =
  if (k =? n)%nat then option_map (fun _ => v) (nth_error l k) else nth_error l k.
Proof.
  induction n as [|n IH]; intros f [|a l] [|k]; cbn; auto.
  - now destruct (k =? n)%nat.
Qed.
Lemma upd_nth_Forall : forall A (P : A -> Prop) n f l, Forall P l -> (forall a, P a -> P (f a)) -> Forall P (upd_nth n f l).
Proof.
  induction n as [|n IH]; intros f l H Hf; destruct H as [|a l Ha Hl]; cbn; auto.
Qed.
Lemma dims_upd : forall A w h (m : list (list A)) y f, dims w h m ->
  (forall r, List.length (f r) = List.length r) -> dims w h (upd_nth y f m).
Proof.
  intros A w h m y f [H1 H2] Hf. split; [now rewrite upd_nth_length|].
  apply upd_nth_Forall; auto. intros a Ha. now rewrite Hf.
Qed.
Lemma dims_mset : forall A w h (m : list (list A)) x y v, dims w h m -> dims w h (mset m x y v).
Proof. intros. unfold mset. apply dims_upd; auto. intro. apply set_nth_length. Qed.
Lemma dims_push : forall w h m x y c, dims w h m -> dims w h (am_push m x y c).
Proof. intros w h m x y [c|] H; cbn; auto. apply dims_upd; auto. intro. apply upd_nth_length. Qed.

Lemma dims_get : forall A w h (m : list (list A)) x y, dims w h m -> 0 <= x -> 0 <= y ->
  match mget m x y with Some _ => x < w /\ y < h | None => w <= x \/ h <= y end.
Proof.
  intros A w h m x y [H1 H2] Hx Hy. unfold mget. destruct (nth_error m (Z.to_nat y)) as [r|] eqn:E.
  - assert (Hl : List.length r = Z.to_nat w).
    { eapply Forall_forall in H2; eauto. eapply nth_error_In; eauto. }
    assert (Z.to_nat y < List.length m)%nat by (apply nth_error_Some; congruence).
    destruct (nth_error r (Z.to_nat x)) eqn:E2.
    + assert (Z.to_nat x < List.length r)%nat by (apply nth_error_Some; congruence). lia.
    + apply nth_error_None in E2. lia.
  - apply nth_error_None in E. lia.
Qed.
Lemma dims_get_some : forall A w h (m : list (list A)) x y, dims w h m -> 0 <= x < w -> 0 <= y < h ->
  exists v, mget m x y = Some v.
Proof.
  intros A w h m x y H Hx Hy. pose proof (dims_get A w h m x y H ltac:(lia) ltac:(lia)) as G.
  destruct (mget m x y); eauto. lia.
Qed.
Lemma mget_mset : forall A (m : list (list A)) x y v x' y', 0 <= x -> 0 <= y -> 0 <= x' -> 0 <= y' ->
  mget (mset m x y v) x' y' =
  if (x' =? x) && (y' =? y) then option_map (fun _ => v) (mget m x' y') else mget m x' y'.
Proof.
  intros A m x y v x' y' Hx Hy Hx' Hy'. unfold mget, mset. rewrite nth_upd.
  destruct (Nat.eqb_spec (Z.to_nat y') (Z.to_nat y)) as [E|E].
  - assert (y' = y) by lia. subst y'. rewrite Z.eqb_refl, andb_true_r.
    destruct (nth_error m (Z.to_nat y)) as [r|]; cbn; [|now destruct (x' =? x)].
    rewrite nth_set. destruct (Nat.eqb_spec (Z.to_nat x') (Z.to_nat x)).
    + assert (x' = x) by lia. subst. now rewrite Z.eqb_refl.
    + destruct (Z.eqb_spec x' x); [lia|auto].
  - destruct (Z.eqb_spec y' y); [lia|]. now rewrite andb_false_r.
Qed.
Lemma mget_push : forall (m : amatrix) x y c x' y', 0 <= x -> 0 <= y -> 0 <= x' -> 0 <= y' ->
  mget (am_push m x y c) x' y' =
  if (x' =? x) && (y' =? y) then option_map (fun l => l ++ opt_list c) (mget m x' y') else mget m x' y'.
Proof.
  intros m x y c x' y' Hx Hy Hx' Hy'. destruct c as [c|]; cbn [am_push opt_list].
  2: { destruct (mget m x' y'); cbn; rewrite ?app_nil_r; now destruct (_ && _). }
  unfold mget. rewrite nth_upd.
  destruct (Nat.eqb_spec (Z.to_nat y') (Z.to_nat y)) as [E|E].
  - assert (y' = y) by lia. subst y'. rewrite Z.eqb_refl, andb_true_r.
    destruct (nth_error m (Z.to_nat y)) as [r|]; cbn; [|now destruct (x' =? x)].
    rewrite nth_upd. destruct (Nat.eqb_spec (Z.to_nat x') (Z.to_nat x)).
    + assert (x' = x) by lia. subst. now rewrite Z.eqb_refl.
    + destruct (Z.eqb_spec x' x); [lia|auto].
  - destruct (Z.eqb_spec y' y); [lia|]. now rewrite andb_false_r.
Qed.
Lemma dims_blank : forall A w h (a : A), dims w h (blank_matrix w h a).
Proof.
  intros. unfold blank_matrix. split.
  - now rewrite map_length, range_length.
  - apply Forall_forall. intros r Hr. apply in_map_iff in Hr. destruct Hr as [y [<- _]].
    now rewrite map_length, range_length.
Qed.
Lemma mget_blank : forall A w h (a : A) x y, 0 <= x < w -> 0 <= y < h -> mget (blank_matrix w h a) x y = Some a.
Proof.
  intros. unfold mget, blank_matrix. rewrite nth_error_map, nth_range by lia. cbn [option_map].
  rewrite nth_error_map, nth_range by lia. reflexivity.
Qed.
Lemma nth_ext_error : forall A (l m : list A), (forall k, nth_error l k = nth_error m k) -> l = m.
Proof.
  induction l as [|a l IH]; intros [|b m] H; auto.
  - specialize (H 0%nat). discriminate.
  - specialize (H 0%nat). discriminate.
  - pose proof (H 0%nat) as H0. cbn in H0. injection H0 as ->. f_equal. apply IH.
    intro k. apply (H (S k)).
Qed.
Lemma mget_ext : forall A w h (m m' : list (list A)), dims w h m -> dims w h m' ->
  (forall x y, 0 <= x < w -> 0 <= y < h -> mget m x y = mget m' x y) -> m = m'.
Proof.
  intros A w h m m' [H1 H2] [H1' H2'] H.
  assert (He : forall k, nth_error m k = nth_error m' k).
  { intro k. destruct (Nat.lt_ge_cases k (Z.to_nat h)) as [Hk|Hk].
    2: { rewrite (proj2 (nth_error_None m k)) by lia. rewrite (proj2 (nth_error_None m' k)) by lia. auto. }
    destruct (nth_error m k) as [r|] eqn:E; [|apply nth_error_None in E; lia].
    destruct (nth_error m' k) as [r'|] eqn:E'; [|apply nth_error_None in E'; lia].
    f_equal.
    assert (Hr : List.length r = Z.to_nat w) by (eapply Forall_forall in H2; eauto; eapply nth_error_In; eauto).
    assert (Hr' : List.length r' = Z.to_nat w) by (eapply Forall_forall in H2'; eauto; eapply nth_error_In; eauto).
    apply nth_ext_error. intro j. destruct (Nat.lt_ge_cases j (Z.to_nat w)) as [Hj|Hj].
    - specialize (H (Z.of_nat j) (Z.of_nat k) ltac:(lia) ltac:(lia)). unfold mget in H.
      rewrite !Nat2Z.id, E, E' in H. auto.
    - rewrite (proj2 (nth_error_None r j)) by lia. rewrite (proj2 (nth_error_None r' j)) by lia. auto. }
  apply nth_ext_error. auto.
Qed.

(** * Layout *)
Lemma pos_eqb_iff : forall a b, pos_eqb a b = true <-> a = b.
Proof.
  intros [a b] [c d]. unfold pos_eqb. cbn. rewrite andb_true_iff, !Z.eqb_eq. split; [intros []; congruence|].
  intro H. injection H. auto.
Qed.
Lemma pos_eqb_refl : forall a, pos_eqb a a = true. Proof. intro. now apply pos_eqb_iff. Qed.
Lemma pos_eqb_sym : forall a b, pos_eqb a b = pos_eqb b a.
Proof. intros. apply eq_true_iff_eq. rewrite !pos_eqb_iff. split; auto. Qed.

(** the write of one item *)
Definition put (m : wmatrix * amatrix) (i : pos * (str * span)) : wmatrix * amatrix :=
  let '(wm, am) := m in
  let '((x, y), (ch, s)) := i in
  let old := match mget wm x y with Some o => o | None => None end in
  let '(c, push) := over s ch old in
  (mset wm x y (Some c), am_push am x y push).

Lemma number_app : forall A w h p (a b : list A), 
  number w h p (a ++ b) = number w h p a ++ number w h (p + zlen a) b.
Proof.
  intros A w h p a. revert p. induction a as [|c a IH]; intros p b; cbn [app number].
  - rewrite zlen_nil, Z.add_0_r. auto.
  - destruct (p <? w * h) eqn:E.
    + rewrite IH, zlen_cons. cbn. do 2 f_equal. f_equal; lia.
    + cbn. destruct b as [|d b]; auto. cbn. pose proof (zlen_nonneg _ a).
      rewrite zlen_cons. replace (p + (1 + zlen a) <? w * h) with false; auto.
      symmetry. apply Z.ltb_ge. apply Z.ltb_ge in E. lia.
Qed.
Lemma number_end : forall A w h p (l : list A), w * h <= p -> number w h p l = [].
Proof. intros A w h p [|a l] H; cbn; auto. apply Z.ltb_ge in H. now rewrite H. Qed.
Lemma number_map : forall A B (f : A -> B) w h p l, number w h p (map f l) = map (fun i => (fst i, f (snd i))) (number w h p l).
Proof.
  intros A B f w h p l. revert p. induction l as [|a l IH]; intro p; cbn; auto.
  destruct (p <? w * h); cbn; auto. now rewrite IH.
Qed.

(** position of the cursor at cell number [p] *)
Lemma cell_number : forall w x y, 0 <= x < w -> (y * w + x) mod w = x /\ (y * w + x) / w = y.
Proof.
  intros w x y H. split.
  - rewrite Z.add_comm, Z.mod_add by lia. apply Z.mod_small; auto.
  - rewrite Z.add_comm, Z.div_add by lia. rewrite Z.div_small by auto. lia.
Qed.
Lemma number_inside : forall A w h p (l : list A) q a, 0 <= p -> 0 < w -> In (q, a) (number w h p l) -> on_screen w h q.
Proof.
  intros A w h p l. revert p. induction l as [|b l IH]; cbn; intros p q a Hp Hw H; [tauto|].
  destruct (p <? w * h) eqn:E; [|contradiction]. apply Z.ltb_lt in E. destruct H as [H|H].
  - injection H as <- <-. unfold on_screen. cbn. split; [apply Z.mod_pos_bound; auto|].
    split; [apply Z.div_pos; lia|]. apply Z.div_lt_upper_bound; lia.
  - apply (IH (p + 1) q a); auto. lia.
Qed.

Definition span_items (s : span) (chars : list str) : list (str * span) := map (fun ch => (ch, s)) chars.

(** the character loop without line breaks *)
Lemma place_spec : forall w h s chars i n x y lst wm am,
  0 <= x < w -> (0 <= y < h \/ (y = h /\ x = 0 /\ 0 <= y)) -> Forall (fun ch => ch <> [NL]) chars ->
  let p := y * w + x in
  let q := Z.min (p + zlen chars) (w * h) in
  exists lst', place w h s chars i n x y lst wm am =
    (q mod w, q / w, lst', fst (fold_left put (number w h p (span_items s chars)) (wm, am)),
     snd (fold_left put (number w h p (span_items s chars)) (wm, am))) /\
    ((chars = [] \/ p = w * h) -> lst' = lst) /\ (chars <> [] -> p < w * h -> lst' = 0 \/ lst' = 1).
Proof.
  intros w h s chars. induction chars as [|ch chars IH]; intros i n x y lst wm am Hx Hy Hc p q.
  - exists lst. cbn [place span_items map number fold_left fst snd].
    assert (Hq : q = p). { unfold q. rewrite zlen_nil. unfold p. nia. }
    rewrite Hq. unfold p. destruct (cell_number w x y Hx) as [-> ->].
    split; auto. split; auto. intro E; now elim E.
  - inversion Hc as [|? ? Hch Hc']; subst.
    destruct Hy as [Hy|[-> [-> Hy]]].
    2: { cbn [place]. exists lst.
      assert (Hp : p = w * h) by (unfold p; lia).
      assert (Hq : q = w * h). { unfold q. pose proof (zlen_nonneg _ (ch :: chars)). lia. }
      rewrite (proj2 (Z.leb_le h h)) by lia. rewrite orb_true_r. cbn [orb].
      rewrite number_end by lia. cbn [fold_left fst snd]. rewrite Hq.
      replace (w * h) with (h * w + 0) by lia. destruct (cell_number w 0 h Hx) as [-> ->].
      split; auto. split; auto. intros. exfalso. lia. }
    assert (Hp : p < w * h). { unfold p. nia. }
    cbn [place]. rewrite (proj2 (Z.leb_gt w x)), (proj2 (Z.ltb_ge x 0)), (proj2 (Z.leb_gt h y)), (proj2 (Z.ltb_ge y 0)) by lia.
    cbn [orb]. rewrite (proj2 (str_eqb_neq ch [NL])) by auto.
    set (nxy := if w <=? x + 1 then (0, y + 1) else (x + 1, y)).
    assert (Hn : exists nx ny, nxy = (nx, ny) /\ 0 <= nx < w /\ (0 <= ny < h \/ (ny = h /\ nx = 0 /\ 0 <= ny)) /\
       ny * w + nx = p + 1).
    { unfold nxy, p. destruct (w <=? x + 1) eqn:E.
      - apply Z.leb_le in E. exists 0, (y + 1). assert (x = w - 1) by lia. subst x.
        repeat match goal with |- _ /\ _ => split end; auto; lia.
      - apply Z.leb_gt in E. exists (x + 1), y.
        repeat match goal with |- _ /\ _ => split end; auto; lia. }
    destruct Hn as [nx [ny [-> [Hnx [Hny Hnp]]]]].
    destruct (over s ch _) as [c push] eqn:Eo.
    edestruct (IH (i + 1) n nx ny (if i =? n - 1 then 1 else 0) (mset wm x y (Some c)) (am_push am x y push) Hnx Hny Hc')
      as [lst' [E [H1 H2]]].
    exists lst'. rewrite Hnp in E. replace (p + 1 + zlen chars) with (p + zlen (ch :: chars)) in E by (rewrite zlen_cons; lia).
    fold q in E. rewrite E. cbn [span_items map number].
    apply Z.ltb_lt in Hp. rewrite Hp. cbn [fold_left].
    assert (Ep : put (wm, am) ((p mod w, p / w), (ch, s)) = (mset wm x y (Some c), am_push am x y push)).
    { unfold put, p. destruct (cell_number w x y Hx) as [-> ->]. rewrite Eo. auto. }
    unfold str in *. rewrite Ep. split; [reflexivity|]. split; [intros [|]; [discriminate|apply Z.ltb_lt in Hp; lia]|]. intros _ _.
    destruct chars as [|d chars].
    + rewrite H1 by auto. destruct (i =? n - 1); auto.
    + destruct (Z.eq_dec (p + 1) (w * h)) as [E2|E2].
      * rewrite H1 by (right; lia). destruct (i =? n - 1); auto.
      * apply H2; [discriminate|]. apply Z.ltb_lt in Hp. lia.
Qed.

(** * The cache of characters *)

Lemma key_eqb_characters : forall e s x a s' x' a', key_eqb e (s, x, a) (s', x', a') = true ->
  get_characters e s x a = get_characters e s' x' a'.
Proof.
  intros e s x a s' x' a' H. unfold key_eqb in H. rewrite !andb_true_iff in H.
  destruct H as [[[[Hx Ha] Hs] _] _]. apply eqb_prop in Hx, Ha. subst.
  unfold span_eqb in Hs. rewrite !andb_true_iff, !str_eqb_eq in Hs.
  destruct Hs as [[[[[[[[Ht _] _] _] _] Hr] _] Hq] Hc]. apply eqb_prop in Hr.
  unfold get_characters. rewrite Ht, Hr, Hq, Hc. reflexivity.
Qed.
Lemma cache_find_ok : forall e c s x a v, cache_ok e c -> cache_find e (s, x, a) c = Some v ->
  v = get_characters e s x a.
Proof.
  induction c as [|[[[s' x'] a'] v'] c IH]; intros s x a v H E; [discriminate|].
  inversion H; subst. cbn [cache_find] in E. destruct (key_eqb _ _ _) eqn:Ek.
  - injection E as <-. now apply key_eqb_characters.
  - eauto.
Qed.
Lemma Forall_filter : forall A (P : A -> Prop) f l, Forall P l -> Forall P (filter f l).
Proof. intros. rewrite Forall_forall in *. intros x Hx. apply filter_In in Hx. apply H. tauto. Qed.
Lemma Forall_firstn : forall A (P : A -> Prop) n l, Forall P l -> Forall P (firstn n l).
Proof. intros A P n l H. revert n. induction H; intros [|n]; cbn; auto. Qed.
Lemma cache_put_ok : forall e c s x a, cache_ok e c -> cache_ok e (cache_put e (s, x, a) (get_characters e s x a) c).
Proof.
  intros. unfold cache_put, cache_ok. apply Forall_firstn. constructor; auto. now apply Forall_filter.
Qed.
Lemma cached_ok : forall e c s x a, cache_ok e c ->
  exists c', cached_characters e c s x a = (get_characters e s x a, c') /\ cache_ok e c'.
Proof.
  intros e c s x a H. unfold cached_characters. destruct (cache_find e (s, x, a) c) as [v|] eqn:E.
  - apply cache_find_ok in E; auto. subst v. eexists. split; eauto. now apply cache_put_ok.
  - eexists. split; eauto. now apply cache_put_ok.
Qed.

(** * The span loop without scrolling *)
Lemma place_off : forall w h s chars i n x y lst wm am, (w <= x \/ x < 0 \/ h <= y \/ y < 0) ->
  place w h s chars i n x y lst wm am = (x, y, lst, wm, am).
Proof.
  intros w h s [|ch chars] i n x y lst wm am H; cbn [place]; auto.
  destruct (w <=? x) eqn:E1; auto. destruct (x <? 0) eqn:E2; auto. destruct (h <=? y) eqn:E3; auto.
  destruct (y <? 0) eqn:E4; auto. apply Z.leb_gt in E1, E3. apply Z.ltb_ge in E2, E4. lia.
Qed.

Definition after (st : wstate) (m : wmatrix * amatrix) (c : ccache) : wstate :=
  mkW (fst m) (snd m) (ws_cells st) (ws_off st) c.

Lemma place_line_off : forall e w h line i x y lst st, cache_ok e (ws_cache st) -> ws_off st = 0 ->
  (w <= x \/ x < 0 \/ y < 0) -> y < h ->
  exists c, place_line e w h line i x y lst st = (after st (ws_wm st, ws_am st) c, Ok tt) /\ cache_ok e c.
Proof.
  intros e w h line. induction line as [|s line IH]; intros i x y lst st Hc Ho Hx Hy.
  - exists (ws_cache st). destruct st; auto.
  - cbn [place_line]. destruct (cached_ok e (ws_cache st) s true true Hc) as [c' [Ec Hc']]. rewrite Ec.
    cbn [ws_wm ws_am ws_cells ws_off ws_cache].
    rewrite Ho. replace (h - 1 <? y - 0) with false by (symmetry; apply Z.ltb_ge; lia). rewrite andb_false_r.
    cbn [ws_wm ws_am ws_cells ws_off ws_cache].
    rewrite Z.sub_0_r. rewrite place_off by lia.
    destruct (IH (i + 1) x y lst (mkW (ws_wm st) (ws_am st) (ws_cells st) 0 c')) as [c'' [E'' Hc'']]; auto.
    exists c''. rewrite E''. cbn. rewrite <- Ho. auto.
Qed.

Lemma in_removelast : forall A (a : A) l, In a (removelast l) -> In a l.
Proof. induction l as [|b [|c l] IH]; cbn in *; auto. intros [|]; auto. Qed.
Lemma colorless_shape : forall s, span_colorless s = [] \/ exists r, span_colorless s = ESC :: r.
Proof.
  intro s. unfold span_colorless, csi_or_empty, csi_m. destruct (colorless_body (s_flags s)); cbn; eauto.
Qed.
Lemma chars_init_no_nl : forall (t : str) (seqs : str) always, (seqs = [] \/ exists r, seqs = ESC :: r) -> ~ In NL t ->
  Forall (fun ch => ch <> [NL]) (fst (chars_init seqs always t)) /\
  (snd (chars_init seqs always t) = [] \/ snd (chars_init seqs always t) = seqs).
Proof.
  induction t as [|c t IH]; intros seqs always Hs Ht; cbn [chars_init]; [cbn; auto|].
  assert (Hs' : (if always then seqs else []) = [] \/ exists r, (if always then seqs else []) = ESC :: r)
    by (destruct always; auto).
  destruct (IH (if always then seqs else []) always Hs' ltac:(cbn in Ht; tauto)) as [H1 H2].
  destruct (chars_init (if always then seqs else []) always t) as [l r] eqn:E. cbn [fst snd] in H1, H2 |- *.
  split.
  - constructor; auto. intro E2. destruct Hs as [Hs|[r' Hs]]; rewrite Hs in E2; [|discriminate].
    cbn in E2. injection E2 as E2. apply Ht. now left.
  - destruct H2 as [H2|H2]; rewrite H2; auto. destruct always; auto.
Qed.
Lemma characters_no_nl : forall e s, ~ In NL (s_text s) -> Forall (fun ch => ch <> [NL]) (get_characters e s true true).
Proof.
  intros e s H. unfold get_characters.
  destruct (chars_init_no_nl (removelast (s_text s)) (span_colorless s) true (colorless_shape s)) as [H1 H2].
  { intro Hi. apply H. now apply in_removelast. }
  destruct (chars_init (span_colorless s) true (removelast (s_text s))) as [l r] eqn:E. cbn [fst snd] in *.
  destruct (rev (s_text s)) as [|c t] eqn:Er; auto.
  apply Forall_app. split; auto. constructor; auto.
  assert (Hc : c <> NL). { intros ->. apply H. apply in_rev. rewrite Er. now left. }
  destruct (negb _ && _) eqn:Eb; [|congruence].
  destruct H2 as [->| ->]; [discriminate|]. destruct (colorless_shape s) as [->|[q ->]]; discriminate.
Qed.
Lemma chars_init_length : forall t seqs always, List.length (fst (chars_init seqs always t)) = List.length t.
Proof.
  induction t as [|c t IH]; intros; cbn [chars_init]; auto.
  specialize (IH (if always then seqs else []) always). destruct (chars_init _ _ t). cbn in *. auto.
Qed.
Lemma characters_length : forall e s x a, zlen (get_characters e s x a) = zlen (s_text s).
Proof.
  intros. unfold get_characters. set (q := if x then _ else _).
  pose proof (chars_init_length (removelast (s_text s)) q a) as Hl.
  destruct (chars_init q a (removelast (s_text s))) as [l r]. cbn [fst] in Hl.
  destruct (rev (s_text s)) as [|c t] eqn:Er.
  - assert (s_text s = []) as E. { rewrite <- (rev_involutive (s_text s)), Er. auto. }
    rewrite E in *. unfold zlen. rewrite Hl. auto.
  - assert (E : s_text s = rev t ++ [c]). { rewrite <- (rev_involutive (s_text s)), Er. auto. }
    rewrite zlen_app. rewrite E in Hl |- *. rewrite removelast_last in Hl.
    rewrite zlen_app. unfold zlen. rewrite Hl. auto.
Qed.

Lemma pieces_cons : forall e s line, pieces e (s :: line) = span_items s (get_characters e s true true) ++ pieces e line.
Proof. reflexivity. Qed.

(** spans after the first *)
Lemma place_line_on : forall e w h line i x y lst st, cache_ok e (ws_cache st) -> ws_off st = 0 ->
  0 <= x < w -> (0 <= y < h \/ (y = h /\ x = 0 /\ 0 <= y)) -> Forall (fun s => ~ In NL (s_text s)) line ->
  0 <= i ->
  match i with
  | 0 => y < h /\ match line with s :: _ :: _ => y * w + x + zlen (s_text s) < w * h | _ => True end
  | _ => y < h \/ (2 <= i /\ (lst = 0 \/ lst = 1)) \/ line = []
  end ->
  exists c, place_line e w h line i x y lst st =
    (after st (fold_left put (number w h (y * w + x) (pieces e line)) (ws_wm st, ws_am st)) c, Ok tt) /\ cache_ok e c.
Proof.
  intros e w h line. induction line as [|s line IH]; intros i x y lst st Hc Ho Hx Hy Hn Hi Hg.
  - exists (ws_cache st). destruct st; auto.
  - inversion Hn as [|? ? Hs Hn']; subst.
    cbn [place_line]. destruct (cached_ok e (ws_cache st) s true true Hc) as [c' [Ec Hc']]. rewrite Ec.
    cbn [ws_wm ws_am ws_cells ws_off ws_cache].
    assert (Hsc : (i =? lst) && (h - 1 <? y - ws_off st) = false).
    { rewrite Ho. destruct (i =? lst) eqn:El; auto. cbn [andb]. apply Z.eqb_eq in El. apply Z.ltb_ge.
      destruct i as [|i|i]; [lia| |lia]. destruct Hg as [Hg|[[Hg1 Hg2]|Hg]]; [lia|lia|discriminate]. }
    rewrite Hsc. cbn [ws_wm ws_am ws_cells ws_off ws_cache]. rewrite Ho, Z.sub_0_r.
    set (chars := get_characters e s true true).
    destruct (place_spec w h s chars 0 (zlen chars) x y lst (ws_wm st) (ws_am st) Hx Hy (characters_no_nl e s Hs))
      as [lst' [E [H1 H2]]].
    rewrite E. clear E.
    set (p := y * w + x) in *. set (q := Z.min (p + zlen chars) (w * h)).
    set (m := fold_left put (number w h p (span_items s chars)) (ws_wm st, ws_am st)).
    assert (Hl : zlen chars = zlen (s_text s)) by apply characters_length.
    assert (Hz : 0 <= zlen chars) by apply zlen_nonneg.
    assert (Hp : 0 <= p <= w * h) by (unfold p; nia).
    assert (Hq : 0 <= q <= w * h) by (unfold q; lia).
    assert (Hqx : 0 <= q mod w < w) by (apply Z.mod_pos_bound; lia).
    assert (Hqd : q = q / w * w + q mod w) by (pose proof (Z.div_mod q w ltac:(lia)); lia).
    assert (Hqy : 0 <= q / w < h \/ (q / w = h /\ q mod w = 0 /\ 0 <= q / w)).
    { assert (0 <= q / w) by (apply Z.div_pos; lia).
      destruct (Z.eq_dec q (w * h)) as [Eq|Eq].
      - right. rewrite Eq. replace (w * h) with (h * w + 0) by lia.
        destruct (cell_number w 0 h ltac:(lia)) as [-> ->]. nia.
      - left. split; auto. apply Z.div_lt_upper_bound; lia. }
    destruct (IH (i + 1) (q mod w) (q / w) lst' (mkW (fst m) (snd m) (ws_cells st) 0 c')) as [c'' [E'' Hc'']]; auto; try lia.
    { destruct (i + 1) as [|j|j] eqn:Ej; [lia| |lia].
      destruct Hqy as [Hqy|[Hqy [Hq0 _]]]; [left; lia|].
      destruct i as [|i|i]; [|right; left|lia].
      - destruct Hg as [Hg1 Hg2]. destruct line as [|t line]; [now right; right|left].
        exfalso. assert (q < w * h) by (unfold q; lia). rewrite Hqy, Hq0 in Hqd. lia.
      - split; [lia|]. destruct Hg as [Hg|[[Hg1 Hg2]|Hg]]; [| |discriminate].
        + destruct (Z.eq_dec p (w * h)) as [Ep|Ep]; [unfold p in Ep; nia|].
          apply H2; [|lia]. intros E0. assert (q = p) by (unfold q; rewrite E0, zlen_nil; lia).
          rewrite Hqy, Hq0 in Hqd. lia.
        + destruct (Z.eq_dec p (w * h)) as [Ep|Ep]; [rewrite H1; auto|].
          destruct chars as [|c0 cs] eqn:Ech; [rewrite H1; auto|]. apply H2; [discriminate|lia]. }
    exists c''. split; auto. etransitivity; [exact E''|]. f_equal. unfold after. cbn [ws_wm ws_am ws_cells ws_off].
    rewrite pieces_cons. fold chars. rewrite number_app, fold_left_app. unfold m.
    assert (En : number w h (q / w * w + q mod w) (pieces e line) = number w h (p + zlen (span_items s chars)) (pieces e line)).
    { rewrite <- Hqd. unfold span_items. rewrite zlen_map. unfold q. destruct (Z.le_gt_cases (p + zlen chars) (w * h)).
      - now rewrite Z.min_l by auto.
      - rewrite Z.min_r by lia. rewrite !number_end by lia. auto. }
    rewrite En. rewrite <- surjective_pairing. rewrite Ho. reflexivity.
Qed.
