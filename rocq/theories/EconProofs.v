(** Proofs about what a draw costs. *)
From Coq Require Import ZArith String List Bool Lia Permutation Sorted.
From Verif Require Import PyBase PyLemmas F64 ColorModel AnsiRe SpanModel ScreenModel ScreenSpec ScreenProofs ScreenProofs2 ScreenProofs3 ScreenProofs4 ScreenProofs5 ScreenProofs6 ScreenProofs7 TermModel ParseProofs ParseProofs3 EconSpec.
Import ListNotations.
Open Scope Z_scope.

(** * How many cells a write changes *)
Definition some_ {A} (o : option A) : bool := match o with Some _ => true | None => false end.
Definition cnt {A} (r : list (option A)) : nat := List.length (filter some_ r).
Fixpoint cnts {A} (m : list (list (option A))) : nat := match m with [] => 0%nat | r :: m => (cnt r + cnts m)%nat end.
Lemma cnt_set : forall A n (v : option A) r, (cnt (set_nth n v r) <= S (cnt r))%nat.
Proof.
  intros A n v r. revert n. unfold cnt. induction r as [|o r IH]; intros [|n]; cbn [set_nth filter List.length]; try lia.
  - destruct (some_ v), (some_ o); cbn [List.length]; lia.
  - specialize (IH n). destruct (some_ o); cbn [List.length]; lia.
Qed.
Lemma cnts_upd : forall A f (m : list (list (option A))) n, (forall r, (cnt (f r) <= S (cnt r))%nat) -> (cnts (upd_nth n f m) <= S (cnts m))%nat.
Proof.
  intros A f m. induction m as [|r m IH]; intros [|n] H; cbn [upd_nth cnts]; try lia.
  - specialize (H r). lia.
  - specialize (IH n H). lia.
Qed.
Lemma cnts_mset : forall A (m : list (list (option A))) x y v, (cnts (mset m x y v) <= S (cnts m))%nat.
Proof. intros. unfold mset. apply cnts_upd. intro. apply cnt_set. Qed.
Lemma place_cnts : forall w h s chars i n x y lst wm am,
  let '(_, _, _, wm', _) := place w h s chars i n x y lst wm am in (cnts wm' <= cnts wm + List.length chars)%nat.
Proof.
  intros w h s chars. induction chars as [|ch chars IH]; intros i n x y lst wm am; cbn [place List.length]; [lia|].
  destruct (_ || _ || _ || _); [lia|]. destruct (str_eqb ch [NL]).
  - specialize (IH (i + 1) n x (y + 1) lst wm am). destruct (place _ _ _ _ _ _ _ _ _ _ _) as [[[[? ?] ?] wm'] ?]. lia.
  - destruct (if w <=? x + 1 then (0, y + 1) else (x + 1, y)) as [nx ny]. destruct (over s ch _) as [c push].
    specialize (IH (i + 1) n nx ny (if i =? n - 1 then 1 else 0) (mset wm x y (Some c)) (am_push am x y push)).
    destruct (place _ _ _ _ _ _ _ _ _ _ _) as [[[[? ?] ?] wm'] ?]. pose proof (cnts_mset _ wm x y (Some c)). lia.
Qed.
Definition line_len (line : list span) : Z := total (map (fun s => zlen (s_text s)) line).
Lemma total_nonneg : forall A (f : A -> Z) l, (forall a, 0 <= f a) -> 0 <= total (map f l).
Proof. intros A f l H. induction l as [|a l IH]; cbn [map total fold_right]; [lia|]. unfold total in IH. specialize (H a). lia. Qed.
Lemma line_nonneg : forall l, 0 <= line_len l. Proof. intro. apply total_nonneg. intro. apply zlen_nonneg. Qed.
Lemma line_cnts : forall e w h line i x y lst st, cache_len (ws_cache st) ->
  let '(st', _) := place_line e w h line i x y lst st in cache_len (ws_cache st') /\ Z.of_nat (cnts (ws_wm st')) <= Z.of_nat (cnts (ws_wm st)) + line_len line.
Proof.
  intros e w h line. induction line as [|s line IH]; intros i x y lst st C; cbn [place_line]; [split; auto; cbn; lia|].
  destruct (cached_len e (ws_cache st) s true true C) as [chars [c' [-> [Hv C']]]]. cbn [ws_wm ws_am ws_cells ws_off ws_cache].
  assert (L : line_len (s :: line) = zlen chars + line_len line) by (rewrite Hv; reflexivity).
  assert (Lp : 0 <= line_len line).
  { apply line_nonneg. }
  pose proof (zlen_nonneg _ chars) as Zc.
  assert (G : forall chars1 st1, zlen chars1 = zlen chars -> cache_len (ws_cache st1) -> ws_wm st1 = ws_wm st ->
    let '(st', _) := (let '(x', y', lst', wm, am) := place w h s chars1 0 (zlen chars) x (y - ws_off st1) lst (ws_wm st1) (ws_am st1) in
       place_line e w h line (i + 1) x' y' lst' (mkW wm am (ws_cells st1) (ws_off st1) (ws_cache st1))) in
    cache_len (ws_cache st') /\ Z.of_nat (cnts (ws_wm st')) <= Z.of_nat (cnts (ws_wm st)) + line_len (s :: line)).
  { intros chars1 st1 E1 C1 W1. pose proof (place_cnts w h s chars1 0 (zlen chars) x (y - ws_off st1) lst (ws_wm st1) (ws_am st1)) as P.
    destruct (place _ _ _ _ _ _ _ _ _ _ _) as [[[[x' y'] lst'] wm] am].
    specialize (IH (i + 1) x' y' lst' (mkW wm am (ws_cells st1) (ws_off st1) (ws_cache st1)) C1).
    destruct (place_line e w h line (i + 1) x' y' lst' _) as [st' r]. destruct IH as [I1 I2]. split; [exact I1|]. cbn [ws_wm] in I2. rewrite W1 in P.
    rewrite L. unfold zlen in *. lia. }
  destruct ((i =? lst) && (h - 1 <? y - ws_off st)) eqn:Eb.
  - destruct (append_nl chars) as [chars'|ex] eqn:Ea.
    + assert (C2 : cache_len (cache_put e (s, true, true) chars' c')).
      { apply cache_put_len; auto. apply append_nl_len in Ea. congruence. }
      destruct (ws_cells st) as [|row cells]; [cbn [ws_wm ws_cache]; split; auto; lia|].
      apply (G chars' (mkW (ws_wm st) (ws_am st) (cells ++ [map (fun _ => ([], None, None)) (range w)]) (y - h + 1) (cache_put e (s, true, true) chars' c'))); auto.
      now apply append_nl_len.
    + cbn [ws_wm ws_cache]. split; auto. lia.
  - apply (G chars (mkW (ws_wm st) (ws_am st) (ws_cells st) (ws_off st) c')); auto.
Qed.
Definition data_len (data : list (pos * list span)) : Z := total (map (fun entry => line_len (snd entry)) data).
Lemma data_nonneg : forall l, 0 <= data_len l. Proof. intro. apply total_nonneg. intro. apply line_nonneg. Qed.
Lemma all_cnts : forall e w h data st, cache_len (ws_cache st) ->
  let '(st', _) := place_all e w h data st in cache_len (ws_cache st') /\ Z.of_nat (cnts (ws_wm st')) <= Z.of_nat (cnts (ws_wm st)) + data_len data.
Proof.
  intros e w h data. induction data as [|[[x y] line] data IH]; intros st C; cbn [place_all]; [split; auto; cbn; lia|].
  pose proof (line_cnts e w h line 0 x y (zlen line - 1) st C) as L. destruct (place_line e w h line 0 x y (zlen line - 1) st) as [st1 r1]. destruct L as [L1 L2].
  change (data_len ((x, y, line) :: data)) with (line_len line + data_len data). pose proof (data_nonneg data).
  destruct r1 as [u|ex]; [|split; auto; lia]. specialize (IH st1 L1). destruct (place_all e w h data st1) as [st2 r2]. destruct IH as [I1 I2]. split; auto. lia.
Qed.
Lemma blank_cnts : forall A w h, cnts (blank_matrix w h (@None A)) = 0%nat.
Proof.
  intros A w h. unfold blank_matrix. induction (range h) as [|y l IH]; cbn [map cnts]; auto. rewrite IH, Nat.add_0_r. clear.
  unfold cnt. induction (range w) as [|x l IH]; cbn; auto.
Qed.

Definition job_some (j : job) : bool := some_ (snd (fst j)).
Lemma row_jobs_cnt : forall row arow x y, List.length (filter job_some (row_jobs row arow x y)) = cnt row.
Proof. induction row as [|c row IH]; intros arow x y; cbn [row_jobs filter cnt]; auto. unfold cnt in *. cbn [filter]. unfold job_some at 1. cbn [fst snd]. destruct (some_ c); cbn [List.length]; now rewrite IH. Qed.
Lemma jobs_cnt : forall wm am y, List.length (filter job_some (jobs wm am y)) = cnts wm.
Proof. induction wm as [|row wm IH]; intros am y; cbn [jobs cnts]; auto. now rewrite filter_app, app_length, row_jobs_cnt, IH. Qed.
Lemma buf_set_len : forall q t d, (List.length (buf_set q t d) <= S (List.length d))%nat.
Proof. intros q t d. induction d as [|[k v] d IH]; cbn [buf_set List.length]; [lia|]. destruct (pos_eqb k q); cbn [List.length]; lia. Qed.
Lemma commit_cost : forall e tb l cells buf n cells' buf' n' ex, commit_jobs e tb l cells buf n = (cells', buf', n', ex) ->
  0 <= n' - n <= Z.of_nat (List.length (filter job_some l)) /\ zlen buf' <= zlen buf + (n' - n).
Proof.
  intros e tb l. induction l as [|[[[x y] c] st] l IH]; intros cells buf n cells' buf' n' ex H; cbn [commit_jobs] in H.
  - injection H as <- <- <- _. cbn. lia.
  - destruct c as [c|]; cbn [filter]; unfold job_some at 1; cbn [fst snd some_]; [|now apply IH in H].
    cbn [List.length]. destruct (finish_cell tb c st) as [[new nl]|ex']; [|injection H as <- <- <- _; lia].
    destruct (mget cells x y) as [old|]; [|injection H as <- <- <- _; lia]. destruct (cell_eqb new old).
    + apply IH in H. lia.
    + apply IH in H. pose proof (buf_set_len (x, y) (cell_entry e new nl) buf). unfold zlen in *. lia.
Qed.
Lemma write_cost : forall e c s data tb force s' c' n, cache_len c -> write_bulk e c s data tb force = (s', c', Ok n) ->
  cache_len c' /\ 0 <= n <= data_len data /\ zlen (sc_buf s') <= zlen (sc_buf s) + n.
Proof.
  intros e c s data tb force s' c' n C H. unfold write_bulk in H.
  set (st0 := mkW (blank_matrix (sc_w s) (sc_h s) None) (blank_matrix (sc_w s) (sc_h s) []) (sc_cells s) (sc_off s) c) in *.
  pose proof (all_cnts e (sc_w s) (sc_h s) data st0 C) as A. destruct (place_all e (sc_w s) (sc_h s) data st0) as [st r]. destruct A as [A1 A2].
  cbn [st0 ws_wm] in A2. rewrite blank_cnts in A2. destruct r as [u|ex]; [|discriminate]. rewrite commit_jobs_eq in H.
  destruct (commit_jobs e tb (jobs (ws_wm st) (ws_am st) 0) (ws_cells st) (sc_buf s) 0) as [[[cells' buf'] n'] ex] eqn:E.
  apply commit_cost in E. rewrite jobs_cnt in E. destruct ex; [discriminate|]. injection H as <- <- <-. cbn [sc_buf]. split; auto. lia.
Qed.
Lemma returned_cost : forall e ops s c s' c' n, cache_len c -> returned e (s, c) ops = Some (s', c', n) ->
  0 <= n <= total (map given ops) /\ zlen (sc_buf s') <= zlen (sc_buf s) + n.
Proof.
  intros e ops. induction ops as [|o ops IH]; intros s c s' c' n C H; cbn [returned] in H.
  - injection H as <- <- <-. cbn. lia.
  - cbn [fst snd] in H.
    assert (G : exists s1 c1 n1 n2, returned e (s1, c1) ops = Some (s', c', n2) /\ n = n1 + n2 /\ cache_len c1 /\ 0 <= n1 <= given o /\ zlen (sc_buf s1) <= zlen (sc_buf s) + n1).
    { destruct o as [spans cursor tb force|data tb force| | | |]; try discriminate H.
      - destruct (write e c s spans cursor tb force) as [[s1 c1] [n1|ex]] eqn:Ew; [|discriminate].
        destruct (returned e (s1, c1) ops) as [[st2 n2]|] eqn:Er; [|discriminate]. injection H as -> <-.
        unfold write in Ew. destruct cursor as [p|]; [|discriminate]. destruct (write_cost _ _ _ _ _ _ _ _ _ C Ew) as [W1 [W2 W3]].
        exists s1, c1, n1, n2. cbn [given]. unfold data_len in W2. cbn [map snd total fold_right] in W2. unfold line_len in W2. repeat split; auto; lia.
      - destruct (write_bulk e c s data tb force) as [[s1 c1] [n1|ex]] eqn:Ew; [|discriminate].
        destruct (returned e (s1, c1) ops) as [[st2 n2]|] eqn:Er; [|discriminate]. injection H as -> <-.
        destruct (write_cost _ _ _ _ _ _ _ _ _ C Ew) as [W1 [W2 W3]].
        exists s1, c1, n1, n2. cbn [given]. unfold data_len, line_len in W2. repeat split; auto; lia. }
    destruct G as [s1 [c1 [n1 [n2 [Er [-> [C1 [B1 B2]]]]]]]]. specialize (IH s1 c1 s' c' n2 C1 Er). cbn [map total fold_right]. unfold total in IH. lia.
Qed.

(** * Which cells *)
Lemma plain_step : forall e s c o, cache_ok e c -> shaped s -> plain_write s o ->
  exists s' c' n, step e (s, c) o = (s', c') /\ cache_ok e c' /\ shaped s' /\
    (forall r, returned e (s, c) (o :: r) = match returned e (s', c') r with Some (st', m) => Some (st', n + m) | None => None end) /\
    (forall q, cell_at s' q = cell_at s q -> pending s' q = pending s q).
Proof.
  intros e s c o Hc Hs Hp.
  assert (G : forall data tb force, calm_write s data -> fine tb -> fine_data data -> exists s' c' n, write_bulk e c s data tb force = (s', c', Ok n) /\
    cache_ok e c' /\ shaped s' /\ (forall q, cell_at s' q = cell_at s q -> pending s' q = pending s q)).
  { intros data tb force H1 H2 H3. destruct (write_bulk_effect e c s data tb force Hc Hs H1 H2 H3) as [s' [c' [n [E [Hc' W]]]]].
    destruct (write_counts e c s data tb force Hc Hs H1 H2 H3) as [s2 [c2 [n2 [E2 [_ [W2 _]]]]]]. rewrite E in E2. injection E2 as <- <- <-.
    exists s', c', n. repeat split; auto; apply W. }
  destruct o as [spans cursor tb force|data tb force| | | |]; cbn [plain_write] in Hp; try contradiction.
  - destruct cursor as [p|]; [|contradiction]. destruct Hp as [H1 [H2 H3]]. destruct (G _ tb force H1 H2 H3) as [s' [c' [n [E [G1 [G2 G3]]]]]].
    exists s', c', n. cbn [step write returned fst snd]. rewrite E. cbn [fst]. auto.
  - destruct Hp as [H1 [H2 H3]]. destruct (G _ tb force H1 H2 H3) as [s' [c' [n [E [G1 [G2 G3]]]]]].
    exists s', c', n. cbn [step returned fst snd]. rewrite E. cbn [fst]. auto.
Qed.
Lemma only_changed : forall e ops s c, cache_ok e c -> shaped s -> plain_run e (s, c) ops ->
  exists s' c' n, returned e (s, c) ops = Some (s', c', n) /\
    forall q, untouched e (s, c) ops q -> pending s' q = pending s q /\ cell_at s' q = cell_at s q.
Proof.
  intros e ops. induction ops as [|o ops IH]; intros s c Hc Hs Hp.
  - exists s, c, 0. split; [reflexivity|auto].
  - destruct Hp as [H1 H2]. destruct (plain_step e s c o Hc Hs H1) as [s1 [c1 [n1 [E [Hc1 [Hs1 [R P]]]]]]].
    rewrite E in H2. destruct (IH s1 c1 Hc1 Hs1 H2) as [s' [c' [n [E2 Q]]]]. exists s', c', (n1 + n). split; [rewrite R, E2; reflexivity|].
    intros q [Hq Hr]. rewrite E in Hq, Hr. cbn [fst] in Hq. destruct (Q q Hr) as [Q1 Q2]. rewrite Q1, Q2. split; [now apply P|exact Hq].
Qed.

(** * How much a draw sends *)
Lemma dval_bounds : forall ds, forallb is_digit ds = true -> 0 <= dval ds < 10 ^ zlen ds.
Proof.
  induction ds as [|c ds IH] using rev_ind; intro H; [change (0 <= 0 < 1); lia|]. rewrite forallb_app in H. apply andb_true_iff in H. destruct H as [H1 H2]. specialize (IH H1).
  cbn [forallb] in H2. rewrite andb_true_r in H2. apply is_digit_range in H2. rewrite dval_app, zlen_app. pose proof (zlen_nonneg _ ds).
  change (dval [c]) with (c - 48). change (zlen [c]) with 1. rewrite Z.pow_add_r by lia. change (10 ^ 1) with 10. lia.
Qed.
Lemma dec_size : forall n d, 0 <= n < 10 ^ d -> 1 <= d -> 1 <= zlen (dec n) <= d.
Proof.
  intros n d Hn Hd. pose proof (dec_ne n) as N. pose proof (dec_digits n (proj1 Hn)) as D. pose proof (dec_val n (proj1 Hn)) as V. pose proof (dec_hd n (proj1 Hn)) as H.
  destruct (dec n) as [|c ds]; [congruence|]. rewrite zlen_cons. pose proof (zlen_nonneg _ ds). split; [lia|]. cbn [hd] in H.
  destruct (Z.eq_dec c 48) as [E|E]; [specialize (H E); injection H as _ ->; change (zlen (@nil Z)) with 0; lia|].
  cbn [forallb] in D. apply andb_true_iff in D. destruct D as [D1 D2]. apply is_digit_range in D1. pose proof (dval_bounds ds D2) as B.
  assert (V' : dval (c :: ds) = (c - 48) * 10 ^ zlen ds + dval ds) by apply (dval_app [c] ds). rewrite V in V'.
  assert (10 ^ zlen ds < 10 ^ d) by nia. apply Z.pow_lt_mono_r_iff in H1; lia.
Qed.
Lemma cup_size : forall x y d, 0 <= x < 10 ^ d -> 0 <= y < 10 ^ d -> 1 <= d -> 6 <= zlen (cup x y) <= 4 + 2 * d.
Proof.
  intros x y d Hx Hy Hd. unfold cup. rewrite !zlen_app. change (zlen [ESC; 91]) with 2. change (zlen (lit ";"%string)) with 1. change (zlen (lit "H"%string)) with 1.
  pose proof (dec_size x d Hx Hd). pose proof (dec_size y d Hy Hd). lia.
Qed.
Definition left_in (D : buffer) (i : pos * str) : bool := existsb (fun j => (fst (fst j) =? fst (fst i) - 1) && (snd (fst j) =? snd (fst i))) D.
Lemma left_in_iff : forall D i, left_in D i = true <-> In (fst (fst i) - 1, snd (fst i)) (map fst D).
Proof.
  intros D i. unfold left_in. rewrite existsb_exists, in_map_iff. split.
  - intros [j [Hj E]]. apply andb_true_iff in E. rewrite !Z.eqb_eq in E. exists j. split; auto. destruct j as [[a b] t]. cbn in *. f_equal; lia.
  - intros [j [E Hj]]. exists j. split; auto. destruct j as [[a b] t]. cbn in *. injection E as -> ->. now rewrite !Z.eqb_refl.
Qed.
Definition text_sum (l : buffer) : Z := total (map (fun i => zlen (snd i)) l).
Lemma items_size : forall ox oy d D items prev, 1 <= d ->
  (forall i, In i items -> 0 <= fst (fst i) + ox < 10 ^ d /\ 0 <= snd (fst i) + oy < 10 ^ d) ->
  StronglySorted (fun a b : pos * str => above (fst a) (fst b)) items ->
  (forall p i, prev = Some p -> In i items -> above p (fst i)) ->
  (forall p, prev = Some p -> In p (map fst D)) -> incl (map fst items) (map fst D) ->
  (forall q i, In q (map fst D) -> In i items -> above q (fst i) -> prev = Some q \/ In q (map fst items) \/ exists p, prev = Some p /\ above q p) ->
  let n := zlen (filter (fun i => negb (left_in D i)) items) in
  let out := zlen (render_items ox oy (match prev with Some (px, py) => Some (px + ox, py + oy) | None => None end) items) in
  text_sum items + 6 * n <= out <= text_sum items + (4 + 2 * d) * n.
Proof.
  intros ox oy d D items. induction items as [|[[x y] t] items IH]; intros prev Hd Hb Hs Hp HpD Hi Hq; cbv zeta; [change (zlen (filter _ [])) with 0; change (text_sum []) with 0; change (zlen _) with 0; lia|].
  inversion Hs as [|? ? Hs' Hh]; subst. rewrite Forall_forall in Hh.
  assert (Hs2 : forall i, In i items -> above (x, y) (fst i)) by (intros i I; exact (Hh i I)).
  specialize (IH (Some (x, y)) Hd). cbn [render_items]. rewrite zlen_app.
  assert (B : 0 <= x + ox < 10 ^ d /\ 0 <= y + oy < 10 ^ d) by (apply (Hb ((x, y), t)); now left).
  pose proof (cup_size (x + ox) (y + oy) d (proj1 B) (proj2 B) Hd) as C.
  destruct IH as [I1 I2].
  { intros i I. apply Hb. now right. }
  { exact Hs'. }
  { intros p i [= <-] I. auto. }
  { intros p [= <-]. apply Hi. now left. }
  { intros q I. apply Hi. now right. }
  { intros q i Iq I A. destruct (Hq q i Iq (or_intror I) A) as [E|[[E|E]|[p [E1 E2]]]].
    - right. right. exists (x, y). split; auto. apply (Hp q ((x, y), t) E). now left.
    - left. cbn in E. now rewrite E.
    - right. now left.
    - right. right. exists (x, y). split; auto. pose proof (Hp p ((x, y), t) E1 (or_introl eq_refl)) as A2. cbn [fst] in A2.
      unfold above in *. destruct q, p. cbn in *. lia. }
  change (text_sum (((x, y), t) :: items)) with (zlen t + text_sum items). cbn [filter].
  assert (E : (match match prev with Some (px, py) => Some (px + ox, py + oy) | None => None end with
               | Some (px, py) => (x + ox =? px + 1) && (y + oy =? py) | None => false end) = left_in D ((x, y), t)).
  { apply eq_true_iff_eq. rewrite left_in_iff. cbn [fst snd]. split.
    - destruct prev as [[px py]|]; [|discriminate]. rewrite andb_true_iff, !Z.eqb_eq. intros [E1 E2]. replace (x - 1, y) with (px, py) by (f_equal; lia). now apply HpD.
    - intro I. destruct (Hq (x - 1, y) ((x, y), t) I (or_introl eq_refl)) as [E|[[E|E]|[p [E1 E2]]]].
      + unfold above. cbn. lia.
      + rewrite E. rewrite andb_true_iff, !Z.eqb_eq. lia.
      + cbn in E. injection E. lia.
      + apply in_map_iff in E. destruct E as [i [E1 E2]]. apply Hs2 in E2. rewrite E1 in E2. unfold above in E2. cbn in E2. lia.
      + pose proof (Hp p ((x, y), t) E1 (or_introl eq_refl)) as A2. unfold above in *. destruct p. cbn in *. lia. }
  match goal with |- context [zlen (if ?b then t else _)] => replace b with (left_in D ((x, y), t)) by (symmetry; exact E) end.
  destruct (left_in D ((x, y), t)); cbn [negb]; [lia|]. rewrite zlen_app, zlen_cons. lia.
Qed.
Lemma filter_perm : forall A (f : A -> bool) l l', Permutation l l' -> Permutation (filter f l) (filter f l').
Proof.
  intros A f l l' H. induction H; cbn [filter]; auto.
  - destruct (f x); auto.
  - destruct (f x), (f y); auto using perm_swap.
  - eapply perm_trans; eauto.
Qed.
Lemma total_perm : forall l l', Permutation l l' -> total l = total l'.
Proof. intros l l' H. unfold total. induction H; cbn [fold_right]; lia. Qed.
Lemma perm_zlen : forall A (l l' : list A), Permutation l l' -> zlen l = zlen l'.
Proof. intros A l l' H. unfold zlen. f_equal. now apply Permutation_length. Qed.
Lemma render_size : forall s ox oy d, keyed s -> 1 <= d ->
  (forall q t, pending s q = Some t -> 0 <= fst q + ox < 10 ^ d /\ 0 <= snd q + oy < 10 ^ d) ->
  let n := zlen (fst (render s (ox, oy) false)) in
  texts s + 6 * runs s <= n <= texts s + (4 + 2 * d) * runs s + 4.
Proof.
  intros s ox oy d Hk Hd Hb n.
  pose proof (gather_perm (sc_buf s)) as P. pose proof (gather_strict _ Hk) as S.
  assert (R : texts s + 6 * runs s <= zlen (render_items ox oy None (gather (sc_buf s))) <= texts s + (4 + 2 * d) * runs s).
  { pose proof (items_size ox oy d (gather (sc_buf s)) (gather (sc_buf s)) None Hd) as B. cbv zeta in B.
    assert (E1 : text_sum (gather (sc_buf s)) = texts s) by (apply total_perm, Permutation_map, P).
    assert (E2 : zlen (filter (fun i => negb (left_in (gather (sc_buf s)) i)) (gather (sc_buf s))) = runs s).
    { unfold runs. apply perm_zlen. eapply perm_trans; [apply filter_perm, P|].
      erewrite filter_ext; [apply Permutation_refl|]. intro i. cbn beta. f_equal. apply eq_true_iff_eq.
      change (left_in (gather (sc_buf s)) i = true <-> left_in (sc_buf s) i = true). rewrite !left_in_iff.
      split; apply Permutation_in; [|symmetry]; now apply Permutation_map. }
    rewrite E1, E2 in B. apply B; auto.
    - intros [q t] I. apply (Hb q t). unfold pending. apply buf_get_in; auto. eapply Permutation_in; eauto.
    - discriminate.
    - discriminate.
    - apply incl_refl. }
  subst n. unfold render. destruct (endswith RESET _); cbn [fst]; [lia|]. rewrite zlen_app. change (zlen RESET) with 4. lia.
Qed.

(** * A frame *)
Lemma buf_set_keys : forall q t d k, In k (map fst (buf_set q t d)) -> k = q \/ In k (map fst d).
Proof.
  intros q t d k. induction d as [|[k' v] d IH]; cbn [buf_set map fst In]; [intuition congruence|].
  destruct (pos_eqb k' q); cbn [map fst In]; [tauto|]. intros [H|H]; [auto|]. destruct (IH H); auto.
Qed.
Lemma commit_keys : forall e tb l cells buf n cells' buf' n' ex, commit_jobs e tb l cells buf n = (cells', buf', n', ex) ->
  forall k, In k (map fst buf') -> In k (map fst buf) \/ In k (map (fun j => fst (fst j)) l).
Proof.
  intros e tb l. induction l as [|[[[x y] c] st] l IH]; intros cells buf n cells' buf' n' ex H k Hk; cbn [commit_jobs] in H.
  - injection H as <- <- <- _. auto.
  - cbn [map fst In]. destruct c as [c|]; [|destruct (IH _ _ _ _ _ _ _ H k Hk); auto].
    destruct (finish_cell tb c st) as [[new nl]|ex']; [|injection H as <- <- <- _; auto].
    destruct (mget cells x y) as [old|]; [|injection H as <- <- <- _; auto]. destruct (cell_eqb new old).
    + destruct (IH _ _ _ _ _ _ _ H k Hk); auto.
    + destruct (IH _ _ _ _ _ _ _ H k Hk) as [E|E]; auto. apply buf_set_keys in E. destruct E as [E|E]; auto.
Qed.
Lemma write_keys : forall e c s data tb force s' c' n, shaped s -> cache_len c -> write_bulk e c s data tb force = (s', c', Ok n) ->
  forall k, In k (map fst (sc_buf s')) -> In k (map fst (sc_buf s)) \/ on_screen (sc_w s) (sc_h s) k.
Proof.
  intros e c s data tb force s' c' n Hs C H k Hk. unfold write_bulk in H.
  set (st0 := mkW (blank_matrix (sc_w s) (sc_h s) None) (blank_matrix (sc_w s) (sc_h s) []) (sc_cells s) (sc_off s) c) in *.
  assert (D0 : dims (sc_w s) (sc_h s) (ws_cells st0)) by (apply shaped_dims in Hs; exact Hs).
  destruct (place_all_puts e (sc_w s) (sc_h s) data st0 D0 C) as [items [st [r [E [Hi [Em [D [C' Hr]]]]]]]]. rewrite E in H.
  destruct r as [u|ex]; [|discriminate]. rewrite commit_jobs_eq in H.
  assert (Hd : dims (sc_w s) (sc_h s) (fst (fold_left put items (ws_wm st0, ws_am st0))) /\ dims (sc_w s) (sc_h s) (snd (fold_left put items (ws_wm st0, ws_am st0)))).
  { apply fold_put_dims; cbn; apply dims_blank. }
  rewrite <- Em in Hd. cbn [fst snd] in Hd. destruct Hd as [Dw Da].
  destruct (commit_jobs e tb (jobs (ws_wm st) (ws_am st) 0) (ws_cells st) (sc_buf s) 0) as [[[cells' buf'] n'] ex] eqn:Ec.
  destruct ex; [discriminate|]. injection H as <- <- <-. cbn [sc_buf] in Hk. destruct (commit_keys _ _ _ _ _ _ _ _ _ _ Ec k Hk) as [G|G]; auto.
  right. rewrite (jobs_positions (sc_w s) (sc_h s)) in G by auto. rewrite map_map in G. apply in_map_iff in G. destruct G as [q [G1 G2]]. unfold job_at in G1. cbn [fst] in G1. subst.
  now apply positions_in.
Qed.
Lemma returned_inside : forall e ops s c s' c' n, shaped s -> cache_len c -> keyed s -> returned e (s, c) ops = Some (s', c', n) ->
  keyed s' /\ sc_w s' = sc_w s /\ sc_h s' = sc_h s /\ shaped s' /\
  forall k, In k (map fst (sc_buf s')) -> In k (map fst (sc_buf s)) \/ on_screen (sc_w s) (sc_h s) k.
Proof.
  intros e ops. induction ops as [|o ops IH]; intros s c s' c' n Hs C Hk H; cbn [returned] in H.
  - injection H as <- <- <-. auto 10.
  - cbn [fst snd] in H.
    assert (G : exists data tb force s1 c1 n1 n2, write_bulk e c s data tb force = (s1, c1, Ok n1) /\ returned e (s1, c1) ops = Some (s', c', n2)).
    { destruct o as [spans cursor tb force|data tb force| | | |]; try discriminate H.
      - destruct (write e c s spans cursor tb force) as [[s1 c1] [n1|ex]] eqn:Ew; [|discriminate].
        destruct (returned e (s1, c1) ops) as [[st2 n2]|] eqn:Er; [|discriminate]. injection H as -> <-.
        unfold write in Ew. destruct cursor as [p|]; [|discriminate]. eauto 10.
      - destruct (write_bulk e c s data tb force) as [[s1 c1] [n1|ex]] eqn:Ew; [|discriminate].
        destruct (returned e (s1, c1) ops) as [[st2 n2]|] eqn:Er; [|discriminate]. injection H as -> <-. eauto 10. }
    destruct G as [data [tb [force [s1 [c1 [n1 [n2 [Ew Er]]]]]]]].
    pose proof (write_keys _ _ _ _ _ _ _ _ _ Hs C Ew) as K.
    destruct (write_bulk_shape e c s data tb force Hs C) as [s2 [c2 [r [Ew2 [G1 [G2 [G3 [_ [G4 [G5 _]]]]]]]]]].
    rewrite Ew in Ew2. injection Ew2 as <- <- <-. destruct (IH s1 c1 s' c' n2 G1 G4 (G5 Hk) Er) as [I1 [I2 [I3 [I4 I5]]]].
    rewrite G2, G3 in *. repeat match goal with |- _ /\ _ => split end; auto. intros k Ik. destruct (I5 k Ik); auto.
Qed.
Lemma filter_zlen : forall A (f : A -> bool) l, zlen (filter f l) <= zlen l.
Proof. intros A f l. unfold zlen. induction l as [|i l IH]; cbn [filter List.length]; [lia|]. destruct (f i); cbn [List.length]; lia. Qed.
Lemma frame_size : forall e ops s c s' c' n d L, shaped s -> cache_len c -> sc_buf s = [] -> returned e (s, c) ops = Some (s', c', n) ->
  1 <= d -> sc_w s < 10 ^ d -> sc_h s < 10 ^ d -> 0 <= L -> (forall q t, pending s' q = Some t -> zlen t <= L) ->
  zlen (fst (render s' (1, 1) false)) <= n * (L + 4 + 2 * d) + 4.
Proof.
  intros e ops s c s' c' n d L Hs C Hb H Hd Hw Hh L0 HL.
  assert (Hk : keyed s) by (unfold keyed; rewrite Hb; constructor).
  destruct (returned_inside e ops s c s' c' n Hs C Hk H) as [K [_ [_ [_ I]]]]. destruct (returned_cost e ops s c s' c' n C H) as [N1 N2].
  rewrite Hb in N2. change (zlen (@nil (pos * str))) with 0 in N2. rewrite Hb in I. cbn [map In] in I.
  pose proof (render_size s' 1 1 d K Hd) as R. cbv zeta in R. destruct R as [_ R].
  { intros q t Hq. unfold pending in Hq. apply buf_get_in in Hq; [|exact K]. apply (in_map fst) in Hq. destruct (I q Hq) as [[]|[O1 O2]]. cbn [fst snd] in *. lia. }
  assert (T : texts s' <= L * zlen (sc_buf s')).
  { assert (B : forall i, In i (sc_buf s') -> zlen (snd i) <= L).
    { intros [q t] Hi. apply (HL q t). unfold pending. apply buf_get_in; auto. }
    unfold texts. clear - B. induction (sc_buf s') as [|i l IH]; [change (0 <= L * 0); lia|]. pose proof (B i (or_introl eq_refl)) as B1. specialize (IH (fun j J => B j (or_intror J))).
    change (zlen (snd i) + total (map (fun i => zlen (snd i)) l) <= L * zlen (i :: l)). rewrite zlen_cons. lia. }
  assert (U : 0 <= runs s' <= zlen (sc_buf s')).
  { unfold runs. split; [apply zlen_nonneg|]. apply filter_zlen. }
  assert (zlen (sc_buf s') * (L + 4 + 2 * d) <= n * (L + 4 + 2 * d)) by (apply Z.mul_le_mono_nonneg_r; lia).
  assert ((4 + 2 * d) * runs s' <= (4 + 2 * d) * zlen (sc_buf s')) by (apply Z.mul_le_mono_nonneg_l; lia). lia.
Qed.

(** * Strings *)
Fixpoint chain (b : Z) (ms : list (str * str * Z)) : Prop :=
  match ms with [] => True | (_, plain, stop) :: r => b + 3 + zlen plain <= stop /\ chain stop r end.
Lemma chain_weak : forall ms a b, a <= b -> chain b ms -> chain a ms.
Proof. intros [|[[x y] z] ms] a b H C; cbn [chain] in *; auto. destruct C. split; auto. lia. Qed.
Lemma finditer_chain : forall s pos k, chain (pos + Z.of_nat k) (finditer_aux s pos k).
Proof.
  induction s as [|c s IH]; intros pos [|k]; try exact I.
  - rewrite finditer_step. destruct (match_style (c :: s)) as [[b t]|].
    + cbv zeta. cbn [chain]. split; [unfold zlen; lia|]. eapply chain_weak; [|apply IH]. lia.
    + eapply chain_weak; [|apply IH]. lia.
  - cbn [finditer_aux]. eapply chain_weak; [|apply IH]. lia.
Qed.
Lemma finditer_within : forall s pos k b t i, In (b, t, i) (finditer_aux s pos k) -> i < pos + zlen s.
Proof.
  induction s as [|c s IH]; intros pos k b t i H; [destruct H|]. rewrite zlen_cons.
  assert (R : forall k', In (b, t, i) (finditer_aux s (pos + 1) k') -> i < pos + (1 + zlen s)) by (intros k' H'; apply IH in H'; lia).
  destruct k as [|k]; [|cbn [finditer_aux] in H; apply R in H; lia]. rewrite finditer_step in H.
  destruct (match_style (c :: s)) as [[b' t']|] eqn:M; [|apply R in H; lia]. cbv zeta in H. destruct H as [H|H]; [|apply R in H; lia].
  injection H as -> -> <-. destruct (match_style_occ _ _ _ M) as [f [r [E _]]]. apply (f_equal zlen) in E.
  rewrite !zlen_cons, zlen_app, zlen_cons, zlen_app, zlen_cons in E. pose proof (zlen_nonneg _ r). unfold zlen in *. lia.
Qed.
Lemma yield_sizes : forall ms o b ss i, chain b ms -> yield_loop ms o b = (ss, i, None) ->
  b + line_len ss <= i /\ (ms = [] -> i = b) /\ (ms <> [] -> b + line_len ss + 3 <= i /\ exists x y, In (x, y, i) ms).
Proof.
  induction ms as [|[[seq plain] stop] ms IH]; intros o b ss i C H; cbn [yield_loop] in H.
  - injection H as <- <-. cbn. split; [lia|]. split; auto. congruence.
  - destruct (parse_sequence seq o) as [o' [[x|]|x]]; try discriminate. destruct (span_of_options plain o') as [s|x] eqn:Eo; [|discriminate].
    destruct (yield_loop ms o' stop) as [[ss' i'] x'] eqn:Ey. injection H as <- <- ->. cbn [chain] in C. destruct C as [C1 C2].
    destruct (IH o' stop ss' i' C2 Ey) as [I1 [I2 I3]].
    assert (Et : s_text s = plain) by (unfold span_of_options in Eo; destruct (o_bad o'); [discriminate|]; injection Eo as <-; reflexivity).
    change (line_len (s :: ss')) with (zlen (s_text s) + line_len ss'). rewrite Et. split; [lia|]. split; [discriminate|]. intros _. split; [lia|].
    destruct ms as [|m ms]; [rewrite (I2 eq_refl); exists seq, plain; now left|]. destruct I3 as [_ [x [y I3]]]; [discriminate|]. exists x, y. now right.
Qed.
Lemma lstrip_len : forall f s, zlen (lstrip_by f s) <= zlen s.
Proof. intros f s. induction s as [|c s IH]; cbn [lstrip_by]; [lia|]. destruct (f c); [|lia]. rewrite zlen_cons. lia. Qed.
Lemma zlen_rev : forall A (l : list A), zlen (rev l) = zlen l.
Proof. intros. unfold zlen. now rewrite rev_length. Qed.
Lemma rstrip_len : forall f s, zlen (rstrip_by f s) <= zlen s.
Proof. intros f s. unfold rstrip_by. rewrite zlen_rev. pose proof (lstrip_len f (rev s)). rewrite zlen_rev in H. exact H. Qed.
Lemma slice_from_len : forall (s : str) i, 0 <= i <= zlen s -> zlen (slice (Some i) None s) = zlen s - i.
Proof.
  intros s i H. assert (E : zlen (firstn (Z.to_nat i) s) = i) by (unfold zlen in *; rewrite firstn_length; lia).
  pose proof (slice_tail (firstn (Z.to_nat i) s) (skipn (Z.to_nat i) s)) as T. rewrite firstn_skipn, E in T. rewrite T. unfold zlen in *. rewrite skipn_length. lia.
Qed.
Lemma parse_size : forall t ss, parse_line t = Ok ss -> line_len ss <= zlen t.
Proof.
  intros t ss H. unfold parse_line, yield_from in H. set (line := if endswith [ESC] t then t else t ++ [ESC]) in *.
  assert (L : zlen t <= zlen line <= zlen t + 1) by (unfold line; destruct (endswith [ESC] t); rewrite ?zlen_app; change (zlen [ESC]) with 1; lia).
  assert (R : zlen (rstrip_by is_esc line) <= zlen t).
  { unfold line. destruct (endswith [ESC] t); [apply rstrip_len|]. unfold rstrip_by. rewrite rev_app_distr. cbn [rev app lstrip_by]. change (is_esc ESC) with true. cbv iota.
    rewrite zlen_rev. pose proof (lstrip_len is_esc (rev t)). now rewrite zlen_rev in H0. }
  destruct (yield_loop (finditer line) no_options 0) as [[ss' i] [x|]] eqn:Y; [discriminate|].
  destruct (yield_sizes (finditer line) no_options 0 ss' i) as [I1 [I2 I3]]; auto.
  { eapply chain_weak; [|apply finditer_chain]. lia. }
  destruct (i <? zlen (rstrip_by is_esc line)) eqn:Ei; injection H as <-.
  - apply Z.ltb_lt in Ei. unfold line_len. rewrite map_app. unfold total. rewrite fold_right_app. cbn [map fold_right].
    assert (A : forall l z, fold_right Z.add z l = fold_right Z.add 0 l + z) by (induction l as [|a l IH]; intro z; cbn [fold_right]; [lia|rewrite IH; lia]).
    rewrite A. change (fold_right Z.add 0 (map (fun s => zlen (s_text s)) ss')) with (line_len ss').
    assert (S : zlen (slice (Some i) None (rstrip_by is_esc line)) = zlen (rstrip_by is_esc line) - i).
    { pose proof (line_nonneg ss'). apply slice_from_len. lia. }
    cbn [plain_span s_text]. rewrite S. lia.
  - destruct (finditer line) as [|m ms] eqn:F; [specialize (I2 eq_refl); pose proof (zlen_nonneg _ t); lia|]. rewrite <- F in I3. destruct I3 as [J1 [x [y J2]]]; [rewrite F; discriminate|].
    apply finditer_within in J2. lia.
Qed.
Lemma terminal_cost : forall data cursor force v s s' n, cache_len (t_cache s) -> twrite data cursor force v s = (s', Ok n) -> 0 <= n <= size_of data.
Proof.
  intros data cursor force v s s' n C H. unfold twrite in H. destruct (color_env v s) as [e|x]; [|discriminate]. destruct (as_background (t_bgcol s) true None) as [tb|x]; [|discriminate].
  destruct cursor as [p|]; [|discriminate]. destruct (match data with PSpans l => Ok l | PStr t => parse_line t end) as [l|x] eqn:El; [|discriminate].
  destruct (write e (t_cache s) (t_screen s) l (Some p) tb force) as [[sc c] r] eqn:Ew. injection H as <- ->. unfold write in Ew.
  destruct (write_cost _ _ _ _ _ _ _ _ _ C Ew) as [_ [W _]]. change (data_len [(p, l)]) with (line_len l + 0) in W.
  destruct data as [l0|t]; cbn [size_of]; [injection El as ->; change (total _) with (line_len l); lia|]. apply parse_size in El. lia.
Qed.
