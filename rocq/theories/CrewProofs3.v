(** Proofs about several threads writing to one screen: threads that store the same cell. *)
From Coq Require Import ZArith List Bool Lia.
From Verif Require Import PyBase PyLemmas F64 SpaceModel ColorModel AnsiRe SpanModel ScreenModel ScreenSpec ScreenProofs ScreenProofs2 ScreenProofs3 ScreenProofs4 ScreenProofs5 ScreenProofs6
  RaceModel RaceSpec RaceProofs ResizeRaceModel ResizeRaceSpec ResizeRaceProofs ResizeRaceProofs2 CrewModel CrewSpec CrewProofs CrewProofs2.
Import ListNotations.
Open Scope Z_scope.

(** the layout of one character *)
Lemma lay_one : forall e s q sp tb ch, sc_off s = 0 -> on_screen (sc_w s) (sc_h s) q -> get_characters e sp true true = [ch] -> ch <> [NL] ->
  solo e [Call q sp tb; Lay; Lay] s Idle = Some (s, Storing tb [(q, (ch, s_fg sp, s_bg sp, false), [])]).
Proof.
  intros e s q sp tb ch Ho Hq Hch Hnl.
  assert (C : str_eqb ch [NL] = false) by (destruct (str_eqb ch [NL]) eqn:E; auto; apply str_eqb_eq in E; congruence).
  pose proof Hq as [Hx Hy].
  assert (Eb : (sc_w s <=? fst q) || (fst q <? 0) || (sc_h s <=? snd q) || (snd q <? 0) = false).
  { rewrite !orb_false_iff, !Z.leb_gt, !Z.ltb_ge. lia. }
  cbn [solo write_step]. rewrite Ho. replace (snd q <? sc_h s) with true by (symmetry; apply Z.ltb_lt; lia).
  cbn [andb]. change (0 =? 0) with true. cbv iota. rewrite Hch, Eb, C.
  destruct (if sc_w s <=? fst q + 1 then (0, snd q + 1) else (fst q + 1, snd q)) as [nx ny].
  rewrite mget_blank by lia. cbn [over]. unfold am_push. rewrite to_store_one by exact Hq. reflexivity.
Qed.

Lemma all_idle : forall ws n, List.length ws = n -> (forall i wr, nth_error ws i = Some wr -> wr = Idle) -> ws = repeat Idle n.
Proof.
  intros ws. induction ws as [|wr ws IH]; intros n L H; subst n; [reflexivity|]. cbn [List.length repeat]. f_equal; [apply (H 0%nat); reflexivity|].
  apply IH; auto. intros i wr' E. apply (H (S i)). exact E.
Qed.
Lemma part_map : forall i j l, part i (map (By j) l) = if Nat.eqb i j then l else [].
Proof. intros i j l. induction l as [|x l IH]; cbn; [now destruct (Nat.eqb i j)|]. unfold part in IH. rewrite IH. now destruct (Nat.eqb i j). Qed.
Lemma tangled : forall e s n i j sent q spA spB tbA tbB chA chB old a nla b nlb, (i < n)%nat -> (j < n)%nat -> i <> j ->
  shaped s -> sc_off s = 0 -> on_screen (sc_w s) (sc_h s) q -> get_characters e spA true true = [chA] -> get_characters e spB true true = [chB] ->
  chA <> [NL] -> chB <> [NL] -> finish_cell tbA (chA, s_fg spA, s_bg spA, false) [] = Ok (a, nla) ->
  finish_cell tbB (chB, s_fg spB, s_bg spB, false) [] = Ok (b, nlb) -> cell_at s q = Some old -> cell_eqb a old = false -> cell_eqb b a = false ->
  exists tr s', one_write (q, spA, tbA) (part i tr) /\ one_write (q, spB, tbB) (part j tr) /\
    crew_run e tr (rested s n sent) = Some (rested s' n sent) /\ cell_at s' q = Some b /\ newest_of q s' sent = Some (cell_entry e a nla).
Proof.
  intros e s n i j sent q spA spB tbA tbB chA chB old a nla b nlb Hi Hj Hij Hs Ho Hq HcA HcB HnA HnB HfA HfB Hold Hao Hba.
  pose proof (lay_one e s q spA tbA chA Ho Hq HcA HnA) as LA. pose proof (lay_one e s q spB tbB chB Ho Hq HcB HnB) as LB.
  assert (W : wide (sc_w s) (sc_h s) s) by (split; auto; split; auto; now apply shaped_dims).
  set (s1 := with_cells s (mset (sc_cells s) (fst q) (snd q) a)).
  set (s2 := with_cells s1 (mset (sc_cells s1) (fst q) (snd q) b)).
  set (s3 := with_buf s2 (buf_set q (cell_entry e b nlb) (sc_buf s2))).
  set (s4 := with_buf s3 (buf_set q (cell_entry e a nla) (sc_buf s3))).
  assert (W1 : wide (sc_w s) (sc_h s) s1) by apply (wide_change _ _ (Cell q a) s W).
  assert (W2 : wide (sc_w s) (sc_h s) s2) by apply (wide_change _ _ (Cell q b) s1 W1).
  assert (C1 : cell_at s1 q = Some a).
  { change s1 with (apply_change (Cell q a) s). rewrite (cell_change _ _ (Cell q a) s q W Hq Hq). now rewrite pos_eqb_refl. }
  assert (C2 : cell_at s2 q = Some b).
  { change s2 with (apply_change (Cell q b) s1). rewrite (cell_change _ _ (Cell q b) s1 q W1 Hq Hq). now rewrite pos_eqb_refl. }
  assert (SA : solo e [Save q] s (Storing tbA [(q, (chA, s_fg spA, s_bg spA, false), [])]) = Some (s1, Noting tbA q (cell_entry e a nla) [])).
  { cbn [solo write_step]. rewrite pos_eqb_refl, HfA. rewrite (cell_mget _ _ _ _ Hq) in Hold. rewrite Hold, Hao. reflexivity. }
  assert (SB : solo e [Save q; Enter q; Return] s1 (Storing tbB [(q, (chB, s_fg spB, s_bg spB, false), [])]) = Some (s3, Idle)).
  { cbn [solo write_step]. rewrite pos_eqb_refl, HfB. rewrite (cell_mget _ _ _ _ Hq) in C1. rewrite C1, Hba, pos_eqb_refl. reflexivity. }
  assert (SE : solo e [Enter q; Return] s3 (Noting tbA q (cell_entry e a nla) []) = Some (s4, Idle)).
  { cbn [solo write_step]. rewrite pos_eqb_refl. reflexivity. }
  exists (map (By i) [Call q spA tbA; Lay; Lay] ++ map (By j) [Call q spB tbB; Lay; Lay] ++ map (By i) [Save q] ++ map (By j) [Save q; Enter q; Return] ++
          map (By i) [Enter q; Return]), s4.
  pose proof (proj2 (Nat.eqb_neq i j) Hij) as Eij. pose proof (proj2 (Nat.eqb_neq j i) (not_eq_sym Hij)) as Eji.
  split. { rewrite !part_app, !part_map, Nat.eqb_refl, Eij. cbn [app]. eexists. split; [reflexivity|]. repeat (apply Forall_cons; [intros []|]). apply Forall_nil. }
  split. { rewrite !part_app, !part_map, Nat.eqb_refl, Eji. cbn [app]. eexists. split; [reflexivity|]. repeat (apply Forall_cons; [intros []|]). apply Forall_nil. }
  split.
  - unfold rested. set (ws0 := repeat Idle n). assert (L0 : List.length ws0 = n) by apply repeat_length.
    assert (N0 : forall m, (m < n)%nat -> nth_error ws0 m = Some Idle) by (intros m Hm; now apply nth_error_repeat).
    rewrite crew_app. rewrite (solo_crew e i _ s ws0 sent Idle _ _ (N0 i Hi) LA).
    set (ws1 := set_nth i _ ws0). assert (E1 : nth_error ws1 j = Some Idle) by (unfold ws1; rewrite nth_set_off by auto; auto).
    rewrite crew_app. rewrite (solo_crew e j _ s ws1 sent Idle _ _ E1 LB). set (ws2 := set_nth j _ ws1).
    assert (E2 : nth_error ws2 i = Some (Storing tbA [(q, (chA, s_fg spA, s_bg spA, false), [])])).
    { unfold ws2. rewrite nth_set_off by auto. unfold ws1. eapply nth_set_at. now apply N0. }
    rewrite crew_app. rewrite (solo_crew e i _ s ws2 sent _ _ _ E2 SA). set (ws3 := set_nth i _ ws2).
    assert (E3 : nth_error ws3 j = Some (Storing tbB [(q, (chB, s_fg spB, s_bg spB, false), [])])).
    { unfold ws3. rewrite nth_set_off by auto. unfold ws2. eapply nth_set_at. exact E1. }
    rewrite crew_app. rewrite (solo_crew e j _ s1 ws3 sent _ _ _ E3 SB). set (ws4 := set_nth j _ ws3).
    assert (E4 : nth_error ws4 i = Some (Noting tbA q (cell_entry e a nla) [])).
    { unfold ws4. rewrite nth_set_off by auto. unfold ws3. eapply nth_set_at. exact E2. }
    rewrite (solo_crew e i _ s3 ws4 sent _ _ _ E4 SE). do 2 f_equal. apply all_idle.
    + unfold ws4, ws3, ws2, ws1. now rewrite !set_nth_length.
    + intros m wr Em. destruct (Nat.eq_dec m i) as [->|Nmi]; [rewrite (nth_set_at _ _ _ _ _ E4) in Em; congruence|].
      rewrite nth_set_off in Em by exact Nmi. unfold ws4 in Em. destruct (Nat.eq_dec m j) as [->|Nmj]; [rewrite (nth_set_at _ _ _ _ _ E3) in Em; congruence|].
      rewrite nth_set_off in Em by exact Nmj. unfold ws3 in Em. rewrite nth_set_off in Em by exact Nmi. unfold ws2 in Em. rewrite nth_set_off in Em by exact Nmj.
      unfold ws1 in Em. rewrite nth_set_off in Em by exact Nmi. unfold ws0 in Em. exact (rested_nth _ _ _ Em).
  - split; [exact C2|]. change s4 with (apply_change (Text q (cell_entry e a nla)) s3). rewrite newest_change. now rewrite pos_eqb_refl.
Qed.

(** a cell no thread stores stays as it is, on the screen and on the terminal *)
Record left_at (q : pos) (c : option cell) (t : option str) (k : crew) : Prop := {
  l_cell : cell_at (r_screen k) q = c;
  l_newest : newest_of q (r_screen k) (r_sent k) = t;
  l_free : Forall (fun wr => noting q wr = false) (r_writers k)
}.
Lemma left_step : forall e w h q c t ev k k', on_screen w h q -> hale w h k -> left_at q c t k -> leaves q ev -> crew_step e ev k = Some k' -> left_at q c t k'.
Proof.
  intros e w h q c t [i ev|] k k' Hq Hk [L1 L2 L3] Hl H.
  2:{ destruct k as [s ws sent]. injection H as <-. split; auto. cbn [r_screen r_sent] in *. rewrite newest_show by exact (h_keyed _ _ _ Hk). exact L2. }
  destruct (crew_stepped e w h i ev k k' Hk H) as [wr [wr' [d [En [P [_ ->]]]]]]. destruct P as [Pf Po Pc Pt Pn Pd]. destruct Hk as [W K F].
  assert (Fw : noting q wr = false) by (rewrite Forall_forall in L3; apply L3; eapply nth_error_In; eauto).
  assert (Nc : forall c', d <> Cell q c') by (intros c' ->; destruct (Pc _ _ eq_refl) as [-> _]; now apply Hl).
  split; cbn [r_screen r_writers r_sent].
  - rewrite (cell_change w h d _ q W Hq Po). destruct d as [|q' c'|q' t']; auto. destruct (pos_eqb q' q) eqn:E; auto.
    apply pos_eqb_iff in E. subst q'. now elim (Nc c').
  - rewrite newest_change. destruct d as [|q' c'|q' t']; auto. destruct (Pt _ _ eq_refl) as [tb [todo ->]]. cbn [noting] in Fw. now rewrite Fw.
  - apply Forall_set; auto. destruct wr' as [| | |tb q' t' todo| |]; auto. cbn [noting]. destruct (pos_eqb q' q) eqn:E; auto.
    apply pos_eqb_iff in E. subst q'. destruct (Pn _ _ _ _ eq_refl) as [c' Ec]. now elim (Nc c').
Qed.
Lemma left_run : forall e w h q c t tr k k', on_screen w h q -> hale w h k -> left_at q c t k -> Forall (leaves q) tr -> crew_run e tr k = Some k' -> left_at q c t k'.
Proof.
  intros e w h q c t tr. induction tr as [|ev tr IH]; intros k k' Hq Hk L F H; cbn [crew_run] in H; [now injection H as <-|].
  destruct (crew_step e ev k) as [k1|] eqn:E; [|discriminate]. apply (IH k1); auto.
  - eapply hale_step; eauto.
  - eapply left_step; eauto. exact (Forall_inv F).
  - exact (Forall_inv_tail F).
Qed.
Lemma crew_leaves : forall e s n sent tr k q, shaped s -> keyed s -> on_screen (sc_w s) (sc_h s) q -> Forall (leaves q) tr ->
  crew_run e tr (rested s n sent) = Some k -> cell_at (r_screen k) q = cell_at s q /\ newest_of q (r_screen k) (r_sent k) = newest_of q s sent.
Proof.
  intros e s n sent tr k q Hs Hk Hq F H.
  destruct (left_run e _ _ q (cell_at s q) (newest_of q s sent) tr _ k Hq (hale_start s n sent Hs Hk)) as [L1 L2 L3]; auto.
  split; auto. apply Forall_forall. intros wr Hw. apply repeat_spec in Hw. now subst wr.
Qed.

Lemma tangled_plain : forall e s n i j sent q spA spB tbA tbB chA chB old, (i < n)%nat -> (j < n)%nat -> i <> j ->
  shaped s -> sc_off s = 0 -> on_screen (sc_w s) (sc_h s) q -> opaque_span spA -> opaque_span spB -> ~ In NL (s_text spA) -> ~ In NL (s_text spB) ->
  get_characters e spA true true = [chA] -> get_characters e spB true true = [chB] -> cell_at s q = Some old ->
  ~ same_cell (plain_cell (chA, spA)) old -> ~ same_cell (plain_cell (chB, spB)) (plain_cell (chA, spA)) ->
  exists tr s', one_write (q, spA, tbA) (part i tr) /\ one_write (q, spB, tbB) (part j tr) /\
    crew_run e tr (rested s n sent) = Some (rested s' n sent) /\ cell_at s' q = Some (plain_cell (chB, spB)) /\
    newest_of q s' sent = Some (drawn e (plain_cell (chA, spA))).
Proof.
  intros e s n i j sent q spA spB tbA tbB chA chB old Hi Hj Hij Hs Ho Hq OA OB NA NB CA CB Hold DA DB.
  destruct (characters_tail e spA chA NA) as [tA [cA [EA KA]]]; [rewrite CA; now left|].
  destruct (characters_tail e spB chB NB) as [tB [cB [EB KB]]]; [rewrite CB; now left|].
  assert (X : forall t c, c <> NL -> t ++ [c] <> [NL]).
  { intros t c K E. destruct t as [|x [|y t]]; try discriminate E. injection E as E. contradiction. }
  assert (Y : forall a b, ~ same_cell a b -> cell_eqb a b = false).
  { intros a b K. destruct (cell_eqb a b) eqn:E; [apply same_cell_iff in E; contradiction|reflexivity]. }
  rewrite <- drawn_entry. apply tangled with (chA := chA) (chB := chB) (old := old) (nlb := false); auto; try (subst; apply X; assumption); try (now apply Y).
  - now apply (finish_opaque tbA chA spA tA cA).
  - now apply (finish_opaque tbB chB spB tB cB).
Qed.
