(** Proofs about several threads writing to one screen: threads that store different cells. *)
From Coq Require Import ZArith List Bool Lia Permutation.
From Verif Require Import PyBase PyLemmas F64 SpaceModel ColorModel AnsiRe SpanModel ScreenModel ScreenSpec ScreenProofs ScreenProofs2 ScreenProofs6
  RaceModel RaceSpec RaceProofs ResizeRaceModel ResizeRaceSpec ResizeRaceProofs ResizeRaceProofs2 CrewModel CrewSpec CrewProofs.
Import ListNotations.
Open Scope Z_scope.

(** * One thread alone *)
Fixpoint solo (e : env) (tr : list step2) (s : screen) (wr : writer) : option (screen * writer) :=
  match tr with
  | [] => Some (s, wr)
  | ev :: r => match write_step e ev s wr with Some (s', wr') => solo e r s' wr' | None => None end
  end.
Lemma solo_app : forall e a b s wr, solo e (a ++ b) s wr = match solo e a s wr with Some (s', wr') => solo e b s' wr' | None => None end.
Proof. intros e a. induction a as [|ev a IH]; intros b s wr; cbn [app solo]; [reflexivity|]. destruct (write_step e ev s wr) as [[s' wr']|]; auto. Qed.
Lemma scene_solo : forall e tr s wr rz sent s' wr' rz' sent', Forall by_writer tr -> scene_run e tr (mkScene s wr rz sent) = Some (mkScene s' wr' rz' sent') ->
  solo e tr s wr = Some (s', wr').
Proof.
  intros e tr. induction tr as [|ev tr IH]; intros s wr rz sent s' wr' rz' sent' F H; cbn [scene_run solo] in *; [injection H as <- <- _ _; reflexivity|].
  pose proof (Forall_inv F) as F1. apply Forall_inv_tail in F.
  destruct ev; try contradiction F1; cbn [scene_step] in H; destruct (write_step e _ s wr) as [[s1 wr1]|]; try discriminate H; eapply IH; eauto.
Qed.

Definition no_call (l : list step2) : Prop := Forall (fun ev => ~ is_call ev) l.
Lemma forced : forall e a b s wr x y, write_step e a s wr = Some x -> write_step e b s wr = Some y -> wr <> Idle -> a = b.
Proof.
  intros e a b s wr x y Ha Hb N. destruct wr as [|sp tb w h wm am cx cy chars|tb todo|tb q t todo| |]; try congruence.
  - destruct a; try discriminate Ha. destruct b; try discriminate Hb. reflexivity.
  - destruct a; try discriminate Ha; destruct b; try discriminate Hb; auto; cbn [write_step] in *; destruct todo as [|[[q' c] st] todo]; try discriminate.
    destruct (pos_eqb q' q) eqn:E1; [|discriminate]. destruct (pos_eqb q' q0) eqn:E2; [|discriminate].
    apply pos_eqb_iff in E1, E2. congruence.
  - destruct a; try discriminate Ha; destruct b; try discriminate Hb; cbn [write_step] in *.
    destruct (pos_eqb q q0) eqn:E1; [|discriminate]. destruct (pos_eqb q q1) eqn:E2; [|discriminate]. apply pos_eqb_iff in E1, E2. congruence.
  - destruct a; discriminate Ha.
  - destruct a; discriminate Ha.
Qed.
Definition ended (wr : writer) : Prop := wr = Idle \/ wr = Broken \/ wr = Failed.
Lemma idle_rest : forall e a s x, no_call a -> solo e a s Idle = Some x -> a = [].
Proof.
  intros e [|ev a] s x N H; [reflexivity|]. apply Forall_inv in N. cbn [solo] in H. destruct ev; try discriminate H. elim N. exact I.
Qed.
Lemma solo_forced : forall e a b s wr sa sb wb, wr <> Idle -> no_call a -> no_call b ->
  solo e a s wr = Some (sa, Idle) -> solo e b s wr = Some (sb, wb) -> ended wb -> sa = sb /\ wb = Idle.
Proof.
  intros e a. induction a as [|ev a IH]; intros b s wr sa sb wb N Na Nb Ha Hb E; cbn [solo] in Ha; [injection Ha as _ ->; congruence|].
  destruct (write_step e ev s wr) as [[s1 wr1]|] eqn:E1; [|discriminate].
  destruct b as [|ev' b]; cbn [solo] in Hb.
  - injection Hb as <- <-. destruct E as [E|[E|E]]; [congruence| |]; subst wr; destruct ev; discriminate E1.
  - destruct (write_step e ev' s wr) as [[s2 wr2]|] eqn:E2; [|discriminate].
    assert (ev = ev') by (eapply forced; eauto). subst ev'. rewrite E1 in E2. injection E2 as <- <-.
    apply Forall_inv_tail in Na, Nb. destruct (match wr1 with Idle => true | _ => false end) eqn:Ei.
    + destruct wr1; try discriminate Ei. rewrite (idle_rest e a s1 _ Na Ha) in Ha. rewrite (idle_rest e b s1 _ Nb Hb) in Hb.
      cbn [solo] in Ha, Hb. injection Ha as <-. injection Hb as <- <-. auto.
    + apply (IH b s1 wr1 sa sb wb); auto. intro E0. rewrite E0 in Ei. discriminate Ei.
Qed.

Lemma store_solo : forall e tb s l cells buf n,
  exists tr s' wr', no_call tr /\ solo e tr (full s cells buf) (Storing tb l) = Some (s', wr') /\
  match commit_store e tb l cells buf n with
  | (cells', buf', _, None) => s' = full s cells' buf' /\ wr' = Idle
  | _ => wr' = Broken \/ wr' = Failed
  end.
Proof.
  intros e tb s l. induction l as [|[[[x y] c] st] l IH]; intros cells buf n; cbn [commit_store].
  - exists [Return], (full s cells buf), Idle. split; [repeat constructor; auto|]. split; [reflexivity|]. auto.
  - destruct (finish_cell tb c st) as [[new nl]|ex] eqn:Ef.
    2:{ exists [Save (x, y)], (full s cells buf), Broken. split; [repeat constructor; auto|]. split; [|now left].
        cbn [solo write_step]. now rewrite pos_eqb_refl, Ef. }
    destruct (mget cells x y) as [old|] eqn:Eg.
    2:{ exists [Save (x, y)], (full s cells buf), Failed. split; [repeat constructor; auto|]. split; [|now right].
        cbn [solo write_step full sc_cells fst snd]. now rewrite pos_eqb_refl, Ef, Eg. }
    destruct (cell_eqb new old) eqn:Ee.
    + destruct (IH cells buf n) as [tr [s' [wr' [N [R E]]]]]. exists (Save (x, y) :: tr), s', wr'. split; [constructor; auto|]. split; [|exact E].
      cbn [solo write_step full sc_cells fst snd]. rewrite pos_eqb_refl, Ef, Eg, Ee. exact R.
    + destruct (IH (mset cells x y new) (buf_set (x, y) (cell_entry e new nl) buf) (n + 1)) as [tr [s' [wr' [N [R E]]]]].
      exists (Save (x, y) :: Enter (x, y) :: tr), s', wr'. split; [constructor; auto; constructor; auto|]. split; [|exact E].
      cbn [solo write_step full sc_cells fst snd]. rewrite pos_eqb_refl, Ef, Eg, Ee. rewrite pos_eqb_refl. exact R.
Qed.
Lemma write_solo : forall e c s x y sp tb force, cache_ok e c -> shaped s -> sc_off s = 0 -> y < sc_h s ->
  exists tr s' wr', no_call tr /\ solo e (Call (x, y) sp tb :: tr) s Idle = Some (s', wr') /\
  match write_bulk e c s [((x, y), [sp])] tb force with
  | (s1, _, Ok _) => s' = s1 /\ wr' = Idle
  | _ => wr' = Broken \/ wr' = Failed
  end.
Proof.
  intros e c s x y sp tb force Hc Hs Ho Hy. unfold write_bulk. cbn [place_all place_line].
  destruct (cached_ok e c sp true true Hc) as [c' [Ec Hc']]. cbn [ws_cache ws_wm ws_am ws_cells ws_off]. rewrite Ec.
  cbn [ws_cache ws_wm ws_am ws_cells ws_off]. replace (zlen [sp] - 1) with 0 by reflexivity. rewrite Ho.
  replace (sc_h s - 1 <? y - 0) with false by (symmetry; apply Z.ltb_ge; lia). rewrite andb_false_r. cbn [ws_cache ws_wm ws_am ws_cells ws_off].
  rewrite Z.sub_0_r.
  pose proof (lay_run e sp tb (sc_w s) (sc_h s) (get_characters e sp true true) 0 (zlen (get_characters e sp true true)) x y 0
    (blank_matrix (sc_w s) (sc_h s) None) (blank_matrix (sc_w s) (sc_h s) []) s Still [] (dims_blank _ _ _ _) eq_refl eq_refl) as [k Hk].
  pose proof (place_dims (sc_w s) (sc_h s) sp (get_characters e sp true true) 0 (zlen (get_characters e sp true true)) x y 0
    (blank_matrix (sc_w s) (sc_h s) None) (blank_matrix (sc_w s) (sc_h s) []) (dims_blank _ _ _ _) (dims_blank _ _ _ _)) as PD.
  destruct (place _ _ _ _ _ _ _ _ _ _ _) as [[[[x' y'] lst'] wm] am]. destruct PD as [D1 D2]. cbn [ws_cache ws_wm ws_am ws_cells ws_off].
  rewrite commit_jobs_eq, (jobs_positions (sc_w s) (sc_h s)) by auto. rewrite commit_to_store.
  change (flat_map _ (positions (sc_w s) (sc_h s))) with (to_store (sc_w s) (sc_h s) wm am).
  destruct (store_solo e tb s (to_store (sc_w s) (sc_h s) wm am) (sc_cells s) (sc_buf s) 0) as [tr [s' [wr' [N [R E]]]]].
  exists (repeat Lay k ++ tr), s', wr'. split.
  { apply Forall_app. split; [|exact N]. apply Forall_forall. intros ev H. apply repeat_spec in H. subst ev. intros []. }
  split.
  - cbn [solo write_step fst snd]. rewrite Ho. replace (y <? sc_h s) with true by (symmetry; apply Z.ltb_lt; lia). cbn [andb].
    change (0 =? 0) with true. cbv iota. rewrite solo_app.
    rewrite (scene_solo e (repeat Lay k) s _ Still [] s _ Still [] ltac:(apply Forall_forall; intros ev H; apply repeat_spec in H; subst ev; exact I) Hk).
    replace s with (full s (sc_cells s) (sc_buf s)) at 1 by (destruct s; reflexivity). exact R.
  - destruct (commit_store e tb (to_store (sc_w s) (sc_h s) wm am) (sc_cells s) (sc_buf s) 0) as [[[cells' buf'] n'] [ex|]]; [exact E|].
    destruct E as [-> ->]. split; [|reflexivity]. unfold full. rewrite Ho. reflexivity.
Qed.
(** a thread that has called write_bulk and returned has written *)
Lemma solo_write : forall e c s p sp tb r s' force, cache_ok e c -> shaped s -> no_call r -> solo e (Call p sp tb :: r) s Idle = Some (s', Idle) ->
  match write_bulk e c s [(p, [sp])] tb force with (s1, _, Ok _) => s1 = s' | _ => False end.
Proof.
  intros e c s [x y] sp tb r s' force Hc Hs N H.
  assert (G : sc_off s = 0 /\ y < sc_h s).
  { cbn [solo write_step fst snd] in H. destruct ((y <? sc_h s) && (sc_off s =? 0)) eqn:E; [|discriminate]. apply andb_true_iff in E.
    rewrite Z.ltb_lt, Z.eqb_eq in E. tauto. }
  destruct G as [Ho Hy]. destruct (write_solo e c s x y sp tb force Hc Hs Ho Hy) as [tr [s2 [wr [N2 [R E]]]]].
  assert (W : exists s1 wr1, write_step e (Call (x, y) sp tb) s Idle = Some (s1, wr1) /\ wr1 <> Idle).
  { cbn [write_step fst snd]. rewrite Ho. replace (y <? sc_h s) with true by (symmetry; apply Z.ltb_lt; lia). eexists. eexists. split; [reflexivity|discriminate]. }
  destruct W as [s1 [wr1 [W Wn]]]. change (solo e (Call (x, y) sp tb :: r) s Idle) with
    (match write_step e (Call (x, y) sp tb) s Idle with Some (s', wr') => solo e r s' wr' | None => None end) in H.
  change (solo e (Call (x, y) sp tb :: tr) s Idle) with
    (match write_step e (Call (x, y) sp tb) s Idle with Some (s', wr') => solo e tr s' wr' | None => None end) in R. rewrite W in H, R.
  assert (En : ended wr).
  { unfold ended. destruct (write_bulk e c s [((x, y), [sp])] tb force) as [[s3 c3] [v|ex]]; tauto. }
  destruct (solo_forced e r tr s1 wr1 s' s2 wr Wn N N2 H R En) as [Es2 Ewr]. subst s2 wr.
  unfold pos in *. destruct (write_bulk e c s [((x, y), [sp])] tb force) as [[s3 c3] [v|ex]]; [now destruct E as [E _]|]. destruct E; discriminate.
Qed.

(** a thread alone in its crew *)
Lemma solo_crew : forall e i tr s ws sent wr s' wr', nth_error ws i = Some wr -> solo e tr s wr = Some (s', wr') ->
  crew_run e (map (By i) tr) (mkCrew s ws sent) = Some (mkCrew s' (set_nth i wr' ws) sent).
Proof.
  intros e i tr. induction tr as [|ev tr IH]; intros s ws sent wr s' wr' En H; cbn [solo map crew_run] in *.
  - injection H as <- <-. do 2 f_equal. symmetry. revert i En. induction ws as [|a ws IHw]; intros [|i] En; cbn in *; try discriminate; [now injection En as ->|].
    f_equal. now apply IHw.
  - cbn [crew_step]. rewrite En. destruct (write_step e ev s wr) as [[s1 wr1]|]; [|discriminate].
    rewrite (IH s1 (set_nth i wr1 ws) sent wr1 s' wr'); [|eapply nth_set_at; eauto|exact H]. do 2 f_equal.
    clear. revert i. induction ws as [|a ws IHw]; intros [|i]; cbn; auto. f_equal. apply IHw.
Qed.
Lemma set_idle : forall n i, set_nth i Idle (repeat Idle n) = repeat Idle n.
Proof. induction n as [|n IH]; intros [|i]; cbn; auto. f_equal. apply IH. Qed.
Lemma crew_alone : forall e c s x y sp tb force n i sent, (i < n)%nat -> cache_ok e c -> shaped s -> sc_off s = 0 -> y < sc_h s ->
  match write_bulk e c s [((x, y), [sp])] tb force with
  | (s', _, Ok _) => exists tr, one_write ((x, y), sp, tb) tr /\ crew_run e (map (By i) tr) (rested s n sent) = Some (rested s' n sent)
  | _ => True
  end.
Proof.
  intros e c s x y sp tb force n i sent Hi Hc Hs Ho Hy. destruct (write_solo e c s x y sp tb force Hc Hs Ho Hy) as [tr [s2 [wr [N [R E]]]]].
  destruct (write_bulk e c s [((x, y), [sp])] tb force) as [[s3 c3] [v|ex]]; [|exact I]. destruct E as [-> ->].
  exists (Call (x, y) sp tb :: tr). split; [now exists tr|]. unfold rested.
  rewrite (solo_crew e i _ s (repeat Idle n) sent Idle s3 Idle); [now rewrite set_idle| |exact R]. now apply nth_error_repeat.
Qed.

(** * Frames *)
Section Own.
Variable own : pos -> nat.
Record agree (i : nat) (w h : Z) (s t : screen) : Prop := {
  a_wide : wide w h s;
  a_wide2 : wide w h t;
  a_off : sc_off s = sc_off t;
  a_cells : forall q, on_screen w h q -> own q = i -> cell_at s q = cell_at t q
}.
Definition owns (i : nat) (wr : writer) : Prop := match wr with Noting _ q _ _ => own q = i | _ => True end.
Lemma save_on : forall e w h q s wr x, fits w h wr -> write_step e (Save q) s wr = Some x -> on_screen w h q.
Proof.
  intros e w h q s wr x F H. destruct wr as [| |tb todo| | |]; try discriminate H. cbn [write_step] in H. destruct todo as [|[[q' c] st] todo]; [discriminate|].
  destruct (pos_eqb q' q) eqn:E; [|discriminate]. apply pos_eqb_iff in E. subst q'. exact (Forall_inv F).
Qed.
Lemma cell_mget : forall w h s q, on_screen w h q -> cell_at s q = mget (sc_cells s) (fst q) (snd q).
Proof. intros w h s q [H1 H2]. unfold cell_at. replace ((0 <=? fst q) && (0 <=? snd q)) with true; [reflexivity|]. symmetry. rewrite andb_true_iff, !Z.leb_le. lia. Qed.
Definition at_own (i : nat) (d : change) : Prop := match d with Nothing => True | Cell q _ | Text q _ => own q = i end.
Lemma agree_change : forall i w h d s t, agree i w h s t -> (match d with Nothing => True | Cell q _ | Text q _ => on_screen w h q end) ->
  agree i w h (apply_change d s) (apply_change d t).
Proof.
  intros i w h d s t [A1 A2 A3 A4] Hd. split; [now apply wide_change|now apply wide_change|now destruct d|].
  intros q Hq Ho. rewrite (cell_change w h d s q A1 Hq Hd), (cell_change w h d t q A2 Hq Hd). destruct d as [|q' c|q' u]; auto.
  destruct (pos_eqb q' q); auto.
Qed.
Lemma off_change : forall d s, sc_off (apply_change d s) = sc_off s. Proof. intros [| |] s; reflexivity. Qed.
Lemma agree_other : forall i j w h d s t, agree j w h s t -> (match d with Nothing => True | Cell q _ | Text q _ => on_screen w h q end) ->
  at_own i d -> i <> j -> agree j w h (apply_change d s) t.
Proof.
  intros i j w h d s t [A1 A2 A3 A4] Hd Ho N. split; [now apply wide_change|auto|now rewrite off_change|].
  intros q Hq Hj. rewrite (cell_change w h d s q A1 Hq Hd). destruct d as [|q' c|q' u]; auto.
  destruct (pos_eqb q' q) eqn:E; auto. apply pos_eqb_iff in E. subst q'. cbn [at_own] in Ho. congruence.
Qed.
Lemma newest_other : forall i d s q sent, at_own i d -> own q <> i -> newest_of q (apply_change d s) sent = newest_of q s sent.
Proof.
  intros i d s q sent Ho N. rewrite newest_change. destruct d as [|q' c|q' u]; auto.
  destruct (pos_eqb q' q) eqn:E; auto. apply pos_eqb_iff in E. subst q'. cbn [at_own] in Ho. congruence.
Qed.
Lemma newest_both : forall d s t q sent sent', newest_of q s sent = newest_of q t sent' -> newest_of q (apply_change d s) sent = newest_of q (apply_change d t) sent'.
Proof. intros d s t q sent sent' H. rewrite !newest_change. destruct d as [|q' c|q' u]; auto. now destruct (pos_eqb q' q). Qed.
Lemma step_frame : forall e i w h ev s t wr s' wr', fits w h wr -> owns i wr -> agree i w h s t -> (forall q, ev = Save q -> own q = i) ->
  write_step e ev s wr = Some (s', wr') ->
  exists d, s' = apply_change d s /\ write_step e ev t wr = Some (apply_change d t, wr') /\ agree i w h (apply_change d s) (apply_change d t) /\
    at_own i d /\ owns i wr' /\ fits w h wr' /\ (match d with Nothing => True | Cell q _ | Text q _ => on_screen w h q end).
Proof.
  intros e i w h ev s t wr s' wr' F O A Hs H. destruct (write_stepped e w h ev s wr s' wr' (a_wide _ _ _ _ _ A) F H) as [d [E [P T]]].
  exists d. split; [exact E|]. destruct P as [Pf Po Pc Pt Pn Pd]. split.
  { apply T.
    - destruct A as [[A1 _] [A2 _] _ _]. congruence.
    - destruct A as [[_ [A1 _]] [_ [A2 _]] _ _]. congruence.
    - symmetry. apply A.
    - intros q Eq. pose proof (Hs q Eq) as Hq. subst ev. pose proof (save_on e w h q s wr _ F H) as On. rewrite <- !(cell_mget w h) by exact On.
      symmetry. now apply A. }
  split; [now apply agree_change|]. split; [|split; [|split; [exact Pf|exact Po]]].
  - destruct d as [|q c|q u]; cbn [at_own]; auto.
    + apply Hs. now destruct (Pc _ _ eq_refl).
    + destruct (Pt _ _ eq_refl) as [tb [todo ->]]. exact O.
  - destruct wr' as [| | |tb q u todo| |]; cbn [owns]; auto. destruct (Pn _ _ _ _ eq_refl) as [c ->]. apply Hs. now destruct (Pc _ _ eq_refl).
Qed.
Lemma solo_frame : forall e i w h sent tr s t wr s' wr', fits w h wr -> owns i wr -> agree i w h s t -> (forall q, In (Save q) tr -> own q = i) ->
  solo e tr s wr = Some (s', wr') ->
  (forall q, on_screen w h q -> own q = i -> newest_of q s sent = newest_of q t sent) ->
  exists t', solo e tr t wr = Some (t', wr') /\ agree i w h s' t' /\
    (forall q, on_screen w h q -> own q = i -> newest_of q s' sent = newest_of q t' sent) /\
    (forall q, on_screen w h q -> own q <> i -> cell_at t' q = cell_at t q /\ newest_of q t' sent = newest_of q t sent).
Proof.
  intros e i w h sent tr. induction tr as [|ev tr IH]; intros s t wr s' wr' F O A Hs H Hn; cbn [solo] in H.
  - injection H as <- <-. exists t. auto.
  - destruct (write_step e ev s wr) as [[s1 wr1]|] eqn:E; [|discriminate].
    destruct (step_frame e i w h ev s t wr s1 wr1 F O A ltac:(intros q ->; apply Hs; now left) E) as [d [-> [Et [A' [Ad [O' [F' On]]]]]]].
    destruct (IH (apply_change d s) (apply_change d t) wr1 s' wr' F' O' A' ltac:(intros q Hq; apply Hs; now right) H) as [t' [R [A2 [N2 U]]]].
    { intros q Hq Ho. apply newest_both. auto. }
    exists t'. split; [cbn [solo]; now rewrite Et|]. split; [exact A2|]. split; [exact N2|]. intros q Hq No. destruct (U q Hq No) as [U1 U2].
    rewrite U1, U2. rewrite (newest_other i d t q sent Ad No). split; [|reflexivity].
    rewrite (cell_change w h d t q (a_wide2 _ _ _ _ _ A) Hq On). destruct d as [|q' c|q' u]; auto.
    destruct (pos_eqb q' q) eqn:E'; auto. apply pos_eqb_iff in E'. subst q'. cbn [at_own] in Ad. congruence.
Qed.

(** * Any interleaving *)
Record woven (e : env) (w h : Z) (s0 : screen) (sent0 : list buffer) (past : list crew_event) (k : crew) : Prop := {
  v_hale : hale w h k;
  v_solo : forall i wr, nth_error (r_writers k) i = Some wr -> owns i wr /\
    exists si, solo e (part i past) s0 Idle = Some (si, wr) /\ agree i w h (r_screen k) si /\
      (forall q, on_screen w h q -> own q = i -> newest_of q (r_screen k) (r_sent k) = newest_of q si sent0);
  v_free : forall q, on_screen w h q -> nth_error (r_writers k) (own q) = None ->
    cell_at (r_screen k) q = cell_at s0 q /\ newest_of q (r_screen k) (r_sent k) = newest_of q s0 sent0
}.
Lemma part_app : forall i a b, part i (a ++ b) = part i a ++ part i b. Proof. intros. unfold part. apply flat_map_app. Qed.
Lemma woven_step : forall e w h s0 sent0 past ev k k', woven e w h s0 sent0 past k -> (forall i q, ev = By i (Save q) -> own q = i) ->
  crew_step e ev k = Some k' -> woven e w h s0 sent0 (past ++ [ev]) k'.
Proof.
  intros e w h s0 sent0 past ev k k' [Vh Vs Vf] Ho H. pose proof (hale_step e w h ev k k' Vh H) as Vh'. destruct ev as [i ev|].
  2:{ destruct k as [s ws sent]. injection H as <-. split; auto; cbn [r_screen r_writers r_sent] in *.
      - intros j wr Ej. destruct (Vs j wr Ej) as [O [si [R [[A1 A2 A3 A4] N]]]]. split; [exact O|]. exists si. split; [rewrite part_app, app_nil_r; exact R|].
        split; [split; auto|]. intros q Hq Eq. rewrite newest_show by exact (h_keyed _ _ _ Vh). auto.
      - intros q Hq Eq. rewrite newest_show by exact (h_keyed _ _ _ Vh). exact (Vf q Hq Eq). }
  destruct (crew_stepped e w h i ev k k' Vh H) as [wr [wr' [d0 [En [P [Es ->]]]]]]. cbn [r_screen] in Es.
  destruct (Vs i wr En) as [O [si [R [A N]]]].
  assert (F : fits w h wr) by (pose proof (h_fits _ _ _ Vh) as F; rewrite Forall_forall in F; apply F; eapply nth_error_In; eauto).
  destruct (step_frame e i w h ev (r_screen k) si wr _ wr' F O A ltac:(intros q ->; eauto) Es) as [d [Ed [Et [A' [Ad [O' [F' On]]]]]]].
  rewrite Ed in *. split; auto; cbn [r_screen r_writers r_sent].
  - intros j wrj Ej. destruct (Nat.eq_dec j i) as [->|Nj].
    + rewrite (nth_set_at _ _ _ _ _ En) in Ej. injection Ej as <-. split; [exact O'|]. exists (apply_change d si). split.
      { rewrite part_app, solo_app, R. unfold part. cbn [flat_map]. rewrite Nat.eqb_refl. cbn [app solo]. now rewrite Et. }
      split; [exact A'|]. intros q Hq Eq. apply newest_both. auto.
    + rewrite nth_set_off in Ej by exact Nj. destruct (Vs j wrj Ej) as [Oj [sj [Rj [Aj Nw]]]]. split; [exact Oj|]. exists sj. split.
      { rewrite part_app. unfold part at 2. cbn [flat_map]. apply Nat.eqb_neq in Nj. rewrite Nj. cbn [app]. now rewrite app_nil_r. }
      split; [apply (agree_other i); auto|]. intros q Hq Eq. rewrite (newest_other i); auto. congruence.
  - intros q Hq Eq. rewrite nth_set in Eq. destruct (own q =? i)%nat eqn:Ei.
    { apply Nat.eqb_eq in Ei. rewrite Ei, En in Eq. discriminate. }
    apply Nat.eqb_neq in Ei. destruct (Vf q Hq Eq) as [V1 V2]. rewrite (newest_other i) by auto. split; [|exact V2]. rewrite <- V1.
    rewrite (cell_change w h d (r_screen k) q (a_wide _ _ _ _ _ A) Hq On). destruct d as [|q' c|q' u]; auto.
    destruct (pos_eqb q' q) eqn:E'; auto. apply pos_eqb_iff in E'. subst q'. cbn [at_own] in Ad. congruence.
Qed.
Lemma woven_run : forall e w h s0 sent0 tr past k k', woven e w h s0 sent0 past k -> apart own tr -> crew_run e tr k = Some k' ->
  woven e w h s0 sent0 (past ++ tr) k'.
Proof.
  intros e w h s0 sent0 tr. induction tr as [|ev tr IH]; intros past k k' V A H; cbn [crew_run] in H; [injection H as <-; now rewrite app_nil_r|].
  destruct (crew_step e ev k) as [k1|] eqn:E; [|discriminate]. change (ev :: tr) with ([ev] ++ tr). rewrite app_assoc. apply (IH _ k1).
  - eapply woven_step; eauto. intros i q ->. apply A. now left.
  - intros i q Hq. apply A. now right.
  - exact H.
Qed.

(** * One after the other *)
Lemma part_save : forall i q tr, In (Save q) (part i tr) -> In (By i (Save q)) tr.
Proof.
  intros i q tr H. apply in_flat_map in H. destruct H as [[j st|] [H1 H2]]; [|destruct H2]. destruct (Nat.eqb i j) eqn:E; [|destruct H2].
  destruct H2 as [->|[]]. apply Nat.eqb_eq in E. subst j. exact H1.
Qed.
Lemma turns : forall e w h s0 sent (tr : list crew_event) (ds : list order) (final : nat -> screen) dflt idx t,
  wide w h s0 -> wide w h t -> sc_off t = sc_off s0 -> apart own tr -> NoDup idx ->
  (forall i, In i idx -> solo e (part i tr) s0 Idle = Some (final i, Idle) /\ one_write (nth i ds dflt) (part i tr)) ->
  (forall q, on_screen w h q -> In (own q) idx -> cell_at t q = cell_at s0 q /\ newest_of q t sent = newest_of q s0 sent) ->
  exists t', in_turn e (map (fun i => nth i ds dflt) idx) t = Some t' /\
    (forall q, on_screen w h q -> In (own q) idx -> cell_at t' q = cell_at (final (own q)) q /\ newest_of q t' sent = newest_of q (final (own q)) sent) /\
    (forall q, on_screen w h q -> ~ In (own q) idx -> cell_at t' q = cell_at t q /\ newest_of q t' sent = newest_of q t sent).
Proof.
  intros e w h s0 sent tr ds final dflt idx. induction idx as [|i idx IH]; intros t W0 Wt Off Ap Nd Hs Ht; cbn [map in_turn].
  - exists t. split; [reflexivity|]. split; [intros q _ []|auto].
  - inversion Nd as [|? ? Nd1 Nd2]; subst. destruct (Hs i (or_introl eq_refl)) as [R One].
    assert (A : agree i w h s0 t). { split; auto. intros q Hq Eq. symmetry. apply Ht; auto. left; auto. }
    destruct (solo_frame e i w h sent (part i tr) s0 t Idle (final i) Idle I I A) as [t1 [R1 [A1 [N1 U1]]]]; auto.
    { intros q Hq. apply Ap. now apply part_save. }
    { intros q Hq Eq. symmetry. apply Ht; auto. left; auto. }
    destruct (nth i ds dflt) as [[p sp] tb] eqn:Ed. destruct One as [r [Er Nr]]. rewrite Er in R1.
    assert (Sh : shaped t). { apply shaped_dims. destruct Wt as [-> [-> Wt]]. exact Wt. }
    pose proof (solo_write e [] t p sp tb r t1 false ltac:(constructor) Sh Nr R1) as SW.
    destruct (write_bulk e [] t [(p, [sp])] tb false) as [[t2 c2] [v|ex]]; [|contradiction SW]. subst t2.
    assert (Wt1 : wide w h t1) by apply A1.
    destruct (IH t1 W0 Wt1) as [t' [RT [I1 I2]]]; auto.
    { pose proof (a_off _ _ _ _ _ A1) as O1. rewrite <- O1. clear - R Ed A W0.
      assert (G : forall l s wr s' wr', fits w h wr -> wide w h s -> solo e l s wr = Some (s', wr') -> sc_off s' = sc_off s).
      { intro l. induction l as [|ev l IHl]; intros s wr s' wr' F W H; cbn [solo] in H; [injection H as <- _; reflexivity|].
        destruct (write_step e ev s wr) as [[s1 wr1]|] eqn:E; [|discriminate]. destruct (write_stepped e w h ev s wr s1 wr1 W F E) as [d [-> [P _]]].
        rewrite (IHl _ _ _ _ (p_fits _ _ _ _ _ _ _ P) (wide_change _ _ _ _ W) H). apply off_change. }
      exact (G (part i tr) s0 Idle (final i) Idle Logic.I W0 R). }
    { intros j Hj. apply Hs. now right. }
    { intros q Hq Hin. assert (Ni : own q <> i) by (intro; subst i; auto). destruct (U1 q Hq Ni) as [U2 U3]. rewrite U2, U3. apply Ht; auto. now right. }
    exists t'. split; [exact RT|]. split.
    + intros q Hq [Eq|Hin]; [|now apply I1]. subst i. destruct (I2 q Hq Nd1) as [I3 I4]. rewrite I3, I4. split; [symmetry; now apply A1|symmetry; now apply N1].
    + intros q Hq Nin. destruct (I2 q Hq) as [I3 I4]; [intro; apply Nin; now right|]. rewrite I3, I4. apply U1; auto. intro; apply Nin; left; auto.
Qed.
Lemma crew_in_turn : forall e s n sent tr s' sent' ds dflt idx, shaped s -> keyed s -> crew_run e tr (rested s n sent) = Some (rested s' n sent') ->
  (forall i, (i < n)%nat -> one_write (nth i ds dflt) (part i tr)) -> apart own tr -> Permutation idx (seq 0 n) ->
  exists s'', in_turn e (map (fun i => nth i ds dflt) idx) s = Some s'' /\
    forall q, on_screen (sc_w s) (sc_h s) q -> cell_at s' q = cell_at s'' q /\ newest_of q s' sent' = newest_of q s'' sent.
Proof.
  intros e s n sent tr s' sent' ds dflt idx Hs Hk Hr One Ap Pm.
  pose proof (hale_start s n sent Hs Hk) as H0.
  assert (V0 : woven e (sc_w s) (sc_h s) s sent [] (rested s n sent)).
  { split; [exact H0| |intros; auto]. intros i wr En. apply rested_nth in En. subst wr. split; [exact I|]. exists s. split; [reflexivity|].
    split; [|auto]. split; auto; apply H0. }
  pose proof (woven_run e _ _ s sent tr [] _ _ V0 Ap Hr) as [Vh Vs Vf]. cbn [app rested r_screen r_writers r_sent] in *.
  set (final i := match solo e (part i tr) s Idle with Some (si, _) => si | None => s end).
  assert (Vs' : forall i, (i < n)%nat -> solo e (part i tr) s Idle = Some (final i, Idle) /\ agree i (sc_w s) (sc_h s) s' (final i) /\
     (forall q, on_screen (sc_w s) (sc_h s) q -> own q = i -> newest_of q s' sent' = newest_of q (final i) sent)).
  { intros i Hi. destruct (Vs i Idle (nth_error_repeat _ Hi)) as [_ [si [R [A N]]]]. unfold final. rewrite R. auto. }
  destruct (turns e (sc_w s) (sc_h s) s sent tr ds final dflt idx s (h_wide _ _ _ H0) (h_wide _ _ _ H0) eq_refl Ap) as [t' [R [I1 I2]]]; auto.
  { eapply Permutation_NoDup; [apply Permutation_sym; exact Pm|apply seq_NoDup]. }
  { intros i Hi. apply (Permutation_in _ Pm) in Hi. apply in_seq in Hi. split; [apply Vs'; lia|apply One; lia]. }
  exists t'. split; [exact R|]. intros q Hq. destruct (lt_dec (own q) n) as [L|L].
  - destruct (I1 q Hq) as [E1 E2]. { apply (Permutation_in _ (Permutation_sym Pm)), in_seq. lia. }
    rewrite E1, E2. destruct (Vs' (own q) L) as [_ [A N]]. split; [now apply A|now apply N].
  - destruct (I2 q Hq) as [E1 E2]. { intro Hin. apply (Permutation_in _ Pm), in_seq in Hin. lia. }
    rewrite E1, E2. apply Vf; auto. apply nth_error_None. rewrite repeat_length. lia.
Qed.
End Own.
