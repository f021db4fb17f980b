(** Proofs about several threads writing to one screen. *)
From Coq Require Import ZArith List Bool Lia Permutation.
From Verif Require Import PyBase PyLemmas F64 SpaceModel ColorModel AnsiRe SpanModel ScreenModel ScreenSpec ScreenProofs ScreenProofs2 ScreenProofs6
  RaceModel RaceSpec RaceProofs ResizeRaceModel ResizeRaceSpec ResizeRaceProofs ResizeRaceProofs2 CrewModel CrewSpec.
Import ListNotations.
Open Scope Z_scope.

Lemma crew_app : forall e a b k, crew_run e (a ++ b) k = match crew_run e a k with Some k' => crew_run e b k' | None => None end.
Proof. intros e a. induction a as [|ev a IH]; intros b k; cbn [app crew_run]; [reflexivity|]. destruct (crew_step e ev k); auto. Qed.

Definition told (e : env) (q : pos) (s : screen) (sent : list buffer) : Prop :=
  forall c t, cell_at s q = Some c -> newest_of q s sent = Some t -> exists nl, t = cell_entry e c nl.
Lemma told_truthful : forall e q s sent, told e q s sent <-> truthful e q s sent.
Proof.
  intros e q s sent. split; intros H c t E F; specialize (H c t E F).
  - apply entry_drawn. exact H.
  - apply entry_drawn. exact H.
Qed.

(** * One step of a writer *)
Definition wide (w h : Z) (s : screen) : Prop := sc_w s = w /\ sc_h s = h /\ dims w h (sc_cells s).
Definition fits (w h : Z) (wr : writer) : Prop :=
  match wr with
  | Laying _ _ w' h' wm am _ _ _ => w' = w /\ h' = h /\ dims w h wm
  | Storing _ todo => Forall (fun j : wjob => on_screen w h (fst (fst j))) todo
  | Noting _ q _ todo => on_screen w h q /\ Forall (fun j : wjob => on_screen w h (fst (fst j))) todo
  | Failed => False
  | _ => True
  end.
(** a step changes nothing, or one cell, or what is to be drawn at one position *)
Inductive change := Nothing | Cell (q : pos) (c : cell) | Text (q : pos) (t : str).
Definition apply_change (d : change) (s : screen) : screen :=
  match d with
  | Nothing => s
  | Cell q c => with_cells s (mset (sc_cells s) (fst q) (snd q) c)
  | Text q t => with_buf s (buf_set q t (sc_buf s))
  end.
Record stepped (e : env) (w h : Z) (ev : step2) (wr : writer) (d : change) (wr' : writer) : Prop := {
  p_fits : fits w h wr';
  p_on : match d with Nothing => True | Cell q _ | Text q _ => on_screen w h q end;
  p_cell : forall q c, d = Cell q c -> ev = Save q /\ exists tb nl todo, wr' = Noting tb q (cell_entry e c nl) todo;
  p_text : forall q t, d = Text q t -> exists tb todo, wr = Noting tb q t todo;
  p_noting : forall tb q t todo, wr' = Noting tb q t todo -> exists c, d = Cell q c;
  p_noted : forall tb q t todo, wr = Noting tb q t todo -> d = Text q t
}.
Lemma write_stepped : forall e w h ev s wr s' wr', wide w h s -> fits w h wr -> write_step e ev s wr = Some (s', wr') ->
  exists d, s' = apply_change d s /\ stepped e w h ev wr d wr' /\
  (forall t, sc_w t = sc_w s -> sc_h t = sc_h s -> sc_off t = sc_off s ->
     (forall q, ev = Save q -> mget (sc_cells t) (fst q) (snd q) = mget (sc_cells s) (fst q) (snd q)) ->
     write_step e ev t wr = Some (apply_change d t, wr')).
Proof.
  intros e w h ev s wr s' wr' [Sw [Sh D]] F H.
  destruct ev as [p sp tb| |q|q| |w0 h0 fill keep|q| |q| | | | |]; destruct wr as [|sp' tb' w' h' wm am x y chars|tb' todo|tb' q' t' todo| |]; try discriminate H;
    cbn [write_step] in H.
  - destruct (_ && _) eqn:Ec; [|discriminate]. injection H as <- <-. exists Nothing. split; [reflexivity|]. split.
    + split; try discriminate; [|exact I]. cbn. rewrite Sw, Sh. split; [reflexivity|]. split; [reflexivity|apply dims_blank].
    + intros t T1 T2 T3 _. cbn [write_step apply_change]. now rewrite T1, T2, T3, Ec.
  - destruct F as [-> [-> Dm]]. destruct chars as [|ch chars].
    { injection H as <- <-. exists Nothing. split; [reflexivity|]. split; [split; try discriminate; [apply to_store_on|exact I]|]. intros; reflexivity. }
    destruct (_ || _ || _ || _) eqn:Eb.
    { injection H as <- <-. exists Nothing. split; [reflexivity|]. split; [split; try discriminate; [apply to_store_on|exact I]|].
      intros t T1 T2 T3 _. cbn [write_step apply_change]. now rewrite T1, T2, Eb. }
    destruct (str_eqb ch [NL]) eqn:En.
    { injection H as <- <-. exists Nothing. split; [reflexivity|]. split; [split; try discriminate; [cbn; auto|exact I]|].
      intros t T1 T2 T3 _. cbn [write_step apply_change]. now rewrite T1, T2, Eb, En. }
    destruct (if sc_w s <=? x + 1 then (0, y + 1) else (x + 1, y)) as [nx ny] eqn:Ex.
    apply orb_false_iff in Eb as Eb'. destruct Eb' as [Eb' B4]. apply orb_false_iff in Eb'. destruct Eb' as [Eb' B3].
    apply orb_false_iff in Eb'. destruct Eb' as [B1 B2]. apply Z.leb_gt in B1, B3. apply Z.ltb_ge in B2, B4.
    destruct (dims_get_some _ w h wm x y Dm) as [old Eo]; [lia|lia|]. rewrite Eo in H. destruct (over sp' ch old) as [c push] eqn:Eov.
    injection H as <- <-. exists Nothing. split; [reflexivity|]. split; [split; try discriminate; [|exact I]|].
    + cbn. split; [reflexivity|]. split; [reflexivity|now apply dims_mset].
    + intros t T1 T2 T3 _. cbn [write_step apply_change]. now rewrite T1, T2, Eb, En, Ex, Eo, Eov.
  - destruct todo as [|[[q' c] st] todo]; [discriminate|]. destruct (pos_eqb q' q) eqn:Eq; [|discriminate].
    apply pos_eqb_iff in Eq. subst q'. cbn [fits] in F. pose proof (Forall_inv F) as Hq. pose proof (Forall_inv_tail F) as Ht. cbn [fst] in Hq.
    destruct (finish_cell tb' c st) as [[new nl]|ex] eqn:Ef.
    2:{ injection H as <- <-. exists Nothing. split; [reflexivity|]. split; [split; try discriminate; exact I|].
        intros t T1 T2 T3 _. cbn [write_step apply_change]. now rewrite pos_eqb_refl, Ef. }
    destruct Hq as [Hx Hy]. destruct (dims_get_some _ w h (sc_cells s) (fst q) (snd q) D Hx Hy) as [old Eo]. rewrite Eo in H.
    destruct (cell_eqb new old) eqn:Ee; injection H as <- <-.
    + exists Nothing. split; [reflexivity|]. split; [split; try discriminate; [exact Ht|exact I]|].
      intros t T1 T2 T3 T4. cbn [write_step apply_change]. now rewrite pos_eqb_refl, Ef, (T4 q eq_refl), Eo, Ee.
    + exists (Cell q new). split; [reflexivity|]. split.
      * split; try discriminate; [cbn; split; [split|]; auto|split; auto| |].
        -- intros q0 c0 E. injection E as <- <-. split; [reflexivity|]. exists tb', nl, todo. reflexivity.
        -- intros tb0 q0 t0 todo0 E. injection E as _ <- _ _. now exists new.
      * intros t T1 T2 T3 T4. cbn [write_step apply_change]. now rewrite pos_eqb_refl, Ef, (T4 q eq_refl), Eo, Ee.
  - destruct (pos_eqb q' q) eqn:Eq; [|discriminate]. apply pos_eqb_iff in Eq. subst q'. injection H as <- <-. destruct F as [F1 F2].
    exists (Text q t'). split; [reflexivity|]. split.
    + split; try discriminate; [exact F2|exact F1| |].
      * intros q0 t0 E. injection E as <- <-. now exists tb', todo.
      * intros tb0 q0 t0 todo0 E. now injection E as _ <- <- _.
    + intros t T1 T2 T3 _. cbn [write_step apply_change]. now rewrite pos_eqb_refl.
  - destruct todo; [|discriminate]. injection H as <- <-. exists Nothing. split; [reflexivity|]. split; [split; try discriminate; exact I|]. intros; reflexivity.
Qed.

Lemma wide_change : forall w h d s, wide w h s -> wide w h (apply_change d s).
Proof. intros w h [|q c|q t] s [H1 [H2 H3]]; split; auto; split; auto. cbn. now apply dims_mset. Qed.
Lemma keyed_change : forall d s, keyed s -> keyed (apply_change d s).
Proof. intros [|q c|q t] s H; auto. unfold keyed. cbn [apply_change with_buf sc_buf]. now apply buf_set_NoDup. Qed.
Lemma cell_change : forall w h d s q, wide w h s -> on_screen w h q -> (match d with Nothing => True | Cell q _ | Text q _ => on_screen w h q end) ->
  cell_at (apply_change d s) q = match d with Cell q' c => if pos_eqb q' q then Some c else cell_at s q | _ => cell_at s q end.
Proof.
  intros w h [|q' c|q' t] s q [W1 [W2 W3]] [H1 H2] Hd; auto. unfold cell_at. cbn [apply_change with_cells sc_cells].
  replace ((0 <=? fst q) && (0 <=? snd q)) with true by (symmetry; rewrite andb_true_iff, !Z.leb_le; lia). destruct Hd as [D1 D2].
  destruct (pos_eqb q' q) eqn:E.
  - apply pos_eqb_iff in E. subst q'. rewrite mget_mset by lia. rewrite !Z.eqb_refl. cbn [andb].
    destruct (dims_get_some _ w h (sc_cells s) (fst q) (snd q) W3 H1 H2) as [v Ev]. now rewrite Ev.
  - apply mget_other; lia || exact E.
Qed.
Lemma pending_change : forall d s q, pending (apply_change d s) q = match d with Text q' t => if pos_eqb q' q then Some t else pending s q | _ => pending s q end.
Proof. intros [|q' c|q' t] s q; try reflexivity. cbn [apply_change]. apply pending_set. Qed.
Lemma newest_change : forall d s q sent, newest_of q (apply_change d s) sent =
  match d with Text q' t => if pos_eqb q' q then Some t else newest_of q s sent | _ => newest_of q s sent end.
Proof.
  intros d s q sent. unfold newest_of. rewrite pending_change. destruct d as [|q' c|q' t]; auto. now destruct (pos_eqb q' q).
Qed.
Lemma newest_show : forall q s sent, keyed s -> newest_of q (with_buf s []) (sent ++ [gather (sc_buf s)]) = newest_of q s sent.
Proof.
  intros q s sent K. unfold newest_of, pending. cbn [with_buf sc_buf buf_get]. rewrite last_sent_app. cbn [last_sent].
  rewrite gather_get by exact K. destruct (buf_get q (sc_buf s)); reflexivity.
Qed.

(** * No thread fails *)
Record hale (w h : Z) (k : crew) : Prop := {
  h_wide : wide w h (r_screen k);
  h_keyed : keyed (r_screen k);
  h_fits : Forall (fits w h) (r_writers k)
}.
Lemma crew_stepped : forall e w h i ev k k', hale w h k -> crew_step e (By i ev) k = Some k' ->
  exists wr wr' d, nth_error (r_writers k) i = Some wr /\ stepped e w h ev wr d wr' /\
    write_step e ev (r_screen k) wr = Some (r_screen k', wr') /\
    k' = mkCrew (apply_change d (r_screen k)) (set_nth i wr' (r_writers k)) (r_sent k).
Proof.
  intros e w h i ev [s ws sent] k' [W K F] H. cbn [r_screen r_writers r_sent crew_step] in *.
  destruct (nth_error ws i) as [wr|] eqn:En; [|discriminate]. destruct (write_step e ev s wr) as [[s' wr']|] eqn:Es; [|discriminate].
  injection H as <-. assert (Fw : fits w h wr) by (rewrite Forall_forall in F; apply F; eapply nth_error_In; eauto).
  destruct (write_stepped e w h ev s wr s' wr' W Fw Es) as [d [-> [P _]]]. exists wr, wr', d. split; auto.
Qed.
Lemma Forall_set : forall A (P : A -> Prop) n v l, P v -> Forall P l -> Forall P (set_nth n v l).
Proof. intros A P n v l Hv. revert n. induction l as [|a l IH]; intros [|n] H; cbn; auto; inversion H; subst; constructor; auto. Qed.
Lemma hale_step : forall e w h ev k k', hale w h k -> crew_step e ev k = Some k' -> hale w h k'.
Proof.
  intros e w h [i ev|] k k' Hk H.
  - destruct (crew_stepped e w h i ev k k' Hk H) as [wr [wr' [d [En [P [_ ->]]]]]]. destruct Hk as [W K F]. split; cbn.
    + now apply wide_change.
    + now apply keyed_change.
    + apply Forall_set; auto. exact (p_fits _ _ _ _ _ _ _ P).
  - destruct k as [s ws sent]. injection H as <-. destruct Hk as [W K F]. cbn in *. split; cbn; auto. constructor.
Qed.
Lemma hale_run : forall e w h tr k k', hale w h k -> crew_run e tr k = Some k' -> hale w h k'.
Proof.
  intros e w h tr. induction tr as [|ev tr IH]; intros k k' Hk H; cbn [crew_run] in H; [now injection H as <-|].
  destruct (crew_step e ev k) as [k1|] eqn:E; [|discriminate]. eapply IH; [|exact H]. eapply hale_step; eauto.
Qed.
Lemma hale_start : forall s n sent, shaped s -> keyed s -> hale (sc_w s) (sc_h s) (rested s n sent).
Proof.
  intros s n sent H K. split; cbn; auto. { split; auto. split; auto. now apply shaped_dims. }
  apply Forall_forall. intros wr Hw. apply repeat_spec in Hw. subst wr. exact I.
Qed.
Lemma crew_never_fails : forall e s n sent tr k, shaped s -> keyed s -> crew_run e tr (rested s n sent) = Some k ->
  ~ In Failed (r_writers k) /\ shaped (r_screen k) /\ sc_w (r_screen k) = sc_w s /\ sc_h (r_screen k) = sc_h s.
Proof.
  intros e s n sent tr k Hs Hk Hr. pose proof (hale_run e _ _ tr _ _ (hale_start s n sent Hs Hk) Hr) as [[W1 [W2 W3]] K F].
  split. { intro H. rewrite Forall_forall in F. exact (F _ H). } split; [|auto]. apply shaped_dims. now rewrite W1, W2.
Qed.

(** * The cell and what is shown there *)
Record tidy_at (e : env) (q : pos) (busy : option nat) (k : crew) : Prop := {
  y_noting : forall i tb t todo, nth_error (r_writers k) i = Some (Noting tb q t todo) ->
    busy = Some i /\ forall c, cell_at (r_screen k) q = Some c -> goes_with e c (Some t);
  y_free : (forall i wr, nth_error (r_writers k) i = Some wr -> noting q wr = false) -> told e q (r_screen k) (r_sent k)
}.
Definition others (busy : option nat) (i : nat) : option nat :=
  match busy with Some j => if Nat.eqb i j then None else Some j | None => None end.
Definition next_of (q : pos) (busy : option nat) (ev : crew_event) : option nat :=
  match ev with
  | Show => busy
  | By i (Save q') => if pos_eqb q' q then Some i else others busy i
  | By i _ => others busy i
  end.
Lemma untangled_step : forall q busy ev r, untangled q busy (ev :: r) = true ->
  untangled q (next_of q busy ev) r = true /\ (forall i, ev = By i (Save q) -> others busy i = None).
Proof.
  intros q busy [i ev|] r H; [|split; [exact H|discriminate]].
  destruct ev as [p sp tb| |q'|q'| |w' h' fill keep|q'| |q'| | | | |]; cbn [untangled next_of] in *; fold (others busy i) in H;
    try (split; [exact H|discriminate]).
  destruct (pos_eqb q' q) eqn:E.
  - destruct (others busy i) eqn:Eo; [discriminate|]. split; [exact H|]. intros j Ej. injection Ej as <- _. exact Eo.
  - split; [exact H|]. intros j Ej. injection Ej as _ ->. now rewrite pos_eqb_refl in E.
Qed.
Lemma nth_set_at : forall A (l : list A) n v x, nth_error l n = Some x -> nth_error (set_nth n v l) n = Some v.
Proof. intros A l n v x H. rewrite nth_set, Nat.eqb_refl, H. reflexivity. Qed.
Lemma nth_set_off : forall A (l : list A) n m v, m <> n -> nth_error (set_nth n v l) m = nth_error l m.
Proof. intros A l n m v H. rewrite nth_set. apply Nat.eqb_neq in H. now rewrite H. Qed.
Lemma others_same : forall busy i, busy = Some i -> others busy i = None.
Proof. intros busy i ->. cbn. now rewrite Nat.eqb_refl. Qed.
Lemma others_off : forall busy i j, busy = Some j -> i <> j -> others busy i = Some j.
Proof. intros busy i j -> H. cbn. apply Nat.eqb_neq in H. now rewrite H. Qed.

Lemma tidy_step : forall e w h q busy ev k k', on_screen w h q -> hale w h k -> tidy_at e q busy k -> crew_step e ev k = Some k' ->
  (forall i, ev = By i (Save q) -> others busy i = None) -> tidy_at e q (next_of q busy ev) k'.
Proof.
  intros e w h q busy [i ev|] k k' Hq Hk [Yn Yf] H Ho.
  2:{ destruct k as [s ws sent]. injection H as <-. split; cbn [r_screen r_writers r_sent next_of] in *; [exact Yn|].
      intro N. specialize (Yf N). unfold told in *. rewrite newest_show by exact (h_keyed _ _ _ Hk). exact Yf. }
  destruct (crew_stepped e w h i ev k k' Hk H) as [wr [wr' [d [En [P [_ ->]]]]]]. destruct Hk as [W K F].
  destruct P as [Pf Po Pc Pt Pn Pd]. cbn [r_screen r_writers r_sent].
  assert (Ecell : cell_at (apply_change d (r_screen k)) q = match d with Cell q' c => if pos_eqb q' q then Some c else cell_at (r_screen k) q | _ => cell_at (r_screen k) q end)
    by (eapply cell_change; eauto).
  split; cbn [r_screen r_writers r_sent].
  - intros j tb t todo Ej. destruct (Nat.eq_dec j i) as [->|Nj].
    + rewrite (nth_set_at _ _ _ _ _ En) in Ej. injection Ej as ->. destruct (Pn _ _ _ _ eq_refl) as [c ->].
      destruct (Pc _ _ eq_refl) as [-> [tb2 [nl [todo2 E2]]]]. injection E2 as _ -> _. cbn [next_of]. rewrite pos_eqb_refl. split; [reflexivity|].
      intros c' Ec'. rewrite Ecell, pos_eqb_refl in Ec'. injection Ec' as <-. intros t' Et'. injection Et' as <-. now exists nl.
    + rewrite nth_set_off in Ej by exact Nj. destruct (Yn _ _ _ _ Ej) as [Eb G].
      assert (Nc : forall c, d <> Cell q c).
      { intros c ->. destruct (Pc _ _ eq_refl) as [-> _]. specialize (Ho i eq_refl). rewrite (others_off _ i _ Eb) in Ho by auto. discriminate. }
      assert (Ns : ev <> Save q).
      { intros ->. specialize (Ho i eq_refl). rewrite (others_off _ i _ Eb) in Ho by auto. discriminate. }
      split.
      * destruct ev; cbn [next_of]; try (apply others_off; auto). destruct (pos_eqb q0 q) eqn:E0; [apply pos_eqb_iff in E0; subst q0; now elim Ns|apply others_off; auto].
      * intros c Ec. apply G. rewrite Ecell in Ec. destruct d as [|q' c'|q' t']; auto.
        destruct (pos_eqb q' q) eqn:E'; auto. apply pos_eqb_iff in E'. subst q'. now elim (Nc c').
  - intro N. assert (Noff : forall j wr0, j <> i -> nth_error (r_writers k) j = Some wr0 -> noting q wr0 = false).
    { intros j wr0 Hj E. apply (N j). now rewrite nth_set_off by exact Hj. }
    assert (Ni : noting q wr' = false) by (apply (N i); eapply nth_set_at; eauto).
    intros c t Ec Et. rewrite newest_change in Et. rewrite Ecell in Ec.
    destruct (noting q wr) eqn:Ew.
    + destruct wr as [| | |tb q' t' todo| |]; cbn [noting] in Ew; try discriminate. apply pos_eqb_iff in Ew. subst q'.
      rewrite (Pd _ _ _ _ eq_refl) in Ec, Et. rewrite pos_eqb_refl in Et. injection Et as <-. destruct (Yn _ _ _ _ En) as [_ G]. exact (G c Ec t' eq_refl).
    + assert (T : told e q (r_screen k) (r_sent k)).
      { apply Yf. intros j wr0 E. destruct (Nat.eq_dec j i) as [->|Nj]; [rewrite En in E; injection E as <-; exact Ew|now apply (Noff j)]. }
      destruct d as [|q' c'|q' t'].
      * exact (T c t Ec Et).
      * destruct (pos_eqb q' q) eqn:E'.
        -- apply pos_eqb_iff in E'. subst q'. destruct (Pc _ _ eq_refl) as [_ [tb2 [nl [todo2 ->]]]]. cbn [noting] in Ni. now rewrite pos_eqb_refl in Ni.
        -- exact (T c t Ec Et).
      * destruct (Pt _ _ eq_refl) as [tb2 [todo2 ->]]. cbn [noting] in Ew. rewrite Ew in Et. exact (T c t Ec Et).
Qed.
Lemma tidy_run : forall e w h q tr busy k k', on_screen w h q -> hale w h k -> tidy_at e q busy k -> crew_run e tr k = Some k' ->
  untangled q busy tr = true -> exists busy', tidy_at e q busy' k'.
Proof.
  intros e w h q tr. induction tr as [|ev tr IH]; intros busy k k' Hq Hk Y H U; cbn [crew_run] in H; [injection H as <-; now exists busy|].
  destruct (crew_step e ev k) as [k1|] eqn:E; [|discriminate]. apply untangled_step in U. destruct U as [U1 U2].
  apply (IH (next_of q busy ev) k1 k' Hq); auto; [eapply hale_step; eauto|eapply tidy_step; eauto].
Qed.
Lemma rested_nth : forall n i wr, nth_error (repeat Idle n) i = Some wr -> wr = Idle.
Proof. intros n i wr H. apply nth_error_In in H. now apply repeat_spec in H. Qed.
Lemma stays_truthful : forall e s n sent tr s' m sent' q, shaped s -> keyed s -> crew_run e tr (rested s n sent) = Some (rested s' m sent') ->
  on_screen (sc_w s) (sc_h s) q -> truthful e q s sent -> untangled q None tr = true -> truthful e q s' sent'.
Proof.
  intros e s n sent tr s' m sent' q Hs K Hr Hq T U. apply told_truthful in T. apply told_truthful.
  destruct (tidy_run e _ _ q tr None _ (rested s' m sent') Hq (hale_start s n sent Hs K)) as [busy [Y1 Y2]]; auto.
  { split; cbn [rested r_writers r_screen r_sent]; [|auto]. intros i tb t todo E. apply rested_nth in E. discriminate. }
  apply Y2. intros i wr E. cbn [rested r_writers] in E. apply rested_nth in E. now subst wr.
Qed.
