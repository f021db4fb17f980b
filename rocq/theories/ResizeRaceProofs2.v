(** Proofs about writing while another thread clears the screen: what is to be drawn and what the screen holds. *)
From Coq Require Import ZArith List Bool Lia.
From Verif Require ScreenProofs3 ScreenProofs5.
From Verif Require Import PyBase PyLemmas F64 SpaceModel ColorModel AnsiRe SpanModel ScreenModel ScreenSpec ScreenProofs ScreenProofs2 ScreenProofs6
  RaceModel RaceSpec RaceProofs ResizeRaceModel ResizeRaceSpec ResizeRaceProofs.
Import ListNotations.
Open Scope Z_scope.

Definition goes_with (e : env) (c : cell) (o : option str) : Prop := forall t, o = Some t -> exists nl, t = cell_entry e c nl.
Definition before (q : pos) (rz : resizer) : Prop := match rz with Still => True | Filling _ _ _ _ todo => In q todo /\ NoDup todo | _ => False end.
Definition past (q : pos) (rz : resizer) (c : cell) : Prop :=
  match rz with
  | Filling _ _ fill false todo => ~ In q todo /\ c = (fill, None, None)
  | Resized _ _ cells | Widened _ cells | Heightened cells => mget cells (fst q) (snd q) = Some c
  | _ => False
  end.
Definition clearing (rz : resizer) : Prop := match rz with Filling _ _ _ keep _ => keep = false | Copying _ _ _ _ => False | _ => True end.
Definition noting (q : pos) (wr : writer) : bool := match wr with Noting _ q' _ _ => pos_eqb q' q | _ => false end.
Record tied (e : env) (w h : Z) (q : pos) (filled busy : bool) (k : scene) : Prop := {
  t_sized : sized w h k;
  t_clear : clearing (z_resizer k);
  t_busy : noting q (z_writer k) = true -> busy = true /\ filled = false;
  t_filled : filled = true -> exists c, past q (z_resizer k) c /\ goes_with e c (pending (z_screen k) q);
  t_free : filled = false -> before q (z_resizer k) /\
    forall c, mget (sc_cells (z_screen k)) (fst q) (snd q) = Some c ->
      match z_writer k with
      | Noting _ q' t _ => if pos_eqb q' q then goes_with e c (Some t) else goes_with e c (pending (z_screen k) q)
      | _ => goes_with e c (pending (z_screen k) q)
      end
}.

Lemma fill_entry : forall e fill, fill = cell_entry e (fill, None, None) false.
Proof. intros e fill. unfold cell_entry. cbn. now rewrite app_nil_r. Qed.

Definition next_filled (q : pos) (filled : bool) (ev : step2) : bool :=
  match ev with Fill q' => if pos_eqb q' q then true else filled | Swap => false | _ => filled end.
Definition next_busy (q : pos) (busy : bool) (ev : step2) : bool :=
  match ev with Save q' => pos_eqb q' q | Call _ _ _ | Lay | Enter _ | Return => false | _ => busy end.
Lemma untorn_step : forall q filled busy ev r, untorn q filled busy (ev :: r) = true ->
  untorn q (next_filled q filled ev) (next_busy q busy ev) r = true /\
  (forall q', ev = Fill q' -> q' = q -> busy = false) /\ (forall q', ev = Save q' -> q' = q -> filled = false).
Proof.
  intros q filled busy ev r H. destruct ev as [p sp tb| |q'|q'| |w' h' fill keep|q'| |q'| | | | |]; cbn [untorn next_filled next_busy] in *;
    try (split; [exact H|split; intros; discriminate]).
  - destruct (pos_eqb q' q) eqn:E.
    + apply andb_true_iff in H. destruct H as [H1 H2]. split; [exact H2|]. split; [intros; discriminate|]. intros. destruct filled; auto; discriminate.
    + split; [exact H|]. split; [intros; discriminate|]. intros p Ep Eq. injection Ep as <-. subst q'. now rewrite pos_eqb_refl in E.
  - destruct (pos_eqb q' q) eqn:E.
    + apply andb_true_iff in H. destruct H as [H1 H2]. split; [exact H2|]. split; [|intros; discriminate]. intros. destruct busy; auto; discriminate.
    + split; [exact H|]. split; [|intros; discriminate]. intros p Ep Eq. injection Ep as <-. subst q'. now rewrite pos_eqb_refl in E.
Qed.

Lemma mget_other : forall (cells : list (list cell)) q q' new, 0 <= fst q -> 0 <= snd q -> 0 <= fst q' -> 0 <= snd q' -> pos_eqb q' q = false ->
  mget (mset cells (fst q') (snd q') new) (fst q) (snd q) = mget cells (fst q) (snd q).
Proof.
  intros cells q q' new H1 H2 H3 H4 E. rewrite mget_mset by lia.
  replace ((fst q =? fst q') && (snd q =? snd q')) with false; [reflexivity|]. rewrite <- E. unfold pos_eqb. now rewrite (Z.eqb_sym (fst q)), (Z.eqb_sym (snd q)).
Qed.
Lemma pending_set : forall s q q' t, pending (with_buf s (buf_set q' t (sc_buf s))) q = if pos_eqb q' q then Some t else pending s q.
Proof. intros. unfold pending. cbn [with_buf sc_buf]. now rewrite buf_get_set. Qed.

Lemma tied_step : forall e w h q filled busy ev k k', on_screen w h q -> tied e w h q filled busy k -> clears w h ev ->
  (forall q', ev = Fill q' -> q' = q -> busy = false) -> (forall q', ev = Save q' -> q' = q -> filled = false) ->
  scene_step e ev k = Some k' -> tied e w h q (next_filled q filled ev) (next_busy q busy ev) k'.
Proof.
  intros e w h q filled busy ev k k' Hq [T1 T2 T3 T4 T5] Hc HF HS H.
  assert (T1' : sized w h k').
  { eapply sized_step; [exact T1| |exact H]. destruct ev; cbn in *; auto; tauto. }
  destruct T1 as [S1 S2 S3 S4 S5]. destruct k as [s wr rz sent]. cbn [z_screen z_writer z_resizer] in *.
  destruct ev as [p sp tb| |q'|q'| |w' h' fill keep|q'| |q'| | | | |]; cbn [scene_step] in H; cbn [next_filled next_busy].
  - (* Call *)
    destruct wr; try discriminate H. cbn [write_step] in H. destruct (_ && _); [|discriminate]. injection H as <-.
    split; cbn [z_screen z_writer z_resizer noting] in *; auto. discriminate.
  - (* Lay *)
    destruct wr as [|sp tb w' h' wm am x y chars| | | |]; try discriminate H. cbn [write_step] in H.
    assert (G : exists wr', k' = mkScene s wr' rz sent /\ noting q wr' = false /\ match wr' with Noting _ _ _ _ => False | _ => True end).
    { destruct chars as [|ch chars]; [injection H as <-; eexists; split; [reflexivity|now split]|].
      destruct (_ || _ || _ || _); [injection H as <-; eexists; split; [reflexivity|now split]|].
      destruct (str_eqb ch [NL]); [injection H as <-; eexists; split; [reflexivity|now split]|].
      destruct (if sc_w s <=? x + 1 then (0, y + 1) else (x + 1, y)) as [nx ny].
      destruct (mget wm x y) as [old|]; [|injection H as <-; eexists; split; [reflexivity|now split]].
      destruct (over sp ch old) as [c push]. injection H as <-. eexists; split; [reflexivity|now split]. }
    destruct G as [wr' [-> [G1 G2]]]. split; cbn [z_screen z_writer z_resizer clearing] in *; auto; [rewrite G1; discriminate|].
    intro Ef. destruct (T5 Ef) as [A B]. split; auto. intros c Ec. specialize (B c Ec). destruct wr'; auto. contradiction.
  - (* Save *)
    destruct wr as [| |tb todo| | |]; try discriminate H. cbn [write_step] in H. destruct todo as [|[[p c] st] todo]; [discriminate|].
    destruct (pos_eqb p q') eqn:Ep; [|discriminate]. apply pos_eqb_iff in Ep. subst p.
    pose proof (Forall_inv S4) as Hp. cbn [fst] in Hp.
    destruct (finish_cell tb c st) as [[new nl]|ex].
    2:{ injection H as <-. split; cbn [z_screen z_writer z_resizer noting] in *; auto. discriminate. }
    destruct (mget (sc_cells s) (fst q') (snd q')) as [old|] eqn:Eo.
    2:{ injection H as <-. exfalso. now apply (z_alive _ _ _ T1'). }
    destruct (cell_eqb new old).
    { injection H as <-. split; cbn [z_screen z_writer z_resizer noting] in *; auto. discriminate. }
    injection H as <-. split; cbn [z_screen z_writer z_resizer noting] in *; auto.
    + intro E. split; [exact E|]. apply pos_eqb_iff in E. now apply (HS q').
    + intro Ef. destruct (T5 Ef) as [A B]. split; auto. intros c0 Ec. cbn [with_cells sc_cells] in Ec. destruct Hp, Hq.
      destruct (pos_eqb q' q) eqn:E.
      * apply pos_eqb_iff in E. subst q'. rewrite mget_mset, !Z.eqb_refl, Eo in Ec by lia. cbn in Ec. injection Ec as <-.
        intros t Et. injection Et as <-. now exists nl.
      * rewrite mget_other in Ec by (auto; lia). specialize (B c0 Ec). exact B.
  - (* Enter *)
    destruct wr as [| | |tb p t todo| |]; try discriminate H. cbn [write_step] in H. destruct (pos_eqb p q') eqn:Ep; [|discriminate].
    apply pos_eqb_iff in Ep. subst p. injection H as <-. split; cbn [z_screen z_writer z_resizer noting] in *; auto; [discriminate| |].
    + intro Ef. destruct (T4 Ef) as [c [A B]]. exists c. split; auto. rewrite pending_set. destruct (pos_eqb q' q) eqn:E; [|exact B].
      exfalso. destruct (T3 eq_refl) as [_ F]. congruence.
    + intro Ef. destruct (T5 Ef) as [A B]. split; auto. intros c Ec. specialize (B c Ec). rewrite pending_set. destruct (pos_eqb q' q); exact B.
  - (* Return *)
    destruct wr as [| |tb todo| | |]; try discriminate H. cbn [write_step] in H. destruct todo; [|discriminate]. injection H as <-.
    split; cbn [z_screen z_writer z_resizer noting] in *; auto. discriminate.
  - (* Ask *)
    destruct rz; try discriminate H. injection H as <-. destruct Hc as [-> [-> ->]]. split; cbn [z_screen z_writer z_resizer clearing] in *; auto.
    + intro Ef. destruct (T4 Ef) as [c [[] _]].
    + intro Ef. destruct (T5 Ef) as [A B]. split; auto. split; [now apply places_in|apply positions_NoDup].
  - (* Fill *)
    destruct rz as [|w' h' fill keep todo| | | |]; try discriminate H. cbn [resize_step] in H. destruct todo as [|p todo]; [discriminate|].
    destruct (pos_eqb p q') eqn:Ep; [|discriminate]. apply pos_eqb_iff in Ep. subst p. injection H as <-. cbn [clearing] in T2. subst keep.
    destruct (pos_eqb q' q) eqn:E.
    + apply pos_eqb_iff in E. subst q'. specialize (HF q eq_refl eq_refl). subst busy. split; cbn [z_screen z_writer z_resizer clearing] in *; auto.
      * intro N. destruct (T3 N). discriminate.
      * intros _. exists (fill, None, None). split.
        -- cbn [past]. split; auto. destruct filled.
           ++ destruct (T4 eq_refl) as [c [[A _] _]]. intro Hi. apply A. now right.
           ++ destruct (T5 eq_refl) as [[_ A] _]. inversion A; subst. auto.
        -- rewrite pending_set, pos_eqb_refl. intros t Et. injection Et as <-. exists false. apply fill_entry.
      * discriminate.
    + split; cbn [z_screen z_writer z_resizer clearing] in *; auto.
      * intro Ef. destruct (T4 Ef) as [c [[A1 A2] B]]. exists c. split.
        -- cbn [past]. split; auto. intro Hi. apply A1. now right.
        -- rewrite pending_set, E. exact B.
      * intro Ef. destruct (T5 Ef) as [[A1 A2] B]. split.
        -- cbn [before]. inversion A2; subst. split; auto. destruct A1 as [A1|A1]; auto. subst q'. now rewrite pos_eqb_refl in E.
        -- intros c Ec. specialize (B c Ec). rewrite pending_set, E. destruct wr; auto.
  - (* Filled *)
    destruct rz as [|w' h' fill keep todo| | | |]; try discriminate H. cbn [resize_step] in H. destruct todo as [|p todo]; [|discriminate].
    cbn [clearing] in T2. subst keep. injection H as <-. split; cbn [z_screen z_writer z_resizer clearing] in *; auto.
    + intro Ef. destruct (T4 Ef) as [c [[A1 A2] B]]. exists c. split; auto. cbn [past]. destruct S3 as [-> ->].
      fold (fill_cells w h fill). rewrite fill_cells_blank. destruct Hq. rewrite mget_blank by lia. now rewrite A2.
    + intro Ef. destruct (T5 Ef) as [[[] _] _].
  - destruct rz; try discriminate H. contradiction.
  - destruct rz; try discriminate H. contradiction.
  - (* Width *)
    destruct rz; try discriminate H. injection H as <-. split; cbn [z_screen z_writer z_resizer clearing] in *; auto.
  - (* Height *)
    destruct rz; try discriminate H. injection H as <-. split; cbn [z_screen z_writer z_resizer clearing] in *; auto.
  - (* Swap *)
    destruct rz; try discriminate H. injection H as <-. split; cbn [z_screen z_writer z_resizer clearing] in *; auto.
    + intro N. destruct (T3 N). auto.
    + discriminate.
    + intros _. split; [exact I|]. intros c Ec. cbn [with_cells sc_cells] in Ec. destruct filled.
      * destruct (T4 eq_refl) as [c' [A B]]. cbn [past] in A. assert (c' = c) by congruence. subst c'.
        destruct wr as [| | |tb q' t todo| |]; auto. destruct (pos_eqb q' q) eqn:E; auto. destruct (T3 E) as [_ F]. discriminate.
      * destruct (T5 eq_refl) as [[] _].
  - (* Paint *)
    injection H as <-. split; cbn [z_screen z_writer z_resizer clearing] in *; auto.
    + intro Ef. destruct (T4 Ef) as [c [A B]]. exists c. split; auto. intros t Et. discriminate Et.
    + intro Ef. destruct (T5 Ef) as [A B]. split; auto. intros c Ec. specialize (B c Ec).
      destruct wr; try (intros t' Et; discriminate Et). destruct (pos_eqb q0 q); auto. intros t' Et. discriminate Et.
Qed.
Lemma tied_run : forall e w h q tr filled busy k k', on_screen w h q -> tied e w h q filled busy k -> Forall (clears w h) tr ->
  untorn q filled busy tr = true -> scene_run e tr k = Some k' -> exists filled' busy', tied e w h q filled' busy' k'.
Proof.
  intros e w h q tr. induction tr as [|ev tr IH]; intros filled busy k k' Hq T F U H; cbn [scene_run] in H; [injection H as <-; eauto|].
  destruct (scene_step e ev k) as [k1|] eqn:E; [|discriminate]. destruct (untorn_step _ _ _ _ _ U) as [U1 [U2 U3]].
  eapply IH; [exact Hq| |exact (Forall_inv_tail F)|exact U1|exact H]. eapply tied_step; eauto. exact (Forall_inv F).
Qed.
Lemma entry_drawn : forall e c t, (exists nl, t = cell_entry e c nl) <-> t = drawn e c \/ t = drawn e c ++ [NL].
Proof.
  intros e c t. assert (X : cell_entry e c true = drawn e c ++ [NL]).
  { rewrite <- ScreenProofs5.drawn_entry. destruct c as [[u fg] bg]. unfold cell_entry. now rewrite app_nil_r. }
  split.
  - intros [[|] ->]; [right; exact X|left; apply ScreenProofs5.drawn_entry].
  - intros [->| ->]; [exists false; symmetry; apply ScreenProofs5.drawn_entry|exists true; now symmetry].
Qed.
Definition agreed (e : env) (q : pos) (s : screen) : Prop :=
  forall c t, cell_at s q = Some c -> pending s q = Some t -> exists nl, t = cell_entry e c nl.
Lemma stays_agreed : forall e s sent tr s' sent' q, shaped s -> Forall (clears (sc_w s) (sc_h s)) tr ->
  scene_run e tr (quiet s sent) = Some (quiet s' sent') -> on_screen (sc_w s) (sc_h s) q -> agreed e q s -> untorn q false false tr = true -> agreed e q s'.
Proof.
  intros e s sent tr s' sent' q Hs F H Hq Y U.
  assert (C : forall s0 c, on_screen (sc_w s) (sc_h s) q -> mget (sc_cells s0) (fst q) (snd q) = Some c <-> cell_at s0 q = Some c).
  { intros s0 c [Hx Hy]. unfold cell_at. now rewrite (proj2 (Z.leb_le 0 (fst q))), (proj2 (Z.leb_le 0 (snd q))) by lia. }
  assert (T0 : tied e (sc_w s) (sc_h s) q false false (quiet s sent)).
  { split; cbn [quiet z_screen z_writer z_resizer clearing noting]; auto; try discriminate; [now apply sized_start|].
    intros _. split; [exact I|]. intros c Ec t Et. apply (Y c t); auto. now apply C. }
  destruct (tied_run _ _ _ _ _ _ _ _ _ Hq T0 F U H) as [f [b T]]. intros c t Ec Et. apply C in Ec; auto.
  destruct f.
  - destruct (t_filled _ _ _ _ _ _ _ T eq_refl) as [c' [[] _]].
  - destruct (t_free _ _ _ _ _ _ _ T eq_refl) as [_ B]. exact (B c Ec t Et).
Qed.

(** * A cell stored in the matrix that is about to be replaced *)
Lemma newest_paint : forall q s wr rz sent, keyed s ->
  newest_for q (mkScene (with_buf s []) wr rz (sent ++ [gather (sc_buf s)])) = newest_for q (mkScene s wr rz sent).
Proof.
  intros q s wr rz sent K. unfold newest_for, pending. cbn [z_screen z_sent with_buf sc_buf buf_get]. rewrite last_sent_app. cbn [last_sent].
  rewrite gather_get by exact K. destruct (buf_get q (sc_buf s)); reflexivity.
Qed.
Record ghost (w h : Z) (q : pos) (t : str) (k : scene) : Prop := {
  g_sized : sized w h k;
  g_keyed : keyed (z_screen k);
  g_newest : newest_for q k = Some t;
  g_noting : noting q (z_writer k) = false
}.
Lemma keyed_step : forall e ev k k', keyed (z_screen k) -> scene_step e ev k = Some k' -> keyed (z_screen k').
Proof.
  intros e ev [s wr rz sent] k' K H. cbn [z_screen] in K. destruct ev as [p sp tb| |q'|q'| |w' h' fill keep|q'| |q'| | | | |]; cbn [scene_step] in H.
  - destruct wr; try discriminate H. cbn [write_step] in H. destruct (_ && _); [|discriminate]. now injection H as <-.
  - destruct wr as [|sp tb w' h' wm am x y chars| | | |]; try discriminate H. cbn [write_step] in H. destruct chars as [|ch chars]; [now injection H as <-|].
    destruct (_ || _ || _ || _); [now injection H as <-|]. destruct (str_eqb ch [NL]); [now injection H as <-|].
    destruct (if sc_w s <=? x + 1 then (0, y + 1) else (x + 1, y)) as [nx ny]. destruct (mget wm x y); [|now injection H as <-].
    destruct (over sp ch o). now injection H as <-.
  - destruct wr as [| |tb todo| | |]; try discriminate H. cbn [write_step] in H. destruct todo as [|[[p c] st] todo]; [discriminate|].
    destruct (pos_eqb p q'); [|discriminate]. destruct (finish_cell tb c st) as [[new nl]|]; [|now injection H as <-].
    destruct (mget (sc_cells s) (fst q') (snd q')); [|now injection H as <-]. destruct (cell_eqb new c0); now injection H as <-.
  - destruct wr as [| | |tb p t todo| |]; try discriminate H. cbn [write_step] in H. destruct (pos_eqb p q'); [|discriminate]. injection H as <-.
    cbn [z_screen]. unfold keyed. cbn [with_buf sc_buf]. now apply buf_set_NoDup.
  - destruct wr as [| |tb todo| | |]; try discriminate H. cbn [write_step] in H. destruct todo; [|discriminate]. now injection H as <-.
  - destruct rz; try discriminate H. now injection H as <-.
  - destruct rz as [|w' h' fill keep todo| | | |]; try discriminate H. cbn [resize_step] in H. destruct todo as [|p todo]; [discriminate|].
    destruct (pos_eqb p q'); [|discriminate]. injection H as <-. cbn [z_screen]. unfold keyed. cbn [with_buf sc_buf]. now apply buf_set_NoDup.
  - destruct rz as [|w' h' fill keep todo| | | |]; try discriminate H. cbn [resize_step] in H. destruct todo; [|discriminate]. now injection H as <-.
  - destruct rz as [| |w' h' cells todo| | |]; try discriminate H. cbn [resize_step] in H. destruct todo; [discriminate|].
    destruct (pos_eqb p q'); [|discriminate]. destruct (mget (sc_cells s) (fst q') (snd q')); [|discriminate]. now injection H as <-.
  - destruct rz as [| |w' h' cells todo| | |]; try discriminate H. cbn [resize_step] in H. destruct todo; [|discriminate]. now injection H as <-.
  - destruct rz; try discriminate H. now injection H as <-.
  - destruct rz; try discriminate H. now injection H as <-.
  - destruct rz; try discriminate H. now injection H as <-.
  - injection H as <-. constructor.
Qed.
Lemma keyed_run : forall e tr k k', keyed (z_screen k) -> scene_run e tr k = Some k' -> keyed (z_screen k').
Proof.
  intros e tr. induction tr as [|ev tr IH]; intros k k' K H; cbn [scene_run] in H; [now injection H as <-|].
  destruct (scene_step e ev k) as [k1|] eqn:E; [|discriminate]. eapply IH; [|exact H]. eapply keyed_step; eauto.
Qed.

(** steps that neither store nor fill the cell leave what is shown there alone *)
Lemma ghost_step : forall e w h q t ev k k', on_screen w h q -> ghost w h q t k -> same_size w h ev -> scene_step e ev k = Some k' ->
  ev <> Fill q -> (ev = Save q -> z_screen k' = z_screen k /\ noting q (z_writer k') = false) -> ghost w h q t k'.
Proof.
  intros e w h q t ev k k' Hq [G1 G2 G3 G4] Hc H NF NS. pose proof (sized_step _ _ _ _ _ _ G1 Hc H) as G1'. pose proof (keyed_step _ _ _ _ G2 H) as G2'.
  destruct k as [s wr rz sent]. cbn [z_screen z_writer z_resizer] in *.
  assert (D : newest_for q k' = Some t /\ noting q (z_writer k') = false); [|destruct D; split; auto].
  destruct ev as [p sp tb| |q'|q'| |w' h' fill keep|q'| |q'| | | | |]; cbn [scene_step] in H.
  - destruct wr; try discriminate H. cbn [write_step] in H. destruct (_ && _); [|discriminate]. injection H as <-. auto.
  - destruct wr as [|sp tb w' h' wm am x y chars| | | |]; try discriminate H. cbn [write_step] in H. destruct chars as [|ch chars]; [injection H as <-; auto|].
    destruct (_ || _ || _ || _); [injection H as <-; auto|]. destruct (str_eqb ch [NL]); [injection H as <-; auto|].
    destruct (if sc_w s <=? x + 1 then (0, y + 1) else (x + 1, y)) as [nx ny]. destruct (mget wm x y); [|injection H as <-; auto].
    destruct (over sp ch o). injection H as <-. auto.
  - destruct (pos_eqb q' q) eqn:Eq.
    + apply pos_eqb_iff in Eq. subst q'. destruct (NS eq_refl) as [A B]. split; [|exact B].
      assert (Sn : z_sent k' = sent). { destruct (write_step e (Save q) s wr) as [[s' wr']|]; [|discriminate]. now injection H as <-. }
      unfold newest_for in *. rewrite A, Sn. exact G3.
    + destruct wr as [| |tb todo| | |]; try discriminate H. cbn [write_step] in H. destruct todo as [|[[p c] st] todo]; [discriminate|].
      destruct (pos_eqb p q'); [|discriminate]. destruct (finish_cell tb c st) as [[new nl]|]; [|injection H as <-; auto].
      destruct (mget (sc_cells s) (fst q') (snd q')); [|injection H as <-; auto]. destruct (cell_eqb new c0); injection H as <-; auto.
  - destruct wr as [| | |tb p t' todo| |]; try discriminate H. cbn [write_step] in H. destruct (pos_eqb p q') eqn:Ep; [|discriminate]. injection H as <-.
    apply pos_eqb_iff in Ep. subst p. cbn [noting] in G4. split; [|reflexivity]. unfold newest_for in *. cbn [z_screen z_sent] in *. rewrite pending_set, G4. exact G3.
  - destruct wr as [| |tb todo| | |]; try discriminate H. cbn [write_step] in H. destruct todo; [|discriminate]. injection H as <-. auto.
  - destruct rz; try discriminate H. injection H as <-. auto.
  - destruct rz as [|w' h' fill keep todo| | | |]; try discriminate H. cbn [resize_step] in H. destruct todo as [|p todo]; [discriminate|].
    destruct (pos_eqb p q') eqn:Ep; [|discriminate]. injection H as <-. split; auto. unfold newest_for in *. cbn [z_screen z_sent] in *. rewrite pending_set.
    destruct (pos_eqb q' q) eqn:E; [apply pos_eqb_iff in E; subst q'; congruence|exact G3].
  - destruct rz as [|w' h' fill keep todo| | | |]; try discriminate H. cbn [resize_step] in H. destruct todo; [|discriminate]. injection H as <-. auto.
  - destruct rz as [| |w' h' cells todo| | |]; try discriminate H. cbn [resize_step] in H. destruct todo; [discriminate|].
    destruct (pos_eqb p q'); [|discriminate]. destruct (mget (sc_cells s) (fst q') (snd q')); [|discriminate]. injection H as <-. auto.
  - destruct rz as [| |w' h' cells todo| | |]; try discriminate H. cbn [resize_step] in H. destruct todo; [|discriminate]. injection H as <-. auto.
  - destruct rz; try discriminate H. injection H as <-. auto.
  - destruct rz; try discriminate H. injection H as <-. auto.
  - destruct rz; try discriminate H. injection H as <-. auto.
  - injection H as <-. split; auto. rewrite newest_paint by exact G2. exact G3.
Qed.

(** until the clear ends *)
Lemma filled_step : forall e w h q c ev k k', on_screen w h q -> sized w h k -> filled_with q (z_resizer k) c -> not_at q ev -> ev <> Swap ->
  scene_step e ev k = Some k' -> filled_with q (z_resizer k') c /\ ev <> Fill q.
Proof.
  intros e w h q c ev [s wr rz sent] k' Hq [S1 S2 S3 S4 S5] F N NSw H. cbn [z_resizer z_screen z_writer] in *.
  destruct ev as [p sp tb| |q'|q'| |w' h' fill keep|q'| |q'| | | | |]; cbn [scene_step] in H; try contradiction;
    try (match type of H with match ?X with _ => _ end = _ => destruct X as [[s' wr']|] eqn:E; [|discriminate]; injection H as <-; split; [exact F|discriminate] end);
    try (destruct rz; discriminate H).
  1:{ destruct rz as [|w' h' fill keep todo| | | |]; try discriminate H. cbn [resize_step] in H. destruct todo as [|p todo]; [discriminate|].
    destruct (pos_eqb p q') eqn:Ep; [|discriminate]. apply pos_eqb_iff in Ep. subst p. injection H as <-. cbn [z_resizer filled_with] in *.
    destruct keep; [contradiction|]. destruct F as [F1 F2]. split; [split; auto; intro Hi; apply F1; now right|]. intro E. injection E as ->. apply F1. now left. }
  1:{ destruct rz as [|w' h' fill keep todo| | | |]; try discriminate H. cbn [resize_step] in H. destruct todo as [|p todo]; [|discriminate].
    cbn [filled_with] in F. destruct keep; [contradiction|]. injection H as <-. split; [|discriminate]. cbn [z_resizer filled_with].
    destruct F as [_ [[F1 F2] ->]]. fold (fill_cells w' h' fill). rewrite fill_cells_blank. now rewrite mget_blank by lia. }
  all: destruct rz; cbn [resize_step filled_with] in H, F; try discriminate H; try contradiction; try (now elim NSw); (injection H as <-; split; [exact F|discriminate]).
Qed.
Lemma not_at_size : forall w h q ev, not_at q ev -> same_size w h ev.
Proof. intros w h q ev H. destruct ev; cbn in *; auto. contradiction. Qed.
Lemma filled_run : forall e w h q t c a k k', on_screen w h q -> ghost w h q t k -> filled_with q (z_resizer k) c -> Forall (not_at q) a -> ~ In Swap a ->
  scene_run e a k = Some k' -> ghost w h q t k' /\ filled_with q (z_resizer k') c.
Proof.
  intros e w h q t c a. induction a as [|ev a IH]; intros k k' Hq G F N NS H; cbn [scene_run] in H; [injection H as <-; auto|].
  destruct (scene_step e ev k) as [k1|] eqn:E; [|discriminate]. pose proof (Forall_inv N) as N1.
  destruct (filled_step e w h q c ev k k1 Hq (g_sized _ _ _ _ _ G) F N1) as [F1 F2]; auto. { intro X. apply NS. now left. }
  apply (IH k1); auto; [|exact (Forall_inv_tail N)|intro X; apply NS; now right].
  apply (ghost_step e w h q t ev k k1); auto; [now apply (not_at_size w h q)|]. intro X. subst ev. now elim N1.
Qed.
(** after it *)
Lemma again_run : forall e w h q t c b k k', on_screen w h q -> ghost w h q t k -> z_resizer k = Still ->
  mget (sc_cells (z_screen k)) (fst q) (snd q) = Some c -> Forall (not_at q) b -> scene_run e b k = Some k' ->
  ghost w h q t k' /\ mget (sc_cells (z_screen k')) (fst q) (snd q) = Some c.
Proof.
  intros e w h q t c b. induction b as [|ev b IH]; intros k k' Hq G Z C A H; cbn [scene_run] in H; [injection H as <-; auto|].
  destruct (scene_step e ev k) as [k1|] eqn:E; [|discriminate]. pose proof (Forall_inv A) as A1. pose proof (Forall_inv_tail A) as A2. cbv beta in A1.
  assert (D : z_resizer k1 = Still /\ mget (sc_cells (z_screen k1)) (fst q) (snd q) = Some c /\ ev <> Fill q /\ same_size w h ev /\
              (ev = Save q -> z_screen k1 = z_screen k /\ noting q (z_writer k1) = false)).
  { pose proof (z_matrix _ _ _ (g_sized _ _ _ _ _ G)) as S4.
    destruct k as [s wr rz sent]. cbn [z_resizer z_screen z_writer] in *. subst rz.
    destruct ev as [p sp tb| |q'|q'| |w' h' fill keep|q'| |q'| | | | |]; cbn [scene_step] in E; try contradiction; try discriminate E.
    - destruct wr; try discriminate E. cbn [write_step] in E. destruct (_ && _); [|discriminate]. injection E as <-. repeat split; auto; discriminate.
    - destruct wr as [|sp tb w' h' wm am x y chars| | | |]; try discriminate E. cbn [write_step] in E.
      assert (X : exists wr', k1 = mkScene s wr' Still sent).
      { destruct chars as [|ch chars]; [injection E as <-; eauto|]. destruct (_ || _ || _ || _); [injection E as <-; eauto|].
        destruct (str_eqb ch [NL]); [injection E as <-; eauto|]. destruct (if sc_w s <=? x + 1 then (0, y + 1) else (x + 1, y)) as [nx ny].
        destruct (mget wm x y); [|injection E as <-; eauto]. destruct (over sp ch o). injection E as <-. eauto. }
      destruct X as [wr' ->]. repeat split; auto; discriminate.
    - destruct wr as [| |tb todo| | |]; try discriminate E. cbn [write_step] in E. destruct todo as [|[[p c1] st] todo]; [discriminate|].
      destruct (pos_eqb p q') eqn:Ep; [|discriminate]. apply pos_eqb_iff in Ep. subst p. cbn [not_at] in A1.
      pose proof (Forall_inv S4) as Hp. cbn [fst] in Hp. destruct Hp as [Hp1 Hp2], Hq as [Hq1 Hq2].
      destruct (finish_cell tb c1 st) as [[new nl]|]; [|injection E as <-; repeat split; auto; discriminate].
      destruct (mget (sc_cells s) (fst q') (snd q')) as [old|] eqn:Eo; [|injection E as <-; repeat split; auto; discriminate].
      destruct (pos_eqb q' q) eqn:Eq.
      + apply pos_eqb_iff in Eq. contradiction.
      + destruct (cell_eqb new old); injection E as <-; cbn [z_resizer z_screen with_cells sc_cells].
        * repeat split; auto; discriminate.
        * rewrite mget_other by (auto; lia). split; [reflexivity|]. split; [exact C|]. split; [discriminate|]. split; [exact I|]. intro X. injection X as ->. now rewrite pos_eqb_refl in Eq.
    - destruct wr as [| | |tb p t' todo| |]; try discriminate E. cbn [write_step] in E. destruct (pos_eqb p q'); [|discriminate]. injection E as <-.
      repeat split; auto; discriminate.
    - destruct wr as [| |tb todo| | |]; try discriminate E. cbn [write_step] in E. destruct todo; [|discriminate]. injection E as <-. repeat split; auto; discriminate.
    - injection E as <-. repeat split; auto; discriminate. }
  destruct D as [D1 [D2 [D3 [D4 D5]]]]. apply (IH k1); auto. apply (ghost_step e w h q t ev k k1); auto.
Qed.

Lemma clears_size : forall w h ev, clears w h ev -> same_size w h ev.
Proof. intros w h ev H. destruct ev; cbn in *; tauto. Qed.
Lemma ghost_text : forall e s tr k tb q t todo c a k1 b k', shaped s -> keyed s -> Forall (clears (sc_w s) (sc_h s)) tr ->
  scene_run e tr (quiet s []) = Some k -> on_screen (sc_w s) (sc_h s) q ->
  filled_with q (z_resizer k) c -> z_writer k = Noting tb q t todo ->
  Forall (not_at q) a -> ~ In Swap a -> scene_run e (Enter q :: a ++ [Swap]) k = Some k1 ->
  Forall (not_at q) b -> scene_run e b k1 = Some k' ->
  cell_at (z_screen k') q = Some c /\ newest_for q k' = Some t.
Proof.
  intros e s tr k tb q t todo c a k1 b k' Hs K F H Hq Hf Hw Ha Hns H1 Hb H2.
  assert (F' : Forall (same_size (sc_w s) (sc_h s)) tr).
  { eapply Forall_impl; [|exact F]. intros ev. apply clears_size. }
  pose proof (sized_run e _ _ tr _ _ (sized_start s [] Hs) F' H) as Z.
  assert (Kk : keyed (z_screen k)) by (eapply keyed_run; [|exact H]; exact K).
  cbn [scene_run] in H1. destruct (scene_step e (Enter q) k) as [k0|] eqn:E0; [|discriminate].
  assert (G0 : ghost (sc_w s) (sc_h s) q t k0 /\ filled_with q (z_resizer k0) c).
  { split; [split|].
    - eapply sized_step; [exact Z| |exact E0]. exact I.
    - eapply keyed_step; eauto.
    - destruct k as [s0 wr rz sent]. cbn [z_writer] in Hw. subst wr. cbn [scene_step write_step] in E0. rewrite pos_eqb_refl in E0. injection E0 as <-.
      unfold newest_for. cbn [z_screen]. now rewrite pending_set, pos_eqb_refl.
    - destruct k as [s0 wr rz sent]. cbn [z_writer] in Hw. subst wr. cbn [scene_step write_step] in E0. rewrite pos_eqb_refl in E0. now injection E0 as <-.
    - destruct k as [s0 wr rz sent]. cbn [z_writer] in Hw. subst wr. cbn [scene_step write_step] in E0. rewrite pos_eqb_refl in E0. now injection E0 as <-. }
  destruct G0 as [G0 F0]. rewrite scene_app in H1. destruct (scene_run e a k0) as [k2|] eqn:E1; [|discriminate].
  destruct (filled_run _ _ _ _ _ _ _ _ _ Hq G0 F0 Ha Hns E1) as [G2 F2]. cbn [scene_run] in H1.
  destruct (scene_step e Swap k2) as [k3|] eqn:E3; [|discriminate]. injection H1 as <-.
  assert (G3 : ghost (sc_w s) (sc_h s) q t k3).
  { apply (ghost_step e (sc_w s) (sc_h s) q t Swap k2 k3); auto; [exact I|discriminate|discriminate]. }
  assert (D : z_resizer k3 = Still /\ mget (sc_cells (z_screen k3)) (fst q) (snd q) = Some c).
  { destruct k2 as [s2 wr2 rz2 sent2]. cbn [scene_step] in E3. destruct rz2; try discriminate E3. injection E3 as <-. cbn in *. auto. }
  destruct D as [D1 D2]. destruct (again_run _ _ _ _ _ _ _ _ _ Hq G3 D1 D2 Hb H2) as [G4 C4].
  split; [|apply G4]. destruct Hq as [Hx Hy]. unfold cell_at. now rewrite (proj2 (Z.leb_le 0 (fst q))), (proj2 (Z.leb_le 0 (snd q))) by lia.
Qed.
Lemma ghost_stays : forall e s tr k tb q t todo c a b k', shaped s -> keyed s -> Forall (clears (sc_w s) (sc_h s)) tr ->
  scene_run e tr (quiet s []) = Some k -> on_screen (sc_w s) (sc_h s) q ->
  filled_with q (z_resizer k) c -> z_writer k = Noting tb q t todo ->
  Forall (not_at q) (a ++ b) -> ~ In Swap a -> scene_run e (Enter q :: a ++ Swap :: b) k = Some k' ->
  cell_at (z_screen k') q = Some c /\ newest_for q k' = Some t.
Proof.
  intros e s tr k tb q t todo c a b k' Hs K F H Hq Hf Hw Hab Hns H1. apply Forall_app in Hab. destruct Hab as [Ha Hb].
  replace (Enter q :: a ++ Swap :: b) with ((Enter q :: a ++ [Swap]) ++ b) in H1 by (cbn; now rewrite <- app_assoc).
  rewrite scene_app in H1. destruct (scene_run e (Enter q :: a ++ [Swap]) k) as [k1|] eqn:E; [|discriminate].
  eapply ghost_text with (tr := tr) (k := k) (a := a) (k1 := k1) (b := b); eauto.
Qed.

Lemma stays_synced : forall e s sent tr s' sent' q, shaped s -> Forall (clears (sc_w s) (sc_h s)) tr ->
  scene_run e tr (quiet s sent) = Some (quiet s' sent') -> on_screen (sc_w s) (sc_h s) q -> synced e q s -> untorn q false false tr = true -> synced e q s'.
Proof.
  intros e s sent tr s' sent' q Hs Hc Hr Hq T U c t E F. apply entry_drawn. revert c t E F.
  apply (stays_agreed e s sent tr s' sent' q Hs Hc Hr Hq); [|exact U]. intros c t E F. apply entry_drawn. now apply T.
Qed.

(** made smaller after the layout, for usable colors *)
Lemma shrinking : forall e s q sp tb ch w h fill keep sent, shaped s -> sc_off s = 0 -> on_screen (sc_w s) (sc_h s) q -> ~ on_screen w h q ->
  get_characters e sp true true = [ch] -> ch <> [NL] -> fine tb -> fine_span sp ->
  exists a b k, Forall by_writer a /\ Forall by_resizer b /\ scene_run e b (quiet s sent) = Some (quiet (resize s (w, h) fill keep) sent) /\
  scene_run e (a ++ b ++ [Save q]) (quiet s sent) = Some k /\ z_writer k = Failed.
Proof.
  intros e s q sp tb ch w h fill keep sent Hs Ho Hq Hn Hch Hnl Ht Hsp. apply shrinking_fails with (ch := ch) (tb := tb) (sp := sp); auto.
  destruct (ScreenProofs3.finish_cell_ok tb ch (s_fg sp) (s_bg sp) false []) as [f [b [E _]]]; auto.
  - intros c E. apply Hsp. now left.
  - intros c E. apply Hsp. now right.
  - eauto.
Qed.
