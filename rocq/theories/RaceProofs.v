(** Proofs about writing while another thread draws. *)
From Coq Require Import ZArith List Bool Lia Permutation.
From Verif Require Import PyBase PyLemmas F64 SpaceModel ColorModel AnsiRe SpanModel ScreenModel ScreenSpec ScreenProofs ScreenProofs2 ScreenProofs6 ScreenProofs7 RaceModel RaceSpec.
Import ListNotations.
Open Scope Z_scope.

Lemma race_app : forall e a b k, race_run e (a ++ b) k = match race_run e a k with Some k' => race_run e b k' | None => None end.
Proof. intros e a b. induction a as [|ev a IH]; intro k; cbn; auto. destruct (race_step e ev k); auto. Qed.

(** * One thread at a time *)
Lemma draw_alone : forall e origin s, 
  exists items, race_run e [Gather; Wipe; Send] (alone s) = Some (mkShared (snd (render s origin false)) None Resting [items]) /\
    draw_text origin items = fst (render s origin false).
Proof.
  intros e [ox oy] s. exists (gather (sc_buf s)). split; reflexivity.
Qed.

Lemma with_same : forall s cells buf, with_buf (with_cells s cells) buf = mkScreen (sc_w s) (sc_h s) cells buf (sc_cursor s) (sc_off s).
Proof. reflexivity. Qed.
Definition full (s : screen) (cells : list (list cell)) (buf : buffer) : screen := mkScreen (sc_w s) (sc_h s) cells buf (sc_cursor s) (sc_off s).

Lemma jobs_steps : forall e tb s l cells buf n cells' buf' n' ex,
  commit_jobs e tb l cells buf n = (cells', buf', n', ex) ->
  exists tr, Forall of_writer tr /\ race_run e tr (alone (full s cells buf)) = Some (alone (full s cells' buf')).
Proof.
  intros e tb s l. induction l as [|[[[x y] [c|]] st] l IH]; intros cells buf n cells' buf' n' ex H; cbn [commit_jobs] in H.
  - injection H as <- <- _ _. exists []. split; auto.
  - destruct (finish_cell tb c st) as [[new nl]|x']; [|injection H as <- <- _ _; exists []; split; auto].
    destruct (mget cells x y) as [old|] eqn:Eg; [|injection H as <- <- _ _; exists []; split; auto].
    destruct (cell_eqb new old) eqn:Ee; [eauto|].
    destruct (IH _ _ _ _ _ _ _ H) as [tr [Hw Hr]].
    exists (Store (x, y) new nl :: Note (x, y) (cell_entry e new nl) :: tr). split.
    + constructor; [exact I|]. constructor; [exact I|exact Hw].
    + cbn [race_run race_step alone full sc_cells fst snd]. rewrite Eg, Ee. cbn [race_step].
      replace (pos_eqb (x, y) (x, y)) with true by (symmetry; apply pos_eqb_refl).
      replace (str_eqb (cell_entry e new nl) (cell_entry e new nl)) with true by (symmetry; apply str_eqb_refl).
      cbn [andb]. exact Hr.
  - eauto.
Qed.

Lemma write_alone : forall e c s data tb force, cache_ok e c -> calm_write s data ->
  let '(s', _, _) := write_bulk e c s data tb force in
  exists tr, Forall of_writer tr /\ race_run e tr (alone s) = Some (alone s').
Proof.
  intros e c s data tb force Hc [Ho Hd]. unfold write_bulk.
  destruct (place_all_calm e (sc_w s) (sc_h s) data (mkW (blank_matrix (sc_w s) (sc_h s) None) (blank_matrix (sc_w s) (sc_h s) []) (sc_cells s) (sc_off s) c) Hc Ho Hd)
    as [c' [-> _]].
  unfold after. cbn [ws_wm ws_am ws_cells ws_off ws_cache]. rewrite commit_jobs_eq.
  match goal with |- context [commit_jobs e tb ?l ?cs ?b ?n] => destruct (commit_jobs e tb l cs b n) as [[[cells' buf'] n'] ex] eqn:E end.
  apply (jobs_steps e tb s) in E. destruct E as [tr [Hw Hr]]. exists tr. split; auto.
  replace (alone s) with (alone (full s (sc_cells s) (sc_buf s))) by (destruct s; reflexivity).
  rewrite Hr. unfold full. reflexivity.
Qed.

(** * Undisturbed draws *)
Lemma gather_get : forall q d, NoDup (map fst d) -> buf_get q (gather d) = buf_get q d.
Proof.
  intros q d H. pose proof (gather_perm d) as P.
  assert (Hg : NoDup (map fst (gather d))).
  { eapply Permutation_NoDup; [|exact H]. apply Permutation_map. now apply Permutation_sym. }
  destruct (buf_get q d) as [t|] eqn:E.
  - apply buf_get_in; auto. apply buf_get_in in E; auto. eapply Permutation_in; [apply Permutation_sym; exact P|exact E].
  - apply buf_get_none. apply buf_get_none in E. intro Hi. apply E. eapply Permutation_in; [apply Permutation_map; exact P|exact Hi].
Qed.
Lemma last_sent_app : forall q a b, last_sent q (a ++ b) = match last_sent q b with Some t => Some t | None => last_sent q a end.
Proof.
  intros q a b. induction a as [|x a IH]; cbn [app last_sent]; [destruct (last_sent q b); reflexivity|].
  rewrite IH. destruct (last_sent q b); reflexivity.
Qed.

Definition flying (k : shared) : buffer := match h_drawer k with Resting => [] | Formatting i => i | Sending i => i end.
Definition newest (q : pos) (k : shared) : option str :=
  match pending (h_screen k) q with
  | Some t => Some t
  | None => match buf_get q (flying k) with Some t => Some t | None => last_sent q (h_sent k) end
  end.
Definition drawing (k : shared) : bool := match h_drawer k with Formatting _ => true | _ => false end.
Definition tidy (k : shared) : Prop :=
  keyed (h_screen k) /\ match h_drawer k with Formatting i => i = gather (sc_buf (h_screen k)) | _ => True end.

Lemma step_newest : forall e ev k k', race_step e ev k = Some k' -> tidy k -> undisturbed (drawing k) [ev] = true ->
  tidy k' /\ (forall r, undisturbed (drawing k) (ev :: r) = true -> undisturbed (drawing k') r = true) /\
  (forall q, newest q k' = match ev with Note q' t => if pos_eqb q' q then Some t else newest q k | _ => newest q k end).
Proof.
  intros e ev [s wr d sent] k' H [K D] U. destruct ev as [q new nl|q t| | |]; cbn [race_step] in H.
  - destruct wr; [discriminate|]. destruct (mget (sc_cells s) (fst q) (snd q)) as [old|]; [|discriminate].
    destruct (cell_eqb new old); injection H as <-; (split; [split; auto|split; auto]).
  - destruct wr as [[q' t']|]; [|discriminate]. destruct (pos_eqb q' q && str_eqb t' t); [|discriminate].
    injection H as <-. cbn [drawing h_drawer] in *. 
    assert (Hd : match d with Formatting _ => False | _ => True end) by (destruct d; auto; discriminate).
    split; [split|split].
    + unfold keyed. cbn. now apply buf_set_NoDup.
    + cbn in *. destruct d; auto. contradiction.
    + intros r Hr. cbn in *. destruct d; auto; discriminate.
    + intro p. unfold newest, pending. cbn [h_screen with_buf sc_buf]. rewrite buf_get_set. destruct (pos_eqb q p); reflexivity.
  - destruct d; try discriminate. injection H as <-. split; [split; [exact K|reflexivity]|split; auto].
    intro q. unfold newest, pending, flying. cbn [h_screen h_drawer h_sent].
    rewrite gather_get by exact K. destruct (buf_get q (sc_buf s)); reflexivity.
  - destruct d as [|items|]; try discriminate. injection H as <-. cbn [h_drawer h_screen] in D.
    split; [split; [constructor|exact I]|split; [auto|]].
    + intro q. unfold newest, pending, flying. cbn [h_screen h_drawer h_sent with_buf sc_buf buf_get].
      rewrite D, gather_get by exact K. destruct (buf_get q (sc_buf s)); reflexivity.
  - destruct d as [| |items]; try discriminate. injection H as <-. split; [split; [exact K|exact I]|split; auto].
    intro q. unfold newest, pending, flying. cbn [h_screen h_drawer h_sent buf_get].
    destruct (buf_get q (sc_buf s)); auto. rewrite last_sent_app. cbn [last_sent]. destruct (buf_get q items); reflexivity.
Qed.

Lemma undisturbed_head : forall b ev r, undisturbed b (ev :: r) = true -> undisturbed b [ev] = true.
Proof. intros b [| | | |] r H; auto. cbn in *. destruct b; auto. Qed.

Lemma run_newest : forall e tr k k', race_run e tr k = Some k' -> tidy k -> undisturbed (drawing k) tr = true ->
  tidy k' /\ forall q, newest q k' = match last_note q tr with Some t => Some t | None => newest q k end.
Proof.
  intros e tr. induction tr as [|ev tr IH]; intros k k' H T U.
  - injection H as <-. auto.
  - cbn [race_run] in H. destruct (race_step e ev k) as [k1|] eqn:E; [|discriminate].
    destruct (step_newest e ev k k1 E T (undisturbed_head _ _ _ U)) as [T1 [U1 N1]].
    destruct (IH k1 k' H T1 (U1 _ U)) as [T2 N2]. split; auto.
    intro q. rewrite N2. cbn [last_note]. destruct (last_note q tr); auto. rewrite N1. destruct ev; auto.
    destruct (pos_eqb q0 q); auto.
Qed.

(** once the changes have been drawn, the last text written for a cell is the last noted one *)
Lemma kept : forall e tr s k, keyed s -> race_run e (tr ++ [Gather; Wipe; Send]) (alone s) = Some k ->
  undisturbed false tr = true -> forall q t, last_note q tr = Some t -> last_sent q (h_sent k) = Some t.
Proof.
  intros e tr s k K H U q t L. rewrite race_app in H. destruct (race_run e tr (alone s)) as [k1|] eqn:E; [|discriminate].
  destruct (run_newest e tr (alone s) k1 E) as [T1 N1]; [split; [exact K|exact I]|exact U|].
  specialize (N1 q). rewrite L in N1. destruct k1 as [s1 wr [| |] sent]; try discriminate.
  injection H as <-. cbn [h_sent]. rewrite last_sent_app. cbn [last_sent]. rewrite gather_get by apply T1.
  unfold newest, pending, flying in N1. cbn [h_screen h_drawer h_sent buf_get] in N1. destruct (buf_get q (sc_buf s1)); auto.
Qed.
(** and at any moment it has been drawn, is being drawn or is pending *)
Lemma accounted : forall e tr s k, keyed s -> race_run e tr (alone s) = Some k -> undisturbed false tr = true ->
  forall q t, last_note q tr = Some t ->
  pending (h_screen k) q = Some t \/
  (exists items, (h_drawer k = Formatting items \/ h_drawer k = Sending items) /\ buf_get q items = Some t) \/
  last_sent q (h_sent k) = Some t.
Proof.
  intros e tr s k K H U q t L. destruct (run_newest e tr (alone s) k H) as [T1 N1]; [split; [exact K|exact I]|exact U|].
  specialize (N1 q). rewrite L in N1. unfold newest in N1. destruct (pending (h_screen k) q); auto.
  destruct (buf_get q (flying k)) as [u|] eqn:Ef; auto. right. left. unfold flying in Ef. destruct (h_drawer k) as [|i|i]; [discriminate| |];
    exists i; split; auto; congruence.
Qed.

(** * A change noted while the changes are cleared *)
Definition forgotten (q : pos) (c : cell) (k : shared) : Prop :=
  pending (h_screen k) q = None /\ mget (sc_cells (h_screen k)) (fst q) (snd q) = Some c /\
  match h_writer k with Some (q', _) => q' <> q | None => True end /\
  0 <= fst q /\ 0 <= snd q.

Lemma step_forgotten : forall e ev k k' q c, race_step e ev k = Some k' -> forgotten q c k -> keyed (h_screen k) -> same_again q c ev -> at_cell ev ->
  forgotten q c k' /\ keyed (h_screen k') /\
  (forall P : buffer -> Prop, (forall b, buf_get q b = None -> P b) -> P (flying k) -> P (flying k') /\ exists extra, h_sent k' = h_sent k ++ extra /\ Forall P extra).
Proof.
  intros e ev [s wr d sent] k' q c H [F1 [F2 [F3 [F4 F5]]]] K A SP. cbn [h_screen h_writer] in *.
  assert (nothing : forall P : buffer -> Prop, exists extra, sent = sent ++ extra /\ Forall P extra).
  { intro P. exists []. rewrite app_nil_r. auto. }
  destruct ev as [p new nl|p t| | |]; cbn [race_step] in H.
  - destruct wr; [discriminate|]. destruct (mget (sc_cells s) (fst p) (snd p)) as [old|] eqn:Eg; [|discriminate].
    destruct (cell_eqb new old) eqn:Ee; injection H as <-.
    + split; [unfold forgotten; auto|]. split; auto.
    + assert (Hpq : p <> q). { intros ->. rewrite F2 in Eg. injection Eg as <-. cbn in A. rewrite A in Ee; auto. discriminate. }
      split; [|split; auto].
      unfold forgotten. cbn [h_screen h_writer with_cells sc_cells]. split; [exact F1|]. split; [|auto].
      destruct SP. rewrite mget_mset by auto.
      destruct ((fst q =? fst p) && (snd q =? snd p)) eqn:Eq; auto. exfalso. apply Hpq.
      rewrite andb_true_iff, !Z.eqb_eq in Eq. destruct p, q. cbn in Eq. destruct Eq. congruence.
  - destruct wr as [[q' t']|]; [|discriminate]. destruct (pos_eqb q' p && str_eqb t' t) eqn:Ep; [|discriminate].
    injection H as <-. apply andb_true_iff in Ep. destruct Ep as [Ep _]. apply pos_eqb_iff in Ep. subst q'.
    split; [|split; auto].
    + unfold forgotten, pending. cbn [h_screen h_writer with_buf sc_cells sc_buf]. rewrite buf_get_set.
      replace (pos_eqb p q) with false; auto. symmetry. destruct (pos_eqb p q) eqn:E; auto. apply pos_eqb_iff in E. contradiction.
    + unfold keyed. cbn. now apply buf_set_NoDup.
  - destruct d; try discriminate. injection H as <-. split; [unfold forgotten; auto|]. split; auto. intros P HP _. split; auto.
    cbn. apply HP. rewrite gather_get by exact K. exact F1.
  - destruct d as [|items|]; try discriminate. injection H as <-. split; [|split; auto].
    + unfold forgotten. cbn. auto.
    + constructor.
  - destruct d as [| |items]; try discriminate. injection H as <-. split; [unfold forgotten; auto|]. split; auto. intros P HP Hf. split.
    + apply HP. reflexivity.
    + exists [items]. split; auto.
Qed.

Lemma run_forgotten : forall e q c (P : buffer -> Prop) tr k k', race_run e tr k = Some k' -> forgotten q c k -> keyed (h_screen k) ->
  Forall (same_again q c) tr -> Forall at_cell tr -> (forall b, buf_get q b = None -> P b) -> P (flying k) ->
  forgotten q c k' /\ exists extra, h_sent k' = h_sent k ++ extra /\ Forall P extra.
Proof.
  intros e q c P tr. induction tr as [|ev tr IH]; intros k k' H F K A S HP Hf.
  - injection H as <-. split; auto. exists []. rewrite app_nil_r. auto.
  - cbn [race_run] in H. destruct (race_step e ev k) as [k1|] eqn:E; [|discriminate].
    destruct (step_forgotten e ev k k1 q c E F K (Forall_inv A) (Forall_inv S)) as [F1 [K1 G]].
    destruct (G P HP Hf) as [Hf1 [x1 [E1 P1]]].
    destruct (IH k1 k' H F1 K1 (Forall_inv_tail A) (Forall_inv_tail S) HP Hf1) as [F2 [x2 [E2 P2]]]. split; auto.
    exists (x1 ++ x2). rewrite E2, E1, app_assoc. split; auto. apply Forall_app. auto.
Qed.

Lemma lost : forall e q t c items tr k k', 
  h_drawer k = Formatting items -> h_writer k = Some (q, t) -> 0 <= fst q -> 0 <= snd q ->
  mget (sc_cells (h_screen k)) (fst q) (snd q) = Some c ->
  race_run e (Note q t :: Wipe :: tr) k = Some k' -> Forall (same_again q c) tr -> Forall at_cell tr ->
  mget (sc_cells (h_screen k')) (fst q) (snd q) = Some c /\ pending (h_screen k') q = None /\
  exists extra, h_sent k' = h_sent k ++ extra /\ forall b, In b extra -> b = items \/ buf_get q b = None.
Proof.
  intros e q t c items tr [s wr d sent] k' Hd Hw Hx Hy Hc H A S. cbn [h_drawer h_writer h_screen] in *. subst d wr.
  cbn [race_run race_step] in H. rewrite pos_eqb_refl, str_eqb_refl in H. cbn [andb] in H.
  destruct (run_forgotten e q c (fun b => b = items \/ buf_get q b = None) tr _ k' H) as [[F1 [F2 _]] [x [E P]]]; auto.
  - unfold forgotten, pending. cbn. auto.
  - constructor.
  - split; auto. split; auto. exists x. split; auto. intros b Hb. rewrite Forall_forall in P. auto.
Qed.
