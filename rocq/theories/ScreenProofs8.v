(** The screen properties: the characters of a line, resizing and clearing, histories of writes. *)
From Coq Require Import ZArith Reals List Bool Lia.
From Verif Require Import PyBase PyLemmas F64 SpaceModel ColorModel ColorSpec
  AnsiRe SpanModel SpanSpec Vt SpanProofs SpanProofs2 ScreenModel ScreenSpec ScreenProofs ScreenProofs4 ScreenProofs6.
Import ListNotations.
Open Scope Z_scope.

(** * The characters of a line *)
Lemma params_calm : forall b, forallb param_char b = true -> calm b.
Proof.
  intros b H. rewrite forallb_forall in H. unfold calm.
  repeat split; intro Hin; apply H in Hin; discriminate.
Qed.
Lemma strip_lead : forall s t, strip_ansi (span_colorless s ++ t) = strip_ansi t.
Proof.
  intros s t. unfold span_colorless, csi_or_empty. pose proof (params_calm _ (colorless_params (s_flags s))) as H.
  destruct (colorless_body (s_flags s)) as [|a b]; [reflexivity|]. apply strip_csi. exact H.
Qed.
Lemma strip_tail : strip_ansi RESET = [].
Proof. vm_compute. reflexivity. Qed.
Lemma strip_entry : forall s n k c, c <> ESC -> strip_ansi (entry (span_colorless s) (s_reset s) true n k c) = [c].
Proof.
  intros s n k c Hc. unfold entry. cbn [orb]. destruct (k =? n - 1)%nat.
  - destruct (_ && _); [rewrite strip_lead|]; cbn [app]; rewrite strip_char by exact Hc; [now rewrite strip_tail|reflexivity].
  - rewrite strip_lead. now rewrite strip_char.
Qed.
Lemma nth_error_ext_eq : forall A (l l' : list A), (forall k, nth_error l k = nth_error l' k) -> l = l'.
Proof.
  intros A l. induction l as [|a l IH]; intros [|b l'] H; auto.
  - specialize (H O). discriminate.
  - specialize (H O). discriminate.
  - pose proof (H O) as H0. cbn in H0. injection H0 as ->. f_equal. apply IH. intro k. exact (H (S k)).
Qed.
Lemma characters_strip : forall e s, no_esc (s_text s) -> map strip_ansi (get_characters e s true true) = map (fun c => [c]) (s_text s).
Proof.
  intros e s H. destruct (characters_spec e s true true) as [HL HN]. apply nth_error_ext_eq. intro k.
  rewrite !nth_error_map. destruct (nth_error (s_text s) k) as [c|] eqn:E.
  - rewrite (HN k c E). cbn [option_map layer_sequences]. f_equal. apply strip_entry. intros ->. apply H. eapply nth_error_In; eauto.
  - assert (nth_error (get_characters e s true true) k = None) as ->; auto.
    apply nth_error_None. apply nth_error_None in E. rewrite HL. exact E.
Qed.
Lemma pieces_characters : forall e line, Forall (fun s => no_esc (s_text s)) line ->
  map (fun i => (strip_ansi (fst i), snd i)) (pieces e line) = flat_map (fun s => map (fun c => ([c], s)) (s_text s)) line.
Proof.
  intros e line H. unfold pieces. induction H as [|s line Hs Hl IH]; auto.
  cbn [flat_map]. rewrite map_app. f_equal; [|exact IH].
  rewrite map_map. cbn [fst snd]. pose proof (characters_strip e s Hs) as E.
  transitivity (map (fun t : str => (t, s)) (map strip_ansi (get_characters e s true true))); [now rewrite map_map|].
  rewrite E, map_map. reflexivity.
Qed.

(** * Resizing and clearing *)
Lemma cell_at_outside : forall s q, shaped s -> ~ on_screen (sc_w s) (sc_h s) q -> cell_at s q = None.
Proof.
  intros s [x y] [H1 H2] Hq. unfold cell_at, on_screen in *. cbn [fst snd] in *.
  destruct ((0 <=? x) && (0 <=? y)) eqn:E; auto. apply andb_true_iff in E. rewrite !Z.leb_le in E. destruct E as [Ex Ey].
  unfold mget. destruct (nth_error (sc_cells s) (Z.to_nat y)) as [row|] eqn:Er; auto.
  assert (L : (Z.to_nat y < List.length (sc_cells s))%nat) by (apply nth_error_Some; congruence).
  rewrite Forall_forall in H2. specialize (H2 row (nth_error_In _ _ Er)). apply nth_error_None.
  unfold zlen in *. lia.
Qed.
Lemma resize_keeps : forall s w h fill, let s' := resize s (w, h) fill true in
  sc_w s' = w /\ sc_h s' = h /\ shaped s' /\
  (forall q, on_screen w h q -> on_screen (sc_w s) (sc_h s) q -> shaped s -> exists c, cell_at s q = Some c /\ cell_at s' q = Some c) /\
  (forall q, on_screen w h q -> cell_at s q = None -> cell_at s' q = Some (fill, None, None)) /\
  (forall q, ~ on_screen w h q -> cell_at s' q = None).
Proof.
  intros s w h fill. cbv zeta. pose proof (resize_shape s w h fill true) as Hs.
  split; [reflexivity|]. split; [reflexivity|]. split; [exact Hs|]. split; [|split].
  - intros q Hq Hq' Hsh. destruct (cell_at_some s q Hsh Hq') as [c E]. exists c. split; auto.
    rewrite (resize_cell s w h fill true q Hq), E. reflexivity.
  - intros q Hq E. rewrite (resize_cell s w h fill true q Hq), E. reflexivity.
  - intros q Hq. apply cell_at_outside; auto.
Qed.
Lemma clear_all : forall s fill, let s' := clear s fill in
  sc_w s' = sc_w s /\ sc_h s' = sc_h s /\ shaped s' /\ sc_cursor s' = (0, 0) /\
  (forall q, on_screen (sc_w s) (sc_h s) q -> cell_at s' q = Some (fill, None, None) /\ pending s' q = Some fill) /\
  (forall q, ~ on_screen (sc_w s) (sc_h s) q -> pending s' q = pending s q).
Proof.
  intros s fill. cbv zeta. split; [reflexivity|]. split; [reflexivity|].
  split; [exact (resize_shape s (sc_w s) (sc_h s) fill false)|]. split; [reflexivity|]. split.
  - intros q Hq. split; [exact (resize_cell s _ _ fill false q Hq)|].
    etransitivity; [exact (resize_pending s (sc_w s) (sc_h s) fill false q)|]. destruct Hq.
    now rewrite (proj2 (Z.leb_le 0 (fst q))), (proj2 (Z.leb_le 0 (snd q))), (proj2 (Z.ltb_lt (fst q) (sc_w s))), (proj2 (Z.ltb_lt (snd q) (sc_h s))) by lia.
  - intros q Hq. etransitivity; [exact (resize_pending s (sc_w s) (sc_h s) fill false q)|].
    destruct (_ && _) eqn:E; auto. rewrite !andb_true_iff, !Z.leb_le, !Z.ltb_lt in E. exfalso. apply Hq. unfold on_screen. lia.
Qed.

(** * Histories of writes *)
Lemma history_writes_succeed : forall e w h cursor fill ops data tb force,
  let '(s, c) := run e (new_screen w h cursor fill, []) ops in
  0 < sc_h s -> fine tb -> fine_data data -> Forall (fun entry => Forall (fun sp => s_text sp <> []) (snd entry)) data ->
  exists n, snd (write_bulk e c s data tb force) = Ok n.
Proof.
  intros e w h cursor fill ops data tb force. destruct (new_screen_shape w h cursor fill) as [S K].
  destruct (run_shape e ops _ [] S (Forall_nil _) K) as [H1 [H2 _]].
  match goal with |- match ?r with (_, _) => _ end => assert (G : shaped (fst r) /\ cache_len (snd r)) by (split; assumption); destruct r as [s c] end.
  clear H1 H2. destruct G as [H1 H2]. cbn [fst snd] in *. intros Hh Ht Hf Hn.
  destruct (write_bulk_shape e c s data tb force H1 H2) as [s' [c' [r [-> [_ [_ [_ [_ [_ [_ H]]]]]]]]]]. cbn [snd]. auto.
Qed.
Lemma history_cursor_stays : forall e w h cursor fill ops data tb force,
  let '(s, c) := run e (new_screen w h cursor fill, []) ops in
  sc_cursor (fst (fst (write_bulk e c s data tb force))) = sc_cursor s.
Proof.
  intros e w h cursor fill ops data tb force. destruct (new_screen_shape w h cursor fill) as [S K].
  destruct (run_shape e ops _ [] S (Forall_nil _) K) as [H1 [H2 _]].
  match goal with |- match ?r with (_, _) => _ end => assert (G : shaped (fst r) /\ cache_len (snd r)) by (split; assumption); destruct r as [s c] end.
  clear H1 H2. destruct G as [H1 H2]. cbn [fst snd] in *.
  destruct (write_bulk_shape e c s data tb force H1 H2) as [s' [c' [r [-> [_ [_ [_ [H _]]]]]]]]. exact H.
Qed.
