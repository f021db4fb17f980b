(** What an SVG export shows (C122): the cells of a screen after a history, as stored characters. *)
From Coq Require Import ZArith Reals List Bool Lia String.
From Verif Require Import PyBase PyLemmas F64 SpaceModel ColorModel ColorSpec ColorProofs PaletteSpec PaletteProofs AnsiRe SpanModel Vt SpanSpec
  SpanProofs SpanProofs2 SpanProofs3 GroupProofs GroupSpec GroupProofs2 ScreenModel ScreenSpec ScreenProofs ScreenProofs2 ScreenProofs3 ScreenProofs4 ScreenProofs5 ScreenProofs6
  ScreenProofs7 ScreenProofs8 DrawSpec DrawProofs DrawProofs2 SvgSpec SvgDocSpec ViewSpec.
Import ListNotations.
Open Scope Z_scope.
Open Scope list_scope.

(** * Cells *)
(** the stored character displays as [v] *)
Definition stands (d : scell) (v : Z * rend) : Prop :=
  let '(ch, f, fg, bg, rst) := d in
  ch = fst v /\ is_ctl ch = false /\ layer_ok false fg /\ layer_ok true bg /\
  snd v = styled f (shade_o as_asked fg) (shade_o as_asked bg) rend0 /\ (fg = None -> bg = None -> f = no_flags).
Definition tells (c : cell) (v : Z * rend) : Prop := exists d, stored d c /\ stands d v.

Lemma stored_cell : forall ch f fg bg rst, stored (ch, f, fg, bg, rst) (cell_text ch f rst, fg, bg).
Proof.
  intros. split; [reflexivity|]. split; [reflexivity|]. unfold cell_text. rewrite uncolored_str, attached.
  destruct (flags_dec f no_flags) as [->|N].
  - left. split; [intros []; reflexivity|]. rewrite andb_false_r. reflexivity.
  - right. split; [intro P; apply N; now apply plain_flags_eq|]. eexists. split; [reflexivity|].
    rewrite <- colorless_join. rewrite andb_true_r. pose proof (attached f) as A. destruct (flags_dec f no_flags); [congruence|].
    unfold csi_or_empty, csi_m. destruct (colorless_body f) as [|x b]; [discriminate|]. rewrite <- !app_assoc. reflexivity.
Qed.
Lemma tells_shows : forall c v, tells c v -> shows as_asked c v.
Proof.
  intros [[t fg] bg] [g r] [[[[[ch f] fg'] bg'] rst] [S [H1 [H2 [H4 [H5 [H6 H7]]]]]]]. cbn [fst snd] in *. subst ch.
  destruct (stored_text _ _ _ _ _ _ _ _ S) as [-> [-> ->]]. unfold shows. cbn [fst snd].
  split; [exact H4|]. split; [exact H5|]. split; [exact H2|].
  exists f, (if rst && negb (str_eqb (colorless_body f) []) then RESET else []). split; [unfold cell_text; rewrite uncolored_str; reflexivity|].
  split; [destruct (_ && _); auto|]. split; [exact H6|]. intros A B. rewrite (H7 A B). split; [reflexivity|]. now rewrite andb_false_r.
Qed.
Lemma fill_tells : forall g, is_ctl g = false -> tells ([g], None, None) (g, rend0).
Proof.
  intros g H. exists (g, no_flags, None, None, false). split; [exact (stored_cell g no_flags None None false)|].
  split; [reflexivity|]. split; [exact H|]. split; [discriminate|]. split; [discriminate|].
  split; [cbn [snd shade_o option_map]; now rewrite styled_none|auto].
Qed.

(** * Writing *)
Definition told_piece (i : str * span) (g : Z * span) : Prop :=
  snd i = snd g /\ drawable (snd g) /\ is_ctl (fst g) = false /\ exists rst, fst i = cell_text (fst g) (s_flags (snd g)) rst.
Lemma span_told : forall e s, drawable s ->
  Forall2 told_piece (map (fun ch => (ch, s)) (get_characters e s true true)) (map (fun c => (c, s)) (s_text s)).
Proof.
  intros e s D. destruct (characters_spec e s true true) as [HL HN]. apply Forall2_nth; [now rewrite !map_length|].
  intros k [c s'] E. rewrite nth_error_map in E. destruct (nth_error (s_text s) k) as [c'|] eqn:Ec; [|discriminate].
  cbn in E. injection E as <- <-. eexists. split; [apply map_nth_error, HN, Ec|].
  unfold told_piece. cbn [fst snd]. split; [reflexivity|]. split; [exact D|]. destruct D as [D1 [D2 _]].
  split; [unfold printable in D1; rewrite Forall_forall in D1; apply D1; eapply nth_error_In; eauto|].
  assert (T : forall rst, cell_text c' (s_flags s) rst = lead (s_flags s) ++ [c'] ++ (if rst && negb (str_eqb (colorless_body (s_flags s)) []) then RESET else []))
    by (intro rst; unfold cell_text; rewrite uncolored_str; reflexivity).
  cbn [layer_sequences]. change (span_colorless s) with (lead (s_flags s)). unfold entry. cbn [orb].
  assert (N : str_eqb (lead (s_flags s)) [] = str_eqb (colorless_body (s_flags s)) []).
  { unfold lead, csi_or_empty. now destruct (colorless_body (s_flags s)). }
  destruct (k =? List.length (s_text s) - 1)%nat; [|exists false; rewrite T; reflexivity].
  rewrite N. destruct (s_reset s) eqn:Er; cbn [andb].
  - destruct (str_eqb (colorless_body (s_flags s)) []) eqn:El; cbn [negb].
    + exists false. rewrite T. cbn [andb]. apply str_eqb_eq in El. unfold lead. rewrite El. reflexivity.
    + exists true.
      rewrite T.
      reflexivity.
  - exists false. rewrite T, (no_flags_lead _ (D2 eq_refl)). reflexivity.
Qed.
Lemma data_told : forall e w h data, Forall (fun entry => Forall drawable (snd entry)) data ->
  Forall2 (at_same told_piece) (laid_all e w h data) (flat_map (spots w h) data).
Proof.
  intros e w h data H. unfold laid_all. induction H as [|[[x y] line] data Hl Hd IH]; [constructor|].
  cbn [flat_map]. apply Forall2_app; [|exact IH]. unfold laid, spots. destruct (_ && _); [|constructor].
  apply number_Forall2. unfold pieces, glyphs. cbn [snd] in Hl. clear - Hl. induction Hl as [|s line Hs Hl IH]; [constructor|].
  cbn [flat_map]. apply Forall2_app; [now apply span_told|exact IH].
Qed.
Lemma told_tells : forall i g, told_piece i g -> tells (plain_cell i) (painted as_asked g).
Proof.
  intros [ch s] [c s'] [E [D [Hc [rst Et]]]]. cbn [fst snd] in *. subst s' ch. destruct D as [_ [_ [D3 D4]]].
  unfold plain_cell, painted. cbn [fst snd].
  assert (W : by_value WHITE /\ c_bg WHITE = false).
  { split; [|reflexivity]. split; [unfold color_ok, channel_ok; cbn; lia|]. split; [reflexivity|exact I]. }
  set (fg := match s_fg s with Some f => f | None => WHITE end).
  exists (c, s_flags s, Some fg, s_bg s, rst). split; [apply stored_cell|].
  split; [reflexivity|]. split; [exact Hc|]. split; [|split; [|split; [|discriminate]]].
  - intros k Ek. injection Ek as <-. unfold fg. destruct (s_fg s) as [f|]; [now apply D3|exact W].
  - intros k Ek. now apply D4.
  - cbn [snd shade_o option_map]. unfold fg. destruct (s_fg s), (s_bg s); reflexivity.
Qed.
Section Told.
Variables (e : env) (w h : Z) (origin : pos).
Record told (k : world) (P : picture) : Prop := {
  t_w : sc_w (fst (fst k)) = w;
  t_h : sc_h (fst (fst k)) = h;
  t_shaped : shaped (fst (fst k));
  t_off : sc_off (fst (fst k)) = 0;
  t_cache : cache_ok e (snd (fst k));
  t_cell : forall q, on_screen w h q -> exists c, cell_at (fst (fst k)) q = Some c /\ tells c (P q)
}.
Lemma told_start : forall cursor fill m, is_ctl fill = false -> told (new_screen w h cursor [fill], [], m) (blank fill).
Proof.
  intros cursor fill m Hfill. destruct (new_screen_shape w h cursor [fill]) as [S K].
  split; cbn [fst snd]; auto; [constructor|].
  intros q Hq. exists ([fill], None, None). split; [|now apply fill_tells].
  unfold new_screen. rewrite resize_cell by exact Hq. unfold cell_at. cbn [sc_cells].
  replace (mget [] (fst q) (snd q)) with (@None cell); [now destruct (_ && _)|].
  unfold mget. now destruct (Z.to_nat (snd q)).
Qed.
Lemma told_act : forall a k P, told k P -> act_ok w h a -> told (perform e origin k a) (paint_act as_asked w h P a).
Proof.
  intros a [[s c] m] P [I1 I2 I3 I4 I6 I9] Ha. cbn [fst snd] in *. destruct a as [data tb force|fill|].
  - destruct Ha as [Hd [Ht Hs]].
    assert (Hfine : fine_data data).
    { unfold fine_data. revert Hs. apply Forall_impl. intros en. apply Forall_impl. apply drawable_fine. }
    assert (Hop : opaque_data data).
    { unfold opaque_data. revert Hs. apply Forall_impl. intros en. apply Forall_impl. apply drawable_opaque. }
    assert (Hcalm : calm_write s data) by (split; [exact I4|rewrite I1, I2; exact Hd]).
    destruct (write_bulk_effect e c s data tb force I6 I3 Hcalm Ht Hfine) as [s' [c' [n [E [Hc' WE]]]]].
    cbn [perform]. rewrite E. destruct (we_size _ _ _ _ _ _ WE) as [S1 [S2 [S3 S4]]].
    split; cbn [fst snd]; auto; try congruence; [apply WE|].
    intros q Hq. destruct (I9 q Hq) as [old [Eold Sold]].
    assert (Hq' : on_screen (sc_w s) (sc_h s) q) by (rewrite I1, I2; exact Hq).
    pose proof (we_cell _ _ _ _ _ _ WE q old Hq' Eold) as G. rewrite I1, I2 in G.
    rewrite outcome_opaque in G by auto. cbn [paint_act].
    pose proof (Forall2_rev _ _ _ _ _ (covering_Forall2 _ q _ _ (data_told e w h data Hs))) as CV.
    inversion CV as [E1 E2|i g l l' Hig Hl E1 E2]; rewrite <- E1 in G.
    + cbn [okf] in G. exists old. tauto.
    + pose proof (told_tells i g Hig) as T.
      cbn [okf] in G. destruct G as [G1 G2]. destruct (cell_eqb (plain_cell i) old) eqn:Eq.
      * apply same_cell_iff in Eq. pose proof (shows_det as_asked _ _ _ _ Eq (tells_shows _ _ T) (tells_shows _ _ Sold)) as Ev.
        exists old. rewrite Ev. destruct (G1 Eq). auto.
      * assert (N : ~ same_cell (plain_cell i) old) by (intro Hsame; apply same_cell_iff in Hsame; congruence).
        destruct (G2 N) as [A B]. eauto.
  - destruct (clear_all s [fill]) as [C1 [C2 [C3 [C4 [C5 C6]]]]]. rewrite I1, I2 in *.
    cbn [perform paint_act]. split; cbn [fst snd]; auto.
    intros q Hq. destruct (C5 q Hq) as [A B]. eexists. split; [exact A|]. now apply fill_tells.
  - cbn [perform paint_act]. unfold render. destruct origin as [ox oy]. split; cbn [fst snd sc_w sc_h sc_off]; auto.
Qed.
Lemma told_run : forall acts k P, told k P -> Forall (act_ok w h) acts ->
  told (fold_left (perform e origin) acts k) (fold_left (paint_act as_asked w h) acts P).
Proof.
  intro acts. induction acts as [|a acts IH]; intros k P I Ha; [exact I|]. inversion Ha; subst.
  cbn [fold_left]. apply IH; auto. now apply told_act.
Qed.
End Told.
