(** Lemmas: a full redraw, exactly. *)
From Coq Require Import ZArith Reals List Bool Lia String Permutation Sorting.Sorted.
From Verif Require Import PyBase PyLemmas F64 SpaceModel ColorModel ColorSpec ColorProofs AnsiRe SpanModel Vt SpanSpec
  SpanProofs SpanProofs2 ScreenModel ScreenSpec ScreenProofs ScreenProofs2 ScreenProofs3 ScreenProofs4 ScreenProofs5 ScreenProofs6 ScreenProofs7 ScreenProofs8 DrawSpec
  DrawProofs DrawProofs2 DrawProofs3 CutProofs CutProofs2 TileSpec.
Import ListNotations.
Open Scope Z_scope.

Definition ending (b : bool) : str := if b then RESET else [].
Definition tile_text (t : tile) : str := DrawProofs.lead (tile_flags t) ++ tile_char t :: ending (tile_ends t).
Definition tile_piece (i : str * span) (t : tile) : Prop := fst i = tile_text t.

(** * Lists *)
Definition same_place {A B} (R : A -> B -> Prop) (a : pos * A) (b : pos * B) : Prop := fst a = fst b /\ R (snd a) (snd b).
Lemma number_related : forall A B (R : A -> B -> Prop) w h l l' p, Forall2 R l l' -> Forall2 (same_place R) (number w h p l) (number w h p l').
Proof.
  intros A B R w h l l' p H. revert p. induction H as [|a b l l' Hab Hl IH]; intro p; cbn [number]; [constructor|].
  destruct (p <? w * h); constructor; [split; auto|]. apply IH.
Qed.
Lemma covering_related : forall A B (R : A -> B -> Prop) q l l', Forall2 (same_place R) l l' -> Forall2 R (covering q l) (covering q l').
Proof.
  intros A B R q l l' H. unfold covering. induction H as [|a b l l' [E Hab] Hl IH]; [constructor|].
  cbn [filter]. rewrite E. destruct (pos_eqb (fst b) q); cbn [map]; [constructor; auto|exact IH].
Qed.

(** * Writing tiles *)
Lemma text_tiles_nth : forall f b t k c, nth_error t k = Some c ->
  nth_error (text_tiles f b t) k = Some (mkTile c f (if (k =? List.length t - 1)%nat then b else false)).
Proof.
  intros f b t. induction t as [|a t IH]; intros [|k] c H; cbn in H; try discriminate.
  - injection H as ->. cbn [text_tiles nth_error]. destruct t; reflexivity.
  - cbn [text_tiles nth_error List.length]. rewrite (IH k c H). repeat f_equal.
    assert (Hk : (k < List.length t)%nat) by (apply nth_error_Some; congruence).
    destruct (Nat.eqb_spec k (List.length t - 1)), (Nat.eqb_spec (S k) (S (List.length t) - 1)); auto; lia.
Qed.
Lemma text_tiles_length : forall f b t, List.length (text_tiles f b t) = List.length t.
Proof. intros f b t. induction t; cbn; auto. Qed.

Lemma span_tiled : forall e s, drawable s ->
  Forall2 tile_piece (map (fun ch => (ch, s)) (get_characters e s true true)) (span_tiles s).
Proof.
  intros e s D. destruct (characters_spec e s true true) as [HL HN].
  apply Forall2_nth; [rewrite map_length; unfold span_tiles; now rewrite text_tiles_length|].
  intros k t E. assert (Hk : (k < List.length (s_text s))%nat).
  { rewrite <- (text_tiles_length (s_flags s) (s_reset s && existsb (fun k => get_flag k (s_flags s)) all_flags)). apply nth_error_Some.
    unfold span_tiles in E. congruence. }
  destruct (nth_error (s_text s) k) as [c|] eqn:Ec; [|apply nth_error_None in Ec; lia].
  unfold span_tiles in E. rewrite (text_tiles_nth _ _ _ _ _ Ec) in E. apply (f_equal (fun o => match o with Some x => x | None => t end)) in E. cbv beta match in E. subst t.
  eexists. split; [apply map_nth_error, HN, Ec|].
  unfold tile_piece, tile_text. cbn [fst tile_flags tile_char tile_ends]. destruct D as [_ [D2 _]].
  cbn [layer_sequences]. change (span_colorless s) with (DrawProofs.lead (s_flags s)). unfold entry. cbn [orb].
  destruct (k =? List.length (s_text s) - 1)%nat; [|reflexivity].
  assert (El : str_eqb (DrawProofs.lead (s_flags s)) [] = negb (existsb (fun k => get_flag k (s_flags s)) all_flags)).
  { unfold DrawProofs.lead, csi_or_empty. pose proof (colorless_nil (s_flags s)) as N.
    destruct (existsb _ all_flags); cbn [negb].
    - destruct (colorless_body (s_flags s)); [destruct N as [N _]; specialize (N eq_refl); discriminate|reflexivity].
    - destruct N as [_ N]. rewrite (N eq_refl). reflexivity. }
  rewrite El, negb_involutive. destruct (s_reset s) eqn:Er; cbn [andb].
  - destruct (existsb _ all_flags); cbn [ending andb]; [reflexivity|]. cbn [negb] in El. apply str_eqb_eq in El. now rewrite El.
  - rewrite (no_flags_lead _ (D2 eq_refl)). cbn. rewrite ?andb_false_r. reflexivity.
Qed.
Lemma line_tiled : forall e line, Forall drawable line -> Forall2 tile_piece (pieces e line) (flat_map span_tiles line).
Proof.
  intros e line H. unfold pieces. induction H as [|s line Hs Hl IH]; [constructor|].
  cbn [flat_map]. apply Forall2_app; [now apply span_tiled|exact IH].
Qed.
Lemma data_tiled : forall e w h data, Forall (fun entry => Forall drawable (snd entry)) data ->
  Forall2 (same_place tile_piece) (laid_all e w h data) (flat_map (tile_spots w h) data).
Proof.
  intros e w h data H. unfold laid_all. induction H as [|[[x y] line] data Hl Hd IH]; [constructor|].
  cbn [flat_map]. apply Forall2_app; [|exact IH]. unfold laid, tile_spots. destruct (_ && _); [|constructor].
  apply number_related. now apply line_tiled.
Qed.

Section Run.
Variables (e : env) (sh : triple -> ecolor) (w h : Z) (origin : pos) (g0 : Z -> Z -> ecell) (W0 H0 : Z).
Hypothesis Hsh : shades e sh.
Hypothesis Hfit : 1 <= fst origin /\ 1 <= snd origin /\ fst origin - 1 + w <= W0 /\ snd origin - 1 + h <= H0.
Definition tiled (s : screen) (T : tiling) : Prop :=
  forall q, on_screen w h q -> exists fg bg, cell_at s q = Some (tile_text (T q), fg, bg).

Lemma tiled_act : forall a k P T, inv e sh w h origin g0 W0 H0 never k P -> act_ok w h a -> tiled (fst (fst k)) T ->
  tiled (fst (fst (perform e origin k a))) (tile_act w h T a).
Proof.
  intros [data tb force|fill|] [[s c] m] P T I Ha HT; cbn [fst snd] in *.
  - destruct Ha as [Hd [Ht Hs]]. destruct I as [I1 I2 I3 I4 I5 I6 _ _ _ _ _ _]. cbn [fst snd] in *.
    assert (Hcalm : calm_write s data) by (split; [exact I4|rewrite I1, I2; exact Hd]).
    assert (Hfine : fine_data data).
    { unfold fine_data. revert Hs. apply Forall_impl. intros en. apply Forall_impl. apply drawable_fine. }
    assert (Hop : opaque_data data).
    { unfold opaque_data. revert Hs. apply Forall_impl. intros en. apply Forall_impl. apply drawable_opaque. }
    destruct (write_bulk_effect e c s data tb force I6 I3 Hcalm Ht Hfine) as [s' [c' [n [E [_ WE]]]]].
    cbn [perform]. rewrite E. cbn [fst snd]. intros q Hq. destruct (HT q Hq) as [fg [bg Eold]].
    assert (Hq' : on_screen (sc_w s) (sc_h s) q) by (rewrite I1, I2; exact Hq).
    pose proof (we_cell _ _ _ _ _ _ WE q _ Hq' Eold) as G. rewrite I1, I2 in G. rewrite outcome_opaque in G by auto.
    cbn [tile_act].
    pose proof (Forall2_rev _ _ _ _ _ (covering_related _ _ _ q _ _ (data_tiled e w h data Hs))) as CV.
    inversion CV as [E1 E2|i t l l' Hit Hl E1 E2]; rewrite <- E1 in G; cbn [okf] in G.
    + exists fg, bg. apply G.
    + destruct G as [G1 G2]. destruct (cell_eqb (plain_cell i) (tile_text (T q), fg, bg)) eqn:Eq.
      * apply same_cell_iff in Eq. destruct (G1 Eq) as [A _]. rewrite A. destruct i as [ch sp]. destruct Eq as [Et _].
        unfold tile_piece in Hit. cbn [fst] in Hit. assert (Ett : tile_text (T q) = tile_text t) by congruence. exists fg, bg. rewrite Ett. reflexivity.
      * assert (N : ~ same_cell (plain_cell i) (tile_text (T q), fg, bg)) by (intro Hsame; apply same_cell_iff in Hsame; congruence).
        destruct (G2 N) as [A _]. rewrite A. destruct i as [ch sp]. unfold tile_piece in Hit. cbn [fst] in Hit. subst ch.
        eexists. eexists. reflexivity.
  - destruct I as [I1 I2 _ _ _ _ _ _ _ _ _ _]. cbn [fst snd] in *. destruct (clear_all s [fill]) as [_ [_ [_ [_ [C5 _]]]]]. rewrite I1, I2 in C5.
    intros q Hq. destruct (C5 q Hq) as [A _]. exists None, None. exact A.
  - cbn [perform]. destruct origin as [ox oy]. cbn [render]. cbn [fst snd tile_act]. exact HT.
Qed.
Lemma tiled_run : forall acts k P T, inv e sh w h origin g0 W0 H0 never k P -> Forall (act_ok w h) acts -> tiled (fst (fst k)) T ->
  tiled (fst (fst (fold_left (perform e origin) acts k))) (fold_left (tile_act w h) acts T).
Proof.
  intro acts. induction acts as [|a acts IH]; intros k P T I Ha HT; [exact HT|]. inversion Ha as [|? ? H1 H2]; subst.
  cbn [fold_left]. eapply IH; [|exact H2|eapply tiled_act; eauto].
  eapply inv_act with (st := never); eauto.
Qed.
End Run.

(** * Typing tiles *)
Definition ground_term (m : emu) : Prop := e_parse m = PGround /\ e_link m = [].
Lemma type_tile : forall t m, is_ctl (tile_char t) = false -> ground_term m -> e_wrap m = false ->
  let m' := vt (tile_text t) m in
  ground_term m' /\ e_rend m' = pen_after t (e_rend m) /\ e_w m' = e_w m /\ e_h m' = e_h m /\ e_y m' = e_y m /\
  (e_x m < e_w m - 1 -> e_x m' = e_x m + 1 /\ e_wrap m' = false) /\
  (forall X Y, e_grid m' X Y = if (X =? e_x m) && (Y =? e_y m) then (tile_char t, styled (tile_flags t) None None (e_rend m), []) else e_grid m X Y).
Proof.
  intros [g f b] m Hg [C1 C2] Hw. unfold tile_text, pen_after. cbn [tile_char tile_flags tile_ends] in *. cbv zeta.
  rewrite vt_glyph by (auto; destruct b; cbn; auto). cbv zeta. set (pen := styled f None None (e_rend m)).
  destruct (put_here g (set_rend pen m) Hw) as [A1 [A2 [A3 [A4 A5]]]]. cbn [set_rend e_x e_y e_w e_h e_rend e_link e_grid] in A1, A2, A3, A4, A5.
  rewrite C2 in A1. fold (set_rend pen m) in *. set (m1 := put_char g (set_rend pen m)) in *.
  assert (Q1 : e_parse m1 = PGround) by (unfold m1; rewrite put_char_parse; exact C1).
  assert (Q2 : e_link m1 = []) by (unfold m1; rewrite put_char_link; exact C2).
  assert (Q3 : e_rend m1 = pen) by (unfold m1; rewrite put_char_rend; reflexivity).
  destruct b; cbn [ending].
  - change RESET with (27 :: [91; 48; 109]). cbv iota. unfold ground_term. cbn [set_rend e_parse e_link e_rend e_w e_h e_x e_y e_wrap e_grid]. rewrite Q1, Q2.
    repeat match goal with |- _ /\ _ => split end; auto.
  - unfold ground_term. rewrite Q1, Q2, Q3. repeat match goal with |- _ /\ _ => split end; auto.
Qed.

Lemma type_row : forall row X Y m (t : nat -> tile) (B : nat -> rend),
  (forall k c, nth_error row k = Some c -> fst (fst c) = tile_text (t k) /\ is_ctl (tile_char (t k)) = false) ->
  (forall k, B (S k) = pen_after (t k) (B k)) -> ground_term m -> e_rend m = B O -> 0 <= X -> (row <> [] -> X + zlen row <= e_w m) ->
  (row <> [] -> e_x m = X /\ e_y m = Y /\ e_wrap m = false) ->
  let m' := vt (List.concat (map (fun c : cell => fst (fst c)) row)) m in
  ground_term m' /\ e_rend m' = B (List.length row) /\ e_w m' = e_w m /\ e_h m' = e_h m /\
  (forall k, (k < List.length row)%nat -> e_grid m' (X + Z.of_nat k) Y = (tile_char (t k), styled (tile_flags (t k)) None None (B k), [])) /\
  (forall X' Y', ~ (Y' = Y /\ X <= X' < X + zlen row) -> e_grid m' X' Y' = e_grid m X' Y').
Proof.
  intro row. induction row as [|c row IH]; intros X Y m t B Hs HB Hm Hr HX Hw Hp.
  - cbn. rewrite zlen_nil. repeat match goal with |- _ /\ _ => split end; auto; try apply Hm. intros k Hk. lia.
  - destruct Hp as [P1 [P2 P3]]; [discriminate|]. specialize (Hw ltac:(discriminate)). rewrite zlen_cons in *. cbn [map List.concat]. rewrite vt_app.
    destruct (Hs O c eq_refl) as [Et Hc]. rewrite Et.
    destruct (type_tile (t O) m Hc Hm P3) as [A1 [A2 [A3 [A4 [A5 [A6 A7]]]]]].
    set (m1 := vt (tile_text (t O)) m) in *. assert (Z0 : 0 <= zlen row) by (unfold zlen; lia).
    destruct (IH (X + 1) Y m1 (fun k => t (S k)) (fun k => B (S k))) as [B1 [B2 [B3 [B4 [B5 B6]]]]]; auto; try lia.
    { rewrite A2, Hr. symmetry. apply HB. }
    { intro Hne. destruct row as [|c' row]; [congruence|]. rewrite zlen_cons in *. assert (0 <= zlen row) by (unfold zlen; lia).
      destruct A6 as [A6 A6']; [lia|]. rewrite A5, A6. repeat match goal with |- _ /\ _ => split end; auto; lia. }
    cbv zeta. split; [exact B1|]. split; [exact B2|]. split; [congruence|]. split; [congruence|]. split.
    + intros [|k] Hk.
      * rewrite Z.add_0_r. rewrite B6 by lia. rewrite A7, P1, P2, !Z.eqb_refl. cbn [andb]. now rewrite Hr.
      * replace (X + Z.of_nat (S k)) with (X + 1 + Z.of_nat k) by lia. apply B5. cbn in Hk. lia.
    + intros X' Y' Hno. rewrite B6 by lia. rewrite A7, P1, P2. destruct (Z.eqb_spec X' X), (Z.eqb_spec Y' Y); cbn [andb]; auto. lia.
Qed.

Lemma type_rows : forall n ox rows y m (t : nat -> tile) (B : nat -> rend), 0 < ox -> 0 < y ->
  (forall j row, nth_error rows j = Some row -> List.length row = n) ->
  (forall j k row c, nth_error rows j = Some row -> nth_error row k = Some c -> fst (fst c) = tile_text (t (j * n + k)%nat) /\ is_ctl (tile_char (t (j * n + k)%nat)) = false) ->
  (forall k, B (S k) = pen_after (t k) (B k)) ->
  ground_term m -> e_rend m = B O -> (n <> O -> ox - 1 + Z.of_nat n <= e_w m) -> y - 1 + zlen rows <= e_h m ->
  let m' := vt (redraw_rows ox y rows) m in
  ground_term m' /\ e_rend m' = B (List.length rows * n)%nat /\ e_w m' = e_w m /\ e_h m' = e_h m /\
  (forall j k, (j < List.length rows)%nat -> (k < n)%nat ->
     e_grid m' (ox - 1 + Z.of_nat k) (y - 1 + Z.of_nat j) = (tile_char (t (j * n + k)%nat), styled (tile_flags (t (j * n + k)%nat)) None None (B (j * n + k)%nat), [])) /\
  (forall X Y, ~ (ox - 1 <= X < ox - 1 + Z.of_nat n /\ y - 1 <= Y < y - 1 + zlen rows) -> e_grid m' X Y = e_grid m X Y).
Proof.
  intros n ox rows. induction rows as [|row rows IH]; intros y m t B Hox Hy Hrow Hs HB Hm Hr Hw Hh.
  - cbn. rewrite zlen_nil. repeat match goal with |- _ /\ _ => split end; auto; try apply Hm. intros j k H1 H2. lia.
  - rewrite zlen_cons in *. assert (Z0 : 0 <= zlen rows) by (unfold zlen; lia). cbn [redraw_rows]. rewrite !vt_app.
    change (cup ox y) with (move_to ox y). destruct Hm as [C1 C2]. rewrite vt_move by (auto; lia).
    set (m0 := cup_to [y; ox] m).
    assert (Hc0 : ground_term m0) by (split; [exact C1|exact C2]).
    assert (Ln : List.length row = n) by exact (Hrow O row eq_refl). assert (Lw : zlen row = Z.of_nat n) by (unfold zlen; lia).
    destruct (type_row row (ox - 1) (y - 1) m0 t B) as [A1 [A2 [A3 [A4 [A5 A6]]]]]; auto; try lia.
    { intros k c E. exact (Hs O k row c eq_refl E). }
    { intro Hne. rewrite Lw. apply Hw. intro En. rewrite En in Ln. destruct row; [congruence|discriminate]. }
    { intro Hne. assert (0 < zlen row) by (destruct row; [congruence|rewrite zlen_cons; unfold zlen; lia]).
      unfold m0, cup_to, clampZ. cbn [nth set_pos e_x e_y e_wrap]. repeat match goal with |- _ /\ _ => split end; auto; lia. }
    set (m1 := vt _ m0) in *. rewrite Ln in A2, A5. rewrite Lw in A6.
    destruct (IH (y + 1) m1 (fun k => t (n + k)%nat) (fun k => B (n + k)%nat)) as [B1 [B2 [B3 [B4 [B5 B6]]]]]; auto; try lia.
    { intros j r E. exact (Hrow (S j) r E). }
    { intros j k r c E1 E2. specialize (Hs (S j) k r c E1 E2). replace (n + (j * n + k))%nat with (S j * n + k)%nat by lia. exact Hs. }
    { intro k. rewrite <- HB. f_equal. lia. }
    { rewrite A2. f_equal. lia. }
    { rewrite A3. exact Hw. }
    { rewrite A4. change (e_h m0) with (e_h m). lia. }
    cbv zeta. split; [exact B1|]. split; [rewrite B2; f_equal; cbn; lia|]. split; [rewrite B3, A3; reflexivity|]. split; [rewrite B4, A4; reflexivity|]. split.
    + intros [|j] k Hj Hk.
      * rewrite Z.add_0_r. rewrite B6 by lia. rewrite A5 by exact Hk. reflexivity.
      * replace (y - 1 + Z.of_nat (S j)) with (y + 1 - 1 + Z.of_nat j) by lia. rewrite B5 by (cbn in Hj; lia).
        replace (n + (j * n + k))%nat with (S j * n + k)%nat by lia. reflexivity.
    + intros X Y Hno. rewrite B6 by lia. rewrite A6 by lia. reflexivity.
Qed.

(** tiles hold no control characters *)
Lemma covering_in : forall A (q : pos) (l : list (pos * A)) a, In a (covering q l) -> exists p, In (p, a) l.
Proof.
  intros A q l a H. unfold covering in H. apply in_map_iff in H. destruct H as [[p a'] [E H]]. cbn in E. subst a'.
  apply filter_In in H. exists p. apply H.
Qed.
Lemma number_in : forall A w h (l : list A) p q a, In (q, a) (number w h p l) -> In a l.
Proof.
  intros A w h l. induction l as [|b l IH]; intros p q a H; [destruct H|]. cbn [number] in H. destruct (p <? w * h); [|destruct H].
  destruct H as [E|H]; [injection E as _ ->; now left|right; eauto].
Qed.
Lemma tile_printable : forall w h a T, act_ok w h a -> (forall q, is_ctl (tile_char (T q)) = false) ->
  forall q, is_ctl (tile_char (tile_act w h T a q)) = false.
Proof.
  intros w h [data tb force|fill|] T Ha HT q; cbn [tile_act]; [|exact Ha|apply HT].
  destruct (rev (covering q (flat_map (tile_spots w h) data))) as [|t l] eqn:E; [apply HT|].
  assert (Hin : In t (covering q (flat_map (tile_spots w h) data))) by (apply in_rev; rewrite E; now left).
  apply covering_in in Hin. destruct Hin as [p Hin]. apply in_flat_map in Hin. destruct Hin as [[[x y] line] [H1 H2]].
  unfold tile_spots in H2. destruct (_ && _); [|destruct H2]. apply number_in in H2. apply in_flat_map in H2. destruct H2 as [s [H3 H4]].
  destruct Ha as [_ [_ Hs]]. rewrite Forall_forall in Hs. specialize (Hs _ H1). cbn [snd] in Hs. rewrite Forall_forall in Hs.
  destruct (Hs _ H3) as [D _]. unfold printable in D. rewrite Forall_forall in D. apply D.
  unfold span_tiles in H4. clear - H4. induction (s_text s) as [|c r IH]; [destruct H4|]. cbn [text_tiles] in H4.
  destruct H4 as [<-|H4]; [now left|right; auto].
Qed.

(** * The theorem *)
Lemma nth_pos_no : forall w k j, (k < Z.to_nat w)%nat -> nth_pos w (j * Z.to_nat w + k) = (Z.of_nat k, Z.of_nat j).
Proof.
  intros w k j Hk. unfold nth_pos. rewrite Nat2Z.inj_add, Nat2Z.inj_mul, Z2Nat.id by lia.
  f_equal; [rewrite Z.add_comm, Z.mod_add by lia; apply Z.mod_small; lia|].
  rewrite Z.div_add_l by lia. rewrite Z.div_small by lia. lia.
Qed.
(** the cells of a screen, typed on any terminal that is not in the middle of a sequence *)
Lemma retyped : forall w h ox oy s T m, sc_w s = w -> sc_h s = h -> shaped s -> tiled w h s T -> (forall q, is_ctl (tile_char (T q)) = false) ->
  fits w h (ox, oy) m -> ground_term m ->
  let m' := vt (redraw_rows ox oy (sc_cells s)) m in
  (forall q, on_screen w h q ->
     seen (ox, oy) m' q = (tile_char (T q), styled (tile_flags (T q)) None None (pen_at w T (e_rend m) (pos_no w q)), [])) /\
  (forall X Y, ~ on_screen w h (X - ox + 1, Y - oy + 1) -> e_grid m' X Y = e_grid m X Y) /\
  e_rend m' = pen_at w T (e_rend m) (Z.to_nat h * Z.to_nat w) /\ e_parse m' = PGround /\ e_link m' = [].
Proof.
  intros w h ox oy s T m I1 I2 [L1 L2] T1 Tp [F1 [F2 [F3 F4]]] Hm. cbn [fst snd] in *. cbv zeta. rewrite I1, I2 in *.
  assert (Ln : List.length (sc_cells s) = Z.to_nat h) by (unfold zlen in L1; lia).
  assert (Lr : forall j row, nth_error (sc_cells s) j = Some row -> List.length row = Z.to_nat w).
  { intros j row E. apply nth_error_In in E. rewrite Forall_forall in L2. specialize (L2 row E). cbv beta in L2. unfold zlen in L2. lia. }
  assert (D : Z.to_nat w = O \/ 0 < w) by lia.
  assert (Dh : Z.to_nat h = O \/ 0 < h) by lia.
  destruct Dh as [Dh|Dh].
  { assert (En : sc_cells s = []) by (destruct (sc_cells s); [reflexivity|cbn in Ln; lia]).
    rewrite En, Dh. cbn. destruct Hm as [R1 R3]. split; [intros q [Q1 Q2]; lia|]. auto. }
  destruct (type_rows (Z.to_nat w) ox (sc_cells s) oy m (fun k => T (nth_pos w k)) (pen_at w T (e_rend m))) as [R1 [R2 [R3 [R4 [R5 R6]]]]];
    try lia; auto.
  { intros j k row c0 Er Ec. split; [|apply Tp]. pose proof (Lr _ _ Er) as Lrow.
    assert (Hk : (k < List.length row)%nat) by (apply nth_error_Some; congruence).
    assert (Hj : (j < List.length (sc_cells s))%nat) by (apply nth_error_Some; intro Hx; pose proof (eq_trans (eq_sym Hx) Er); discriminate).
    assert (Hk' : (k < Z.to_nat w)%nat) by (rewrite <- Lrow; exact Hk). assert (Hj' : (j < Z.to_nat h)%nat) by (rewrite <- Ln; exact Hj).
    rewrite nth_pos_no by exact Hk'.
    assert (Hq : on_screen w h (Z.of_nat k, Z.of_nat j)) by (unfold on_screen; cbn; lia).
    destruct (T1 _ Hq) as [fg [bg Ec1]]. unfold cell_at in Ec1. cbn [fst snd] in Ec1.
    rewrite (proj2 (Z.leb_le 0 (Z.of_nat k))), (proj2 (Z.leb_le 0 (Z.of_nat j))) in Ec1 by lia. cbn [andb] in Ec1. unfold mget in Ec1.
    rewrite !Nat2Z.id in Ec1. unfold cell in *. rewrite Er, Ec in Ec1. injection Ec1 as ->. reflexivity. }
  { unfold zlen, cell in *. lia. }
  unfold cell in *. rewrite Ln in R2, R5. split; [|split].
  - intros q [Q1 Q2]. specialize (R5 (Z.to_nat (snd q)) (Z.to_nat (fst q))). rewrite nth_pos_no in R5 by lia.
    rewrite !Z2Nat.id in R5 by lia. unfold seen. cbn [fst snd].
    replace (ox - 1 + fst q) with (fst q + ox - 1) in R5 by lia. replace (oy - 1 + snd q) with (snd q + oy - 1) in R5 by lia. rewrite R5 by lia.
    replace (Z.to_nat (snd q) * Z.to_nat w + Z.to_nat (fst q))%nat with (pos_no w q) by (unfold pos_no; nia).
    destruct q; reflexivity.
  - intros X Y Ho. apply R6. intro H. apply Ho. unfold on_screen. cbn [fst snd]. unfold zlen, cell in *. lia.
  - destruct R1. auto.
Qed.

Section Histories.
Variables (e : env) (sh : triple -> ecolor) (w h : Z) (cursor : pos) (fill : Z) (origin : pos) (m : emu) (acts : list act).
Hypothesis Hsh : shades e sh.
Hypothesis Hfill : is_ctl fill = false.
Hypothesis Hm : at_rest m.
Hypothesis Hf : fits w h origin m.
Hypothesis Ha : Forall (act_ok w h) acts.
Lemma history_tiled : tiled w h (fst (fst (fold_left (perform e origin) acts (new_screen w h cursor [fill], [], m))))
  (fold_left (tile_act w h) acts (fun _ => bare fill)).
Proof.
  assert (I0 : inv e sh w h origin (e_grid m) (e_w m) (e_h m) never (new_screen w h cursor [fill], [], m) (blank fill)) by (apply inv_start; auto).
  apply (tiled_run e sh w h origin (e_grid m) (e_w m) (e_h m) Hsh Hf acts _ _ _ I0 Ha).
  intros q Hq. exists None, None. cbn [fst]. unfold new_screen. rewrite resize_cell by exact Hq. unfold cell_at. cbn [sc_cells].
  replace (mget [] (fst q) (snd q)) with (@None cell); [now destruct (_ && _)|].
  unfold mget. now destruct (Z.to_nat (snd q)).
Qed.
Lemma history_printable : forall q, is_ctl (tile_char (fold_left (tile_act w h) acts (fun _ => bare fill) q)) = false.
Proof.
  assert (G : forall acts T, Forall (act_ok w h) acts -> (forall q, is_ctl (tile_char (T q)) = false) ->
      forall q, is_ctl (tile_char (fold_left (tile_act w h) acts T q)) = false).
  { intro l. induction l as [|a l IH]; intros T HA HT; [exact HT|]. inversion HA; subst. cbn [fold_left]. apply IH; auto. now apply tile_printable. }
  apply G; auto.
Qed.
End Histories.
Lemma redraw_exact : forall e sh w h cursor fill origin m acts pen, shades e sh -> is_ctl fill = false ->
  at_rest m -> fits w h origin m -> Forall (act_ok w h) acts ->
  let '(s, _, m1) := fold_left (perform e origin) acts (new_screen w h cursor [fill], [], m) in
  let T := fold_left (tile_act w h) acts (fun _ => bare fill) in
  let m' := vt (fst (render s origin true)) (set_rend pen m1) in
  (forall q, on_screen w h q ->
     seen origin m' q = (tile_char (T q), styled (tile_flags (T q)) None None (pen_at w T pen (pos_no w q)), [])) /\
  (forall X Y, ~ on_screen w h (X - fst origin + 1, Y - snd origin + 1) -> e_grid m' X Y = e_grid m X Y) /\
  e_rend m' = pen_at w T pen (Z.to_nat h * Z.to_nat w) /\ e_parse m' = PGround /\ e_link m' = [].
Proof.
  intros e sh w h cursor fill origin m acts pen Hsh Hfill Hm Hf Ha.
  pose proof (history_tiled e sh w h cursor fill origin m acts Hsh Hfill Hm Hf Ha) as T1.
  pose proof (history_printable w h fill acts Hfill Ha) as Tp.
  pose proof (history_inv e sh w h cursor fill origin m acts Hsh Hfill Hm Hf Ha) as I1.
  destruct (fold_left (perform e origin) acts _) as [[s c] m1]. cbv zeta. cbn [fst] in T1.
  destruct origin as [ox oy]. destruct Hf as [F1 [F2 [F3 F4]]]. cbn [fst snd] in *. cbn [render fst].
  destruct I1 as [I1 I2 I3 I4 I5 I6 [Q1 [Q2 Q3]] [E1 E2] I9 I10 I11 I12]. cbn [fst snd] in *.
  destruct (retyped w h ox oy s _ (set_rend pen m1) I1 I2 I3 T1 Tp) as [A [B C]].
  { unfold fits. cbn [fst snd set_rend e_w e_h]. rewrite E1, E2. auto. }
  { split; [exact Q1|exact Q3]. }
  split; [exact A|]. split; [|exact C]. intros X Y Ho. rewrite B by exact Ho. apply I12. exact Ho.
Qed.
(** the same after a draw that was cut short *)
Lemma cut_exact : forall e sh w h cursor fill origin m acts, shades e sh -> is_ctl fill = false ->
  at_rest m -> fits w h origin m -> Forall (act_ok w h) acts ->
  let '(s, _, m1) := fold_left (perform e origin) acts (new_screen w h cursor [fill], [], m) in
  let T := fold_left (tile_act w h) acts (fun _ => bare fill) in
  forall a b, fst (render s origin false) = a ++ b ->
  let m' := vt (fst (render (snd (render s origin false)) origin true)) (vt a m1) in
  forall q, on_screen w h q ->
     seen origin m' q = (tile_char (T q), styled (tile_flags (T q)) None None (pen_at w T (e_rend (vt a m1)) (pos_no w q)), []).
Proof.
  intros e sh w h cursor fill origin m acts Hsh Hfill Hm Hf Ha.
  pose proof (history_tiled e sh w h cursor fill origin m acts Hsh Hfill Hm Hf Ha) as T1.
  pose proof (history_printable w h fill acts Hfill Ha) as Tp.
  pose proof (history_inv e sh w h cursor fill origin m acts Hsh Hfill Hm Hf Ha) as I1.
  destruct (fold_left (perform e origin) acts _) as [[s c] m1]. cbv zeta. cbn [fst] in T1. intros a b E q Hq.
  destruct (cut_items e sh w h origin (e_grid m) (e_w m) (e_h m) Hsh Hf never s c m1 _ a b I1 E) as [_ [_ [_ [_ [_ [_ [Ew [Eh [El Em]]]]]]]]].
  destruct I1 as [I1 I2 I3 I4 I5 I6 [Q1 [Q2 Q3]] [E1 E2] I9 I10 I11 I12]. cbn [fst snd] in *.
  assert (Er : fst (render (snd (render s origin false)) origin true) = redraw_rows (fst origin) (snd origin) (sc_cells s))
    by (unfold render; destruct origin; reflexivity).
  rewrite Er. set (m2 := vt a m1) in *.
  assert (Es : vt (redraw_rows (fst origin) (snd origin) (sc_cells s)) m2 = vt (redraw_rows (fst origin) (snd origin) (sc_cells s)) (set_parse PGround m2)).
  { assert (N : sc_cells s <> []).
    { intro N. destruct I3 as [L1 _]. rewrite N in L1. unfold zlen in L1. cbn in L1. destruct Hq. lia. }
    destruct (sc_cells s) as [|row rows]; [congruence|]. cbn [redraw_rows]. unfold cup. cbn [app]. now apply esc_resets. }
  rewrite Es. destruct origin as [ox oy]. cbn [fst snd].
  destruct (retyped w h ox oy s _ (set_parse PGround m2) I1 I2 I3 T1 Tp) as [A _].
  { destruct Hf as [F1 [F2 [F3 F4]]]. unfold fits. cbn [fst snd set_parse e_w e_h] in *. rewrite Ew, Eh. auto. }
  { split; [reflexivity|exact El]. }
  exact (A q Hq).
Qed.

(** * Attributes *)
Lemma attribute_styled : forall i f pen, attribute i (styled f None None pen) = attribute i (styled f None None rend0) || attribute i pen.
Proof.
  intros i f pen. unfold attribute, attributes, styled. cbn [r_bold r_dim r_italic r_underline r_blink r_rapid r_inverse r_conceal r_strike rend0].
  do 9 (destruct i as [|i]; [cbn [nth]; now rewrite orb_false_r|]). destruct i; reflexivity.
Qed.
Lemma attribute_rend0 : forall i, attribute i rend0 = false.
Proof. intro i. do 9 (destruct i as [|i]; [reflexivity|]). destruct i; reflexivity. Qed.
(** an attribute of the pen: one that a tile turned on, and none ended after that *)
Lemma pen_attribute : forall w T i n, attribute i (pen_at w T rend0 n) = true <->
  exists k, (k < n)%nat /\ attribute i (own (T (nth_pos w k))) = true /\ forall j, (k <= j < n)%nat -> tile_ends (T (nth_pos w j)) = false.
Proof.
  intros w T i n. induction n as [|n IH]; cbn [pen_at].
  - rewrite attribute_rend0. split; [discriminate|]. intros [k [H _]]. lia.
  - unfold pen_after. destruct (tile_ends (T (nth_pos w n))) eqn:E.
    + rewrite attribute_rend0. split; [discriminate|]. intros [k [H1 [_ H2]]]. rewrite H2 in E by lia. discriminate.
    + rewrite attribute_styled, orb_true_iff. rewrite IH. split.
      * intros [H|[k [H1 [H2 H3]]]].
        -- exists n. split; [lia|]. split; [exact H|]. intros j Hj. replace j with n by lia. exact E.
        -- exists k. split; [lia|]. split; [exact H2|]. intros j Hj. destruct (Nat.eq_dec j n) as [->|]; [exact E|]. apply H3. lia.
      * intros [k [H1 [H2 H3]]]. destruct (Nat.eq_dec k n) as [->|]; [left; exact H2|right].
        exists k. split; [lia|]. split; [exact H2|]. intros j Hj. apply H3. lia.
Qed.
Lemma shown_attribute : forall w T i n, attribute i (styled (tile_flags (T (nth_pos w n))) None None (pen_at w T rend0 n)) = true <->
  exists k, (k <= n)%nat /\ attribute i (own (T (nth_pos w k))) = true /\ forall j, (k <= j < n)%nat -> tile_ends (T (nth_pos w j)) = false.
Proof.
  intros w T i n. rewrite attribute_styled, orb_true_iff, pen_attribute. split.
  - intros [H|[k [H1 [H2 H3]]]]; [exists n; split; [lia|]; split; [exact H|intros j Hj; lia]|exists k; split; [lia|auto]].
  - intros [k [H1 [H2 H3]]]. destruct (Nat.eq_dec k n) as [->|]; [left; exact H2|right; exists k; split; [lia|auto]].
Qed.
Lemma pos_no_nth : forall w h q, on_screen w h q -> nth_pos w (pos_no w q) = q /\ (pos_no w q < Z.to_nat h * Z.to_nat w)%nat.
Proof.
  intros w h q [Q1 Q2]. unfold pos_no. split.
  - replace (Z.to_nat (snd q * w + fst q)) with (Z.to_nat (snd q) * Z.to_nat w + Z.to_nat (fst q))%nat by nia.
    rewrite nth_pos_no by lia. rewrite !Z2Nat.id by lia. now destruct q.
  - nia.
Qed.
Lemma nth_no_pos : forall w h n, (n < Z.to_nat h * Z.to_nat w)%nat -> on_screen w h (nth_pos w n) /\ pos_no w (nth_pos w n) = n.
Proof.
  intros w h n Hn. assert (Hw : 0 < w) by nia. unfold on_screen, nth_pos, pos_no. cbn [fst snd].
  pose proof (Z.mod_pos_bound (Z.of_nat n) w Hw). pose proof (Z.div_mod (Z.of_nat n) w ltac:(lia)) as D.
  assert (0 <= Z.of_nat n / w) by (apply Z.div_pos; lia).
  assert (Z.of_nat n / w < h) by (apply Z.div_lt_upper_bound; nia).
  split; [auto|]. rewrite (Z.mul_comm (Z.of_nat n / w)), <- D. lia.
Qed.

(** every cell in its own attributes and no others: a tile that does not end has no attribute the next lacks *)
Lemma at_least_attribute : forall a b, at_least a b <-> forall i, attribute i a = true -> attribute i b = true.
Proof.
  intros a b. unfold at_least, attribute, attributes. split.
  - intros H i. repeat match goal with H : Forall2 _ (_ :: _) _ |- _ => inversion H; subst; clear H end.
    do 9 (destruct i as [|i]; [assumption|]). destruct i; discriminate.
  - intro H. pose proof (H 0%nat). pose proof (H 1%nat). pose proof (H 2%nat). pose proof (H 3%nat). pose proof (H 4%nat).
    pose proof (H 5%nat). pose proof (H 6%nat). pose proof (H 7%nat). pose proof (H 8%nat). repeat constructor; assumption.
Qed.
Lemma styled_absorbs : forall f pen, r_fg pen = EDefault -> r_bg pen = EDefault -> at_least pen (styled f None None rend0) ->
  styled f None None pen = styled f None None rend0.
Proof.
  intros f [fg bg b1 b2 b3 b4 b5 b6 b7 b8 b9] Hf Hb H. cbn [r_fg r_bg] in *. subst.
  unfold at_least, attributes, styled, rend0 in *. cbn [r_fg r_bg r_bold r_dim r_italic r_underline r_blink r_rapid r_inverse r_conceal r_strike] in *.
  repeat match goal with H : Forall2 _ (_ :: _) _ |- _ => inversion H; subst; clear H end. rewrite !orb_false_r in *.
  f_equal; match goal with H : ?b = true -> ?a = true |- ?a || ?b = ?a => destruct b; [rewrite H; auto|apply orb_false_r] end.
Qed.
Lemma pen_colors : forall w T n, r_fg (pen_at w T rend0 n) = EDefault /\ r_bg (pen_at w T rend0 n) = EDefault.
Proof.
  intros w T n. induction n as [|n [IH1 IH2]]; [split; reflexivity|]. cbn [pen_at]. unfold pen_after. destruct (tile_ends _); [split; reflexivity|].
  split; [exact IH1|exact IH2].
Qed.
Lemma all_own : forall w T N,
  (forall n, (n < N)%nat -> styled (tile_flags (T (nth_pos w n))) None None (pen_at w T rend0 n) = own (T (nth_pos w n))) <->
  (forall n, (S n < N)%nat -> tile_ends (T (nth_pos w n)) = true \/ at_least (own (T (nth_pos w n))) (own (T (nth_pos w (S n))))).
Proof.
  intros w T N. split.
  - intros H n Hn. destruct (tile_ends (T (nth_pos w n))) eqn:E; [now left|right]. apply at_least_attribute. intros i Hi.
    rewrite <- H by lia. rewrite attribute_styled. cbn [pen_at]. unfold pen_after. rewrite E.
    rewrite (attribute_styled i (tile_flags (T (nth_pos w n))) (pen_at w T rend0 n)).
    unfold own in Hi. rewrite Hi. cbn [orb]. apply orb_true_r.
  - intros H n. induction n as [|n IH]; intro Hn; [reflexivity|].
    specialize (IH ltac:(lia)). apply styled_absorbs; try apply pen_colors. cbn [pen_at]. unfold pen_after.
    destruct (H n Hn) as [E|L]; [rewrite E; apply at_least_attribute; intro i; now rewrite attribute_rend0|].
    destruct (tile_ends (T (nth_pos w n))); [apply at_least_attribute; intro i; now rewrite attribute_rend0|]. rewrite IH. exact L.
Qed.

(** * The picture and the tiles *)
Definition same_look (v : Z * rend) (t : tile) : Prop := fst v = tile_char t /\ attributes (snd v) = attributes (own t).
Lemma span_look : forall sh s, Forall2 (fun g t => same_look (painted sh g) t) (map (fun c => (c, s)) (s_text s)) (span_tiles s).
Proof.
  intros sh s. unfold span_tiles. set (b := _ && _). clearbody b. generalize (s_text s) as text. intro text.
  induction text as [|c text IH]; [constructor|]. cbn [map text_tiles]. constructor; [|exact IH]. split; reflexivity.
Qed.
Lemma data_look : forall sh w h data, Forall2 (same_place (fun g t => same_look (painted sh g) t)) (flat_map (spots w h) data) (flat_map (tile_spots w h) data).
Proof.
  intros sh w h data. induction data as [|[[x y] line] data IH]; [constructor|]. cbn [flat_map]. apply Forall2_app; [|exact IH].
  unfold spots, tile_spots. destruct (_ && _); [|constructor]. apply number_related. unfold glyphs.
  induction line as [|s line IHl]; [constructor|]. cbn [flat_map]. apply Forall2_app; [apply span_look|exact IHl].
Qed.
Lemma look_act : forall sh w h a (P : picture) (T : tiling), (forall q, same_look (P q) (T q)) -> forall q, same_look (paint_act sh w h P a q) (tile_act w h T a q).
Proof.
  intros sh w h [data tb force|fill|] P T H q; cbn [paint_act tile_act]; [|split; reflexivity|apply H].
  pose proof (Forall2_rev _ _ _ _ _ (covering_related _ _ _ q _ _ (data_look sh w h data))) as CV.
  inversion CV as [E1 E2|g t l l' Hgt Hl E1 E2]; [apply H|exact Hgt].
Qed.
Lemma look : forall sh w h fill acts q,
  let p := fold_left (paint_act sh w h) acts (blank fill) in
  let T := fold_left (tile_act w h) acts (fun _ => bare fill) in
  fst (p q) = tile_char (T q) /\ attributes (snd (p q)) = attributes (own (T q)).
Proof.
  intros sh w h fill acts. assert (G : forall acts P T, (forall q, same_look (P q) (T q)) ->
    forall q, same_look (fold_left (paint_act sh w h) acts P q) (fold_left (tile_act w h) acts T q)).
  { intro l. induction l as [|a l IH]; intros P T H; [exact H|]. cbn [fold_left]. apply IH. now apply look_act. }
  intro q. apply G. intro q0. split; reflexivity.
Qed.

(** * Redraws from rest *)
Lemma redraw_attributes : forall e sh w h cursor fill origin m acts i, shades e sh -> is_ctl fill = false ->
  at_rest m -> fits w h origin m -> Forall (act_ok w h) acts ->
  let '(s, _, m1) := fold_left (perform e origin) acts (new_screen w h cursor [fill], [], m) in
  let T := fold_left (tile_act w h) acts (fun _ => bare fill) in
  let m' := vt (fst (render s origin true)) m1 in
  forall q, on_screen w h q -> (attribute i (snd (fst (seen origin m' q))) = true <->
    exists k, (k <= pos_no w q)%nat /\ attribute i (own (T (nth_pos w k))) = true /\
      forall j, (k <= j < pos_no w q)%nat -> tile_ends (T (nth_pos w j)) = false).
Proof.
  intros e sh w h cursor fill origin m acts i Hsh Hfill Hm Hf Ha.
  pose proof (redraw_exact e sh w h cursor fill origin m acts rend0 Hsh Hfill Hm Hf Ha) as R.
  assert (I0 : inv e sh w h origin (e_grid m) (e_w m) (e_h m) never (new_screen w h cursor [fill], [], m) (blank fill)) by (apply inv_start; auto).
  pose proof (inv_run e sh w h origin (e_grid m) (e_w m) (e_h m) Hsh Hf acts _ _ I0 Ha) as I1.
  destruct (fold_left (perform e origin) acts _) as [[s c] m1]. cbv zeta in *. destruct I1 as [_ _ _ _ _ _ [_ [R0 _]] _ _ _ _ _]. cbn [fst snd] in R0.
  destruct R as [R _]. rewrite <- R0, set_rend_id, R0 in R. intros q Hq. rewrite R by exact Hq. cbn [fst snd].
  set (T := fold_left (tile_act w h) acts (fun _ => bare fill)). pose proof (shown_attribute w T i (pos_no w q)) as S.
  destruct (pos_no_nth w h q Hq) as [E _]. rewrite E in S. exact S.
Qed.
Lemma redraw_right : forall e sh w h cursor fill origin m acts, shades e sh -> is_ctl fill = false ->
  at_rest m -> fits w h origin m -> Forall (act_ok w h) acts ->
  let '(s, _, m1) := fold_left (perform e origin) acts (new_screen w h cursor [fill], [], m) in
  let p := fold_left (paint_act sh w h) acts (blank fill) in
  let T := fold_left (tile_act w h) acts (fun _ => bare fill) in
  let m' := vt (fst (render s origin true)) m1 in
  (forall q, on_screen w h q -> attributes (snd (fst (seen origin m' q))) = attributes (snd (p q))) <->
  (forall n, (S n < Z.to_nat h * Z.to_nat w)%nat ->
     tile_ends (T (nth_pos w n)) = true \/ at_least (snd (p (nth_pos w n))) (snd (p (nth_pos w (S n))))).
Proof.
  intros e sh w h cursor fill origin m acts Hsh Hfill Hm Hf Ha.
  pose proof (redraw_exact e sh w h cursor fill origin m acts rend0 Hsh Hfill Hm Hf Ha) as R.
  assert (I0 : inv e sh w h origin (e_grid m) (e_w m) (e_h m) never (new_screen w h cursor [fill], [], m) (blank fill)) by (apply inv_start; auto).
  pose proof (inv_run e sh w h origin (e_grid m) (e_w m) (e_h m) Hsh Hf acts _ _ I0 Ha) as I1.
  destruct (fold_left (perform e origin) acts _) as [[s c] m1]. cbv zeta in *. destruct I1 as [_ _ _ _ _ _ [_ [R0 _]] _ _ _ _ _]. cbn [fst snd] in R0.
  destruct R as [R _]. rewrite <- R0, set_rend_id, R0 in R.
  pose proof (look sh w h fill acts) as L. cbv zeta in L.
  set (p := fold_left (paint_act sh w h) acts (blank fill)) in *. set (T := fold_left (tile_act w h) acts (fun _ => bare fill)) in *.
  assert (AL : forall a b, at_least (snd (p a)) (snd (p b)) <-> at_least (own (T a)) (own (T b))).
  { intros a b. unfold at_least. now rewrite (proj2 (L a)), (proj2 (L b)). }
  pose proof (all_own w T (Z.to_nat h * Z.to_nat w)) as AO. split.
  - intros H n Hn. rewrite AL. apply AO; [|exact Hn]. intros k Hk. destruct (nth_no_pos w h k Hk) as [Hq Ek].
    specialize (H _ Hq). rewrite (R _ Hq), Ek in H. cbn [fst snd] in H. rewrite (proj2 (L _)) in H.
    unfold own. destruct (pen_colors w T k) as [C1 C2]. revert H C1 C2. generalize (pen_at w T rend0 k) as pen. intros pen H C1 C2.
    unfold own in H. revert H. destruct pen as [fg bg b1 b2 b3 b4 b5 b6 b7 b8 b9]. cbn [r_fg r_bg] in C1, C2. subst.
    unfold attributes, styled, rend0. cbn [r_fg r_bg r_bold r_dim r_italic r_underline r_blink r_rapid r_inverse r_conceal r_strike].
    intro H. injection H as H1 H2 H3 H4 H5 H6 H7 H8 H9. f_equal; assumption.
  - intros H q Hq. rewrite (R _ Hq). cbn [fst snd]. rewrite (proj2 (L _)). f_equal.
    destruct (pos_no_nth w h q Hq) as [E Hn]. rewrite <- E at 1 3. apply AO; [|exact Hn]. intros n Hn'. specialize (H n Hn'). now rewrite AL in H.
Qed.
