(** Lemmas: text with attributes and a line break. *)
From Coq Require Import ZArith Reals List Bool Lia Permutation Sorting.Sorted.
From Verif Require Import PyBase PyLemmas F64 SpaceModel ColorModel ColorSpec AnsiRe SpanModel Vt SpanSpec SpanProofs
  ScreenModel ScreenSpec ScreenProofs ScreenProofs2 ScreenProofs3 ScreenProofs4 ScreenProofs5 ScreenProofs6 ScreenProofs7 ScreenProofs8
  DrawSpec DrawProofs DrawProofs2 ScrollProofs WideProofs3 ParseProofs LineSpec LineProofs.
Import ListNotations.
Open Scope Z_scope.
Open Scope list_scope.

(** * Characters none of which is a bare line break, on one row of cells never written *)
Definition in_run (x y n : Z) (q : pos) : Prop := snd q = y /\ x <= fst q < x + n.
Lemma run_write : forall e c s sp x y tb force, cache_ok e c -> shaped s -> opaque_span sp -> sc_off s = 0 ->
  let chars := get_characters e sp true true in Forall (fun ch => ch <> [NL]) chars -> 0 < zlen chars ->
  0 <= x -> x + zlen chars <= sc_w s -> 0 <= y < sc_h s ->
  (forall X, 0 <= X < sc_w s -> exists t b, cell_at s (X, y) = Some (t, None, b)) ->
  exists s' c', write_bulk e c s [((x, y), [sp])] tb force = (s', c', Ok (zlen chars)) /\ sc_w s' = sc_w s /\ sc_h s' = sc_h s /\ (keyed s -> keyed s') /\
    (forall k ch, nth_error chars k = Some ch -> cell_at s' (x + Z.of_nat k, y) = Some (plain_cell (rstrip_by is_nl ch, sp)) /\
       pending s' (x + Z.of_nat k, y) = Some (cell_entry e (plain_cell (rstrip_by is_nl ch, sp)) (endswith [NL] ch))) /\
    (forall q, on_screen (sc_w s) (sc_h s) q -> ~ in_run x y (zlen chars) q -> cell_at s' q = cell_at s q) /\
    (forall q, ~ in_run x y (zlen chars) q -> pending s' q = pending s q).
Proof.
  intros e c s sp x y tb force Hc Hs Ho Hoff chars Hn Hpos Hx Hw Hy Hrow0.
  apply shaped_dims in Hs. unfold write_bulk. set (w := sc_w s) in *. set (h := sc_h s) in *.
  destruct (cached_ok e c sp true true Hc) as [c1 [Ec Hc1]].
  cbn [place_all place_line]. cbn [ws_cache]. rewrite Ec. fold chars.
  cbn [ws_wm ws_am ws_cells ws_off ws_cache]. rewrite Hoff. rewrite (proj2 (Z.ltb_ge (h - 1) (y - 0))) by lia. rewrite andb_false_r.
  cbn [ws_wm ws_am ws_cells ws_off ws_cache]. rewrite Z.sub_0_r.
  destruct (place_spec w h sp chars 0 (zlen chars) x y (zlen [sp] - 1) (blank_matrix w h None) (blank_matrix w h [])) as [lst' [Ep _]]; [lia|lia|exact Hn|].
  rewrite number_row in Ep.
  2: lia.
  2: { unfold span_items. unfold zlen in *. rewrite map_length. lia. }
  2: lia.
  set (items := row_items x y (span_items sp chars)) in *.
  rewrite Ep. cbn [ws_wm ws_am ws_cells ws_off ws_cache].
  assert (Hrow : forall q, row_nth x y (span_items sp chars) q = option_map (fun ch => (ch, sp)) (row_nth x y chars q)).
  { intro q. unfold row_nth. destruct (_ && _); [|reflexivity]. unfold span_items. apply nth_error_map. }
  assert (Hout : forall q, outcome tb items q = option_map (fun ch => Ok (plain_cell (rstrip_by is_nl ch, sp), endswith [NL] ch)) (row_nth x y chars q)).
  { intro q. unfold outcome, items. rewrite covering_row, Hrow. destruct (row_nth x y chars q) as [ch|]; [|reflexivity].
    cbn [option_map opt_list fold_left]. rewrite cstep_opaque by exact Ho. f_equal. apply finish_plain. exact Ho. }
  destruct (commit_items e w h items tb (sc_cells s) (sc_buf s) Hs) as [cells' [Ecm [D' G]]].
  { intros q a Hi. apply row_items_in in Hi. unfold span_items in Hi. unfold zlen in Hi. rewrite map_length in Hi.
    unfold zlen in Hw. unfold on_screen. lia. }
  { intros q ex _ E. rewrite Hout in E. destruct (row_nth _ _ _ q); discriminate. }
  set (f := fun q => okf (outcome tb items q)) in *.
  match type of Ecm with _ = ?r => match goal with |- context [commit ?a ?b ?c ?d ?i ?j ?k ?l] => replace (commit a b c d i j k l) with r by (symmetry; exact Ecm) end end.
  assert (Hk : forall k ch, nth_error chars k = Some ch ->
     f (x + Z.of_nat k, y) = Some (plain_cell (rstrip_by is_nl ch, sp), endswith [NL] ch) /\ 0 <= x + Z.of_nat k < w /\ x <= x + Z.of_nat k < x + zlen chars).
  { intros k ch E. assert (Hkl : (k < List.length chars)%nat) by (apply nth_error_Some; congruence).
    unfold f. rewrite Hout. unfold row_nth. cbn [fst snd].
    rewrite Z.eqb_refl, (proj2 (Z.leb_le x (x + Z.of_nat k))) by lia. cbn [andb]. replace (Z.to_nat (x + Z.of_nat k - x)) with k by lia.
    rewrite E. cbn [option_map okf]. unfold zlen in *. split; [reflexivity|lia]. }
  assert (Hnone : forall q, ~ in_run x y (zlen chars) q -> f q = None).
  { intros q Hq. unfold f. rewrite Hout. destruct (row_nth x y chars q) as [ch|] eqn:E; [|reflexivity].
    apply row_nth_in in E. contradiction. }
  assert (On : forall cs bf cu of q, on_screen w h q -> cell_at (mkScreen w h cs bf cu of) q = mget cs (fst q) (snd q)).
  { intros cs bf cu of q Hq. rewrite cell_at_on by exact Hq. reflexivity. }
  assert (Hch : forall q, on_screen w h q -> (changes f (sc_cells s) q = true <-> in_run x y (zlen chars) q)).
  { intros q Hq. split.
    - intro E. assert (Dc : in_run x y (zlen chars) q \/ ~ in_run x y (zlen chars) q) by (unfold in_run; lia).
      destruct Dc as [Dc|Dc]; auto. unfold changes in E. rewrite (Hnone q Dc) in E. discriminate.
    - intros [E1 E2]. destruct (nth_error chars (Z.to_nat (fst q - x))) as [ch|] eqn:E.
      2: { apply nth_error_None in E. unfold zlen in *. lia. }
      destruct (Hk _ ch E) as [F _]. replace (x + Z.of_nat (Z.to_nat (fst q - x)), y) with q in F by (destruct q; cbn in *; f_equal; lia).
      unfold changes. rewrite F. destruct (Hrow0 (fst q)) as [t0 [b0 C0]]; [destruct Hq; lia|].
      replace (fst q, y) with q in C0 by (destruct q; cbn in *; congruence). rewrite cell_at_on in C0 by exact Hq. rewrite C0.
      unfold plain_cell, cell_eqb. cbn [opt_color_eqb]. rewrite andb_false_r. reflexivity. }
  assert (Hnd : NoDup (filter (changes f (sc_cells s)) (positions w h))) by apply NoDup_filter, positions_NoDup.
  assert (Hfn : forall q, In q (filter (changes f (sc_cells s)) (positions w h)) -> f q <> None).
  { intros q Hq. apply filter_In in Hq. destruct Hq as [_ Hq]. unfold changes in Hq. destruct (f q); congruence. }
  assert (Hex : forall q, existsb (pos_eqb q) (filter (changes f (sc_cells s)) (positions w h)) = true <-> in_run x y (zlen chars) q).
  { intro q. rewrite existsb_exists. split.
    - intros [q' [Hi Hq]]. apply pos_eqb_iff in Hq. subst q'. apply filter_In in Hi. rewrite positions_in in Hi. destruct Hi as [H1 H2]. now apply (Hch q).
    - intro H1. exists q. split; [|apply pos_eqb_refl]. apply filter_In. rewrite positions_in.
      assert (on_screen w h q) by (unfold on_screen, in_run in *; lia). split; auto. now apply Hch. }
  eexists. exists c1. split; [apply f_equal2; [reflexivity|f_equal]|].
  { assert (P : Permutation (filter (changes f (sc_cells s)) (positions w h)) (map (fun k => (x + k, y)) (range (zlen chars)))).
    { apply NoDup_Permutation; auto.
      - apply FinFun.Injective_map_NoDup; [|apply range_NoDup]. intros a b E. injection E. lia.
      - intro q. split; intro Hq.
        + apply filter_In in Hq. rewrite positions_in in Hq. destruct Hq as [H1 H2]. apply Hch in H2; auto. destruct H2 as [H2 H3]. apply in_map_iff. exists (fst q - x).
          split; [destruct q; cbn in *; f_equal; lia|apply in_range; lia].
        + apply in_map_iff in Hq. destruct Hq as [k [<- Hk']]. apply in_range in Hk'. apply filter_In. rewrite positions_in.
          assert (on_screen w h (x + k, y)) by (unfold on_screen; cbn; lia). split; auto. apply Hch; auto. unfold in_run. cbn. lia. }
    apply Permutation_length in P. unfold zlen. unfold zlen in P. rewrite P, map_length, range_length. lia. }
  cbn [sc_w sc_h sc_cells sc_buf sc_cursor sc_off]. split; [reflexivity|]. split; [reflexivity|].
  split; [intro Hk0; unfold keyed in *; cbn [sc_buf]; now apply log_change_NoDup|]. split; [|split].
  - intros k ch E. destruct (Hk k ch E) as [F [F1 F2]]. assert (Hq : on_screen w h (x + Z.of_nat k, y)) by (unfold on_screen; cbn; lia).
    assert (Hr : in_run x y (zlen chars) (x + Z.of_nat k, y)) by (unfold in_run; cbn; lia). split.
    + rewrite On by exact Hq. rewrite G by exact Hq. rewrite (proj2 (Hch _ Hq)) by exact Hr. transitivity (option_map fst (f (x + Z.of_nat k, y))); [reflexivity|]. rewrite F. reflexivity.
    + unfold pending. cbn [sc_buf]. rewrite log_change_get by auto. rewrite (proj2 (Hex _)) by exact Hr. rewrite F. reflexivity.
  - intros q Hq Hr. rewrite On by exact Hq. rewrite G by exact Hq. rewrite cell_at_on by exact Hq.
    destruct (changes f (sc_cells s) q) eqn:E; [|reflexivity]. apply Hch in E; [contradiction|exact Hq].
  - intros q Hq. unfold pending. cbn [sc_buf]. rewrite log_change_get by auto. destruct (existsb _ _) eqn:E; [|reflexivity].
    apply Hex in E. contradiction.
Qed.

(** * What the terminal does with it *)
Lemma run_vt : forall e sh rd glyphs cells m, shades e sh -> Forall2 (fun c g => shows sh c (g, rd)) cells glyphs ->
  at_rest m -> e_wrap m = false -> 0 <= e_x m -> e_x m + zlen glyphs <= e_w m ->
  let m' := vt (List.concat (map (drawn e) cells)) m in
  at_rest m' /\ e_w m' = e_w m /\ e_h m' = e_h m /\ e_y m' = e_y m /\
  (e_x m + zlen glyphs < e_w m -> e_wrap m' = false /\ e_x m' = e_x m + zlen glyphs) /\
  (forall k g, nth_error glyphs k = Some g -> e_grid m' (e_x m + Z.of_nat k) (e_y m) = (g, rd, [])) /\
  (forall X Y, ~ (Y = e_y m /\ e_x m <= X < e_x m + zlen glyphs) -> e_grid m' X Y = e_grid m X Y).
Proof.
  intros e sh rd glyphs cells m Hsh HF. revert m. induction HF as [|c g cells glyphs Hcg HF IH]; intros m Hm Hwr Hx Hfit.
  { cbn [map List.concat vt fold_left]. rewrite zlen_nil, Z.add_0_r. repeat split; auto; try (apply Hm). intros [|k] g E; discriminate. }
  rewrite zlen_cons in Hfit |- *. pose proof (zlen_nonneg _ glyphs) as Zg. cbv zeta. cbn [map List.concat]. rewrite vt_app.
  destruct Hm as [M1 [M2 M3]]. rewrite (vt_drawn e sh c (g, rd) m Hsh Hcg M1 M2). cbn [fst snd].
  set (m1 := set_rend rend0 (put_char g (set_rend rd m))).
  destruct (put_here g (set_rend rd m) Hwr) as [P1 [P2 [P3 [P4 P5]]]]. cbn [set_rend e_w e_h e_x e_y e_rend e_link e_grid] in P1, P2, P3, P4, P5.
  assert (R1 : at_rest m1) by (unfold m1; repeat split; cbn [set_rend e_parse e_rend e_link]; [rewrite put_char_parse; exact M1|rewrite put_char_link; exact M3]).
  assert (G1 : forall X Y, e_grid m1 X Y = if (X =? e_x m) && (Y =? e_y m) then (g, rd, []) else e_grid m X Y).
  { intros X Y. unfold m1. cbn [set_rend e_grid]. rewrite P1, M3. reflexivity. }
  assert (W1 : e_w m1 = e_w m /\ e_h m1 = e_h m /\ e_y m1 = e_y m) by (unfold m1; cbn [set_rend e_w e_h e_y]; auto). destruct W1 as [W1 [H1 Y1]].
  destruct glyphs as [|g2 glyphs].
  { inversion HF; subst. cbn [map List.concat vt fold_left]. rewrite zlen_nil. split; [exact R1|]. split; [exact W1|]. split; [exact H1|]. split; [exact Y1|].
    split; [|split].
    - intro Lt. unfold m1. cbn [set_rend e_wrap e_x]. destruct P5 as [P5 P6]; [lia|]. split; [exact P6|]. lia.
    - intros [|k] g0 E; [|destruct k; discriminate]. injection E as <-. rewrite G1, Z.add_0_r, !Z.eqb_refl. reflexivity.
    - intros X Y H. rewrite G1. destruct (Z.eqb_spec X (e_x m)), (Z.eqb_spec Y (e_y m)); cbn [andb]; try reflexivity. lia. }
  rewrite zlen_cons in Hfit, Zg. pose proof (zlen_nonneg _ glyphs) as Zg'. destruct P5 as [P5 P6]; [lia|].
  assert (X1 : e_x m1 = e_x m + 1 /\ e_wrap m1 = false) by (unfold m1; cbn [set_rend e_x e_wrap]; auto). destruct X1 as [X1 X2].
  destruct (IH m1 R1 X2) as [A [B [C [D [E [F G]]]]]]; [lia|rewrite W1, X1, zlen_cons; lia|]. rewrite X1, Y1, W1 in *. rewrite H1 in *.
  split; [exact A|]. split; [exact B|]. split; [exact C|]. split; [exact D|]. split; [|split].
  - intro Lt. destruct E as [E1 E2]; [lia|]. split; [exact E1|]. lia.
  - intros [|k] g0 Eg.
    + injection Eg as <-. rewrite G by lia. rewrite G1, Z.add_0_r, !Z.eqb_refl. reflexivity.
    + replace (e_x m + Z.of_nat (S k)) with (e_x m + 1 + Z.of_nat k) by lia. now apply F.
  - intros X Y H. pose proof (zlen_nonneg _ (g2 :: glyphs)). rewrite G by lia. rewrite G1. destruct (Z.eqb_spec X (e_x m)), (Z.eqb_spec Y (e_y m)); cbn [andb]; try reflexivity. lia.
Qed.
(** a cell without character, followed by a line feed *)
Lemma break_vt : forall e sh f fg bg m, shades e sh -> layer_ok false (Some fg) -> layer_ok true bg -> at_rest m -> e_y m < e_h m - 1 ->
  vt (drawn e (lead f, Some fg, bg) ++ [NL]) m = set_pos 0 (e_y m + 1) false m.
Proof.
  intros e sh f fg bg m Hsh Hf Hb [M1 [M2 M3]] Hy. unfold drawn.
  destruct (colors_body e sh (Some fg) bg (e_rend m) Hsh Hf Hb) as [P [N S]].
  match goal with |- context [str_eqb ?b []] => set (cs := b) in * end.
  assert (E : cs <> []) by (intro E; apply N in E; destruct E; discriminate). specialize (S E).
  rewrite (proj2 (str_eqb_neq cs [])) by exact E.
  replace ([27; 91] ++ cs ++ [109] ++ lead f ++ [27; 91; 48; 109]) with (csi_m cs ++ lead f ++ RESET) by (unfold csi_m; rewrite <- !app_assoc; reflexivity).
  rewrite !vt_app, vt_csi_m by auto. rewrite vt_lead by exact M1. rewrite vt_reset by exact M1. rewrite !set_rend2.
  replace (set_rend rend0 m) with m by (rewrite <- M2; symmetry; apply set_rend_id).
  cbn [vt fold_left]. unfold feed1. rewrite M1. change (NL =? 27) with false. change (NL =? 10) with true. cbv iota.
  unfold carriage_return, line_feed. cbn [set_pos e_y e_h e_x]. rewrite (proj2 (Z.ltb_lt (e_y m) (e_h m - 1))) by exact Hy. reflexivity.
Qed.

(** * The characters *)
Definition led (f : flags) (c : Z) : str := lead f ++ [c].
Lemma attribute_lead : forall f, (exists k, get_flag k f = true) -> exists b, lead f = (27 :: 91 :: b) ++ [109].
Proof.
  intros f [k Hk]. unfold lead, csi_or_empty. destruct (colorless_body f) as [|a b] eqn:E; [|exists (a :: b); reflexivity].
  apply colorless_nil in E. exfalso. assert (X : existsb (fun k => get_flag k f) all_flags = true); [|congruence].
  apply existsb_exists. exists k. split; [destruct k; cbn; tauto|exact Hk].
Qed.
Lemma styled_characters : forall e s u v z, (exists k, get_flag k (s_flags s) = true) -> s_reset s = true -> s_text s = u ++ NL :: v ++ [z] ->
  get_characters e s true true = map (led (s_flags s)) u ++ led (s_flags s) NL :: map (led (s_flags s)) v ++ [led (s_flags s) z ++ RESET].
Proof.
  intros e s u v z Hf Hr Ht. destruct (attribute_lead _ Hf) as [b Eb]. unfold get_characters. change (span_colorless s) with (lead (s_flags s)).
  assert (G : forall t, chars_init (lead (s_flags s)) true t = (map (led (s_flags s)) t, lead (s_flags s))).
  { intro t. induction t as [|c t IH]; [reflexivity|]. cbn [chars_init]. rewrite IH. reflexivity. }
  rewrite G. replace (u ++ NL :: v ++ [z]) with ((u ++ NL :: v) ++ [z]) in Ht by (rewrite <- app_assoc; reflexivity).
  rewrite Ht, rev_unit, removelast_last, Hr. assert (N : str_eqb (lead (s_flags s)) [] = false) by (apply str_eqb_neq; rewrite Eb; discriminate).
  rewrite N. cbn [negb andb]. rewrite map_app, <- app_assoc. cbn [map app]. replace (led (s_flags s) z ++ RESET) with (lead (s_flags s) ++ z :: RESET) by (unfold led; rewrite <- app_assoc; reflexivity). reflexivity.
Qed.
Lemma led_show : forall sh s c r, is_ctl c = false -> (r = [] \/ r = RESET) -> text_colors s ->
  shows sh (plain_cell (led (s_flags s) c ++ r, s)) (c, snd (painted sh (c, s))).
Proof.
  intros sh s c r Hc Hr [D3 D4]. unfold shows, plain_cell, painted. cbn [fst snd].
  split; [|split; [|split; [exact Hc|]]].
  - intros k E. injection E as <-. destruct (s_fg s) as [f|]; [now apply D3|]. split; [|reflexivity]. split; [|split; [reflexivity|exact Logic.I]].
    unfold color_ok, channel_ok, WHITE. cbn. lia.
  - intros k E. now apply D4.
  - exists (s_flags s), r. split; [unfold led; now rewrite <- app_assoc|]. split; [exact Hr|]. split; [|discriminate].
    cbn [shade_o option_map]. destruct (s_fg s), (s_bg s); reflexivity.
Qed.

(** * Written and drawn *)
Lemma run_items : forall s x y ds, keyed s -> ds <> [] -> (forall k d, nth_error ds k = Some d -> pending s (x + Z.of_nat k, y) = Some d) ->
  (forall q, ~ in_run x y (zlen ds) q -> pending s q = None) -> forall origin,
  let out := fst (render s origin false) in let run := move_to (x + fst origin) (y + snd origin) ++ List.concat ds in out = run \/ out = run ++ RESET.
Proof.
  intros s x y ds K Hne H1 H2 origin. cbv zeta.
  destruct (render_spec s origin K) as [items [Perm [Srt R]]]. destruct (render s origin false) as [out s']. destruct R as [_ [Hout _]]. cbn [fst].
  assert (B : forall q t, In (q, t) items <-> pending s q = Some t).
  { intros q t. unfold pending. rewrite ScreenProofs2.buf_get_in by exact K. split; intro H; [eapply Permutation_in; eauto|eapply Permutation_in; [apply Permutation_sym|]; eauto]. }
  destruct (run_sorted y (List.length ds) x items Srt) as [ds' [L E]].
  { intro q. rewrite in_map_iff. split.
    - intros [[q' t] [Eq Hq]]. cbn in Eq. subst q'. apply B in Hq.
      assert (Dc : in_run x y (zlen ds) q \/ ~ in_run x y (zlen ds) q) by (unfold in_run; lia). destruct Dc as [Dc|Dc]; [exact Dc|]. rewrite H2 in Hq by exact Dc. discriminate.
    - intros [Q1 Q2]. destruct (nth_error ds (Z.to_nat (fst q - x))) as [d|] eqn:Ed; [|apply nth_error_None in Ed; lia].
      exists (q, d). split; [reflexivity|]. apply B. apply H1 in Ed. replace (x + Z.of_nat (Z.to_nat (fst q - x)), y) with q in Ed by (destruct q; cbn in *; f_equal; lia). exact Ed. }
  assert (ED : ds' = ds).
  { apply nth_ext_error. intro k. destruct (nth_error ds' k) as [d|] eqn:Ed.
    - pose proof (row_items_nth _ y ds' x k d Ed) as Hi. rewrite <- E in Hi. apply B in Hi.
      destruct (nth_error ds k) as [d2|] eqn:E2; [apply H1 in E2; congruence|]. apply nth_error_None in E2. assert (nth_error ds' k <> None) as X by congruence. apply nth_error_Some in X. lia.
    - symmetry. apply nth_error_None. apply nth_error_None in Ed. lia. }
  subst ds'. destruct ds as [|d ds]; [congruence|]. rewrite E in Hout.
  change (emitted origin (row_items x y (d :: ds))) with (emit (fst origin) (snd origin) None (row_items x y (d :: ds))) in Hout. rewrite emit_run in Hout. exact Hout.
Qed.
Lemma misplaced : forall e sh c s sp u v x y tb force origin m, shades e sh -> cache_ok e c -> shaped s -> sc_off s = 0 -> sc_buf s = [] ->
  at_rest m -> fits (sc_w s) (sc_h s) origin m ->
  s_text sp = u ++ NL :: v -> printable u -> printable v -> v <> [] -> s_reset sp = true -> (exists k, get_flag k (s_flags sp) = true) -> text_colors sp ->
  0 <= x -> x + zlen (s_text sp) <= sc_w s -> 0 <= y < sc_h s -> y + snd origin < e_h m ->
  (forall X, 0 <= X < sc_w s -> exists t b, cell_at s (X, y) = Some (t, None, b)) ->
  let '(s', _, m') := fold_left (perform e origin) [AWrite [((x, y), [sp])] tb force; ADraw] (s, c, m) in
  let look c := (c, snd (painted sh (c, sp)), []) in
  (forall k g, nth_error u k = Some g -> seen origin m' (x + Z.of_nat k, y) = look g) /\
  (forall k g, nth_error v k = Some g -> e_grid m' (Z.of_nat k) (y + snd origin) = look g) /\
  (forall X Y, ~ (Y = y + snd origin - 1 /\ x + fst origin - 1 <= X < x + fst origin - 1 + zlen u) -> ~ (Y = y + snd origin /\ 0 <= X < zlen v) ->
     e_grid m' X Y = e_grid m X Y) /\
  (forall k g, nth_error v k = Some g -> exists r, (r = [] \/ r = RESET) /\
     cell_at s' (x + zlen u + 1 + Z.of_nat k, y) = Some (plain_cell (lead (s_flags sp) ++ g :: r, sp))) /\
  cell_at s' (x + zlen u, y) = Some (plain_cell (lead (s_flags sp), sp)) /\ at_rest m'.
Proof.
  intros e sh c s sp u v x y tb force origin m Hsh Hc Hs Hoff Hbuf Hm Hfit Ht Hu Hv Hvne Hr Hflag Hcol Hx Hw Hy Hbelow Hrow.
  destruct (exists_last Hvne) as [v0 [z Ev]]. subst v. rename v0 into v.
  pose proof (styled_characters e sp u v z Hflag Hr Ht) as EC. destruct (attribute_lead _ Hflag) as [b Eb].
  set (chars := get_characters e sp true true) in *. set (f := s_flags sp) in *.
  assert (Lc : zlen chars = zlen (s_text sp)) by apply characters_length.
  assert (Lt : zlen (s_text sp) = zlen u + 1 + zlen (v ++ [z])) by (rewrite Ht, zlen_app, zlen_cons; lia).
  pose proof (zlen_nonneg _ u) as Zu. pose proof (zlen_nonneg _ (v ++ [z])) as Zv.
  apply Forall_app in Hv. destruct Hv as [Hv Hz]. inversion Hz as [|? ? Hz' _]; subst.
  assert (Ho : opaque_span sp).
  { destruct Hcol as [H1 H2]. split; intros k E; [destruct (H1 k E) as [[_ [A _]] _]|destruct (H2 k E) as [[_ [A _]] _]]; exact A. }
  assert (NN : forall d, led f d <> [NL]) by (intros d X; unfold led in X; rewrite Eb in X; discriminate X).
  assert (Hn : Forall (fun ch => ch <> [NL]) chars).
  { rewrite EC. apply Forall_app. split; [apply Forall_map, Forall_forall; intros; apply NN|]. constructor; [apply NN|]. apply Forall_app.
    split; [apply Forall_map, Forall_forall; intros; apply NN|]. constructor; [|constructor]. unfold led. rewrite Eb. discriminate. }
  destruct (run_write e c s sp x y tb force Hc Hs Ho Hoff) as [s' [c' [EW [W1 [W2 [K [W3 [W4 W5]]]]]]]]; fold chars; auto; try lia.
  fold chars in EW, W3, W4, W5. cbn [fold_left perform]. rewrite EW. destruct (render s' origin false) as [out s2] eqn:R.
  assert (ES : sc_cells s2 = sc_cells s' ) by (unfold render in R; destruct origin; injection R as _ <-; reflexivity).
  assert (CA : forall q, cell_at s2 q = cell_at s' q) by (intro q; unfold cell_at; rewrite ES; reflexivity).
  (* the entries *)
  set (C := fun g r => plain_cell (led f g ++ r, sp)).
  assert (clean : forall g r, is_ctl g = false -> (r = [] \/ r = RESET) -> rstrip_by is_nl (led f g ++ r) = led f g ++ r /\ endswith [NL] (led f g ++ r) = false).
  { intros g r Hg [->| ->].
    - rewrite app_nil_r. unfold led. apply tail_clean. intros ->. discriminate Hg.
    - change RESET with ([27; 91; 48] ++ [109]). rewrite app_assoc. apply tail_clean. discriminate. }
  assert (broken : rstrip_by is_nl (led f NL) = lead f /\ endswith [NL] (led f NL) = true).
  { unfold led. rewrite endswith_char. split; [|reflexivity]. rewrite Eb. apply (rstrip_repeat 1). discriminate. }
  set (entry_of := fun ch => cell_entry e (plain_cell (rstrip_by is_nl ch, sp)) (endswith [NL] ch)).
  assert (En : forall g r, is_ctl g = false -> (r = [] \/ r = RESET) -> entry_of (led f g ++ r) = drawn e (C g r)).
  { intros g r Hg Hr'. unfold entry_of. destruct (clean g r Hg Hr') as [-> ->]. apply drawn_entry. }
  assert (Eb1 : entry_of (led f NL) = drawn e (plain_cell (lead f, sp)) ++ [NL]).
  { unfold entry_of. destruct broken as [-> ->]. rewrite <- drawn_entry. unfold cell_entry. destruct (plain_cell (lead f, sp)) as [[t1 f1] b1]. rewrite app_nil_r. reflexivity. }
  set (cu := map (fun g => C g []) u). set (cv := map (fun g => C g []) v ++ [C z RESET]).
  assert (EM : map entry_of chars = map (drawn e) cu ++ (drawn e (plain_cell (lead f, sp)) ++ [NL]) :: map (drawn e) cv).
  { assert (P : forall t, printable t -> map entry_of (map (led f) t) = map (drawn e) (map (fun g => C g []) t)).
    { intros t HP. rewrite !map_map. apply map_ext_in. intros g Hg. unfold printable in HP. rewrite Forall_forall in HP. specialize (HP g Hg). rewrite <- (app_nil_r (led f g)). now apply En; auto. }
    rewrite EC. rewrite map_app. cbn [map]. rewrite map_app. cbn [map]. rewrite (P u Hu), (P v Hv), Eb1, (En z RESET Hz') by auto.
    unfold cu, cv. rewrite map_app. reflexivity. }
  set (rd := snd (painted sh (0, sp))).
  assert (Fu : Forall2 (fun cl g => shows sh cl (g, rd)) cu u).
  { unfold cu. clear - Hu Hcol. induction Hu as [|g u Hg Hu IH]; [constructor|]. cbn [map]. constructor; [|exact IH]. apply led_show; auto. }
  assert (Fv : Forall2 (fun cl g => shows sh cl (g, rd)) cv (v ++ [z])).
  { unfold cv. apply Forall2_app; [|constructor; [apply led_show; auto|constructor]]. clear - Hv Hcol. induction Hv as [|g v Hg Hv IH]; [constructor|]. cbn [map]. constructor; [|exact IH]. apply led_show; auto. }
  (* the output *)
  destruct Hfit as [F1 [F2 [F3 F4]]].
  assert (OUT := run_items s' x y (map entry_of chars)). 
  assert (Zm : zlen (map entry_of chars) = zlen chars) by (unfold zlen; now rewrite map_length).
  specialize (OUT (K ltac:(unfold keyed; rewrite Hbuf; constructor))). assert (Hne : map entry_of chars <> []) by (rewrite EM; destruct (map (drawn e) cu); discriminate).
  specialize (OUT Hne). assert (Hp1 : forall k d, nth_error (map entry_of chars) k = Some d -> pending s' (x + Z.of_nat k, y) = Some d).
  { intros k d E. rewrite nth_error_map in E. destruct (nth_error chars k) as [ch|] eqn:Ek; [|discriminate]. cbn in E. injection E as <-. apply (W3 k ch Ek). }
  assert (Hp2 : forall q, ~ in_run x y (zlen (map entry_of chars)) q -> pending s' q = None).
  { intros q Hq. rewrite Zm in Hq. rewrite W5 by exact Hq. unfold pending. rewrite Hbuf. reflexivity. }
  specialize (OUT Hp1 Hp2 origin). rewrite R in OUT. cbn [fst] in OUT. cbv zeta in OUT.
  rewrite EM, concat_app in OUT. cbn [List.concat] in OUT.
  set (m1 := cup_to [y + snd origin; x + fst origin] m).
  assert (X0 : e_x m1 = x + fst origin - 1 /\ e_y m1 = y + snd origin - 1 /\ e_wrap m1 = false /\ e_grid m1 = e_grid m /\ e_w m1 = e_w m /\ e_h m1 = e_h m /\ at_rest m1).
  { unfold m1, cup_to, clampZ. cbn [nth set_pos e_x e_y e_wrap e_grid e_w e_h]. repeat match goal with |- _ /\ _ => split end; auto; try lia; try exact Hm. }
  destruct X0 as [X1 [X2 [X3 [X4 [X5 [X6 X7]]]]]].
  destruct (run_vt e sh rd u cu m1 Hsh Fu X7 X3) as [A1 [A2 [A3 [A4 [A5 [A6 A7]]]]]]; [lia|lia|]. set (m2 := vt (List.concat (map (drawn e) cu)) m1) in *.
  assert (Hc1 : layer_ok false (Some (match s_fg sp with Some c => c | None => WHITE end)) /\ layer_ok true (s_bg sp)).
  { destruct (led_show sh sp 65 [] eq_refl (or_introl eq_refl) Hcol) as [H1 [H2 _]]. auto. }
  assert (V2 : vt (drawn e (plain_cell (lead f, sp)) ++ [NL]) m2 = set_pos 0 (e_y m2 + 1) false m2).
  { unfold plain_cell. apply (break_vt e sh); auto; try (apply Hc1). rewrite A3, A4. lia. }
  set (m3 := set_pos 0 (e_y m2 + 1) false m2) in *.
  assert (R3 : at_rest m3) by exact A1.
  destruct (run_vt e sh rd (v ++ [z]) cv m3 Hsh Fv R3 eq_refl) as [B1 [B2 [B3 [B4 [B5 [B6 B7]]]]]]; [cbn; lia|change (e_x m3) with 0; change (e_w m3) with (e_w m2); lia|].
  set (m4 := vt (List.concat (map (drawn e) cv)) m3) in *. change (e_x m3) with 0 in *. assert (Y3 : e_y m3 = y + snd origin) by (unfold m3; cbn [set_pos e_y]; lia). rewrite Y3 in *.
  assert (FIN : e_grid (vt out m) = e_grid m4 /\ at_rest (vt out m)).
  { assert (RUN : vt (move_to (x + fst origin) (y + snd origin) ++ List.concat (map (drawn e) cu) ++ (drawn e (plain_cell (lead f, sp)) ++ [NL]) ++ List.concat (map (drawn e) cv)) m = m4).
    { rewrite vt_app. rewrite vt_move by (try lia; apply Hm). fold m1. rewrite vt_app. fold m2. rewrite vt_app, V2. reflexivity. }
    destruct OUT as [-> | ->].
    - rewrite RUN. auto.
    - rewrite vt_app, RUN. rewrite vt_reset by apply B1. split; [reflexivity|]. destruct B1 as [B11 [B12 B13]]. repeat split; auto. }
  destruct FIN as [FG FR]. cbn [perform]. rewrite R. cbv beta iota zeta. assert (RD : forall g, snd (painted sh (g, sp)) = rd) by reflexivity.
  split; [|split; [|split; [|split; [|split]]]].
  - intros k g E. unfold seen. cbn [fst snd]. rewrite FG, B7 by lia. change (e_grid m3) with (e_grid m2). rewrite RD.
    specialize (A6 k g E). rewrite X1, X2 in A6. replace (x + Z.of_nat k + fst origin - 1) with (x + fst origin - 1 + Z.of_nat k) by lia. exact A6.
  - intros k g E. rewrite FG, RD. exact (B6 k g E).
  - intros X Y H1 H2. rewrite FG, B7 by lia. change (e_grid m3) with (e_grid m2). rewrite A7 by lia. now rewrite X4.
  - intros k g E. assert (EK : exists r, (r = [] \/ r = RESET) /\ nth_error chars (List.length u + S k)%nat = Some (led f g ++ r) /\ is_ctl g = false).
    { rewrite EC. rewrite nth_error_app2 by (rewrite map_length; lia). rewrite map_length. replace (List.length u + S k - List.length u)%nat with (S k) by lia. cbn [nth_error].
      destruct (Nat.ltb_spec k (List.length v)) as [Lk|Lk].
      - rewrite nth_error_app1 in E by lia. exists []. split; [auto|]. rewrite nth_error_app1 by (rewrite map_length; lia). rewrite nth_error_map, E, app_nil_r. split; [reflexivity|].
        unfold printable in Hv. rewrite Forall_forall in Hv. apply Hv. eapply nth_error_In; eauto.
      - rewrite nth_error_app2 in E by lia. exists RESET. split; [auto|]. rewrite nth_error_app2 by (rewrite map_length; lia). rewrite map_length.
        destruct (k - List.length v)%nat as [|j]; [|destruct j; discriminate]. cbn in E. injection E as <-. split; [reflexivity|exact Hz']. }
    destruct EK as [r [Hr' [EK Hg]]]. exists r. split; [exact Hr'|]. rewrite CA. destruct (W3 _ _ EK) as [W31 _]. rewrite (proj1 (clean g r Hg Hr')) in W31.
    replace (x + zlen u + 1 + Z.of_nat k) with (x + Z.of_nat (List.length u + S k)) by (unfold zlen; lia). rewrite W31. unfold led. rewrite <- app_assoc. reflexivity.
  - rewrite CA. destruct (W3 (List.length u) (led f NL)) as [W31 _].
    { rewrite EC. rewrite nth_error_app2 by (rewrite map_length; lia). rewrite map_length, Nat.sub_diag. reflexivity. }
    rewrite (proj1 broken) in W31. exact W31.
  - exact FR.
Qed.

(** * Two lines *)
Lemma split_none : forall t, ~ In NL t -> split_on NL t = [t].
Proof.
  intros t. induction t as [|c t IH]; intro H; [reflexivity|]. cbn [split_on]. rewrite (proj2 (Z.eqb_neq c NL)) by (intros ->; apply H; now left).
  rewrite IH by (intro X; apply H; now right). reflexivity.
Qed.
Lemma split_two : forall a b, ~ In NL a -> ~ In NL b -> split_on NL (a ++ NL :: b) = [a; b].
Proof.
  intros a b Ha Hb. induction a as [|c a IH]; cbn [app split_on].
  - rewrite Z.eqb_refl, split_none by exact Hb. reflexivity.
  - rewrite (proj2 (Z.eqb_neq c NL)) by (intros ->; apply Ha; now left). rewrite IH by (intro X; apply Ha; now right). reflexivity.
Qed.
Lemma two_lines : forall e c s sp a b x y tb force, cache_ok e c -> sc_off s = 0 -> no_attribute sp -> s_text sp = a ++ NL :: b ->
  ~ In NL a -> ~ In NL b -> 0 <= x -> x + zlen a < sc_w s -> 0 <= y -> y + 1 < sc_h s ->
  let '(s1, _, r1) := write_bulk e c s [((x, y), [sp])] tb force in
  let '(s2, _, r2) := write_bulk e c s [((x, y), [with_text a sp]); ((x + zlen a, y + 1), [with_text b sp])] tb force in s1 = s2 /\ r1 = r2.
Proof.
  intros e c s sp a b x y tb force Hc Ho Hn Ht Ha Hb Hx Hw Hy Hh.
  assert (HF : Forall (text_entry (sc_h s)) [((x, y), [sp])]) by (constructor; [|constructor]; exists sp; cbn [fst snd]; repeat split; auto; lia).
  pose proof (lines_write e c c s _ tb force Hc Hc Ho HF) as L. pose proof (zlen_nonneg _ a) as Za.
  assert (ES : flat_map (entry_stairs (sc_w s) (sc_h s)) [((x, y), [sp])] = [((x, y), [with_text a sp]); ((x + zlen a, y + 1), [with_text b sp])]).
  { cbn [flat_map]. unfold entry_stairs. cbn [flat_map fst snd]. rewrite !app_nil_r, Ht, split_two by assumption. cbn [stairs].
    rewrite (proj2 (inside_iff (sc_w s) (sc_h s) (x, y))) by (cbn [fst snd]; lia).
    assert (EB : below_end (sc_w s) (x, y) a = (x + zlen a, y + 1)).
    { unfold below_end. cbn [fst snd]. rewrite <- Z.add_assoc. destruct (cell_number (sc_w s) (x + zlen a) y ltac:(lia)) as [-> ->]. reflexivity. }
    rewrite EB, (proj2 (inside_iff (sc_w s) (sc_h s) (x + zlen a, y + 1))) by (cbn [fst snd]; lia). reflexivity. }
  rewrite ES in L. destruct (write_bulk e c s [((x, y), [sp])] tb force) as [[s1 c1] r1]. destruct (write_bulk e c s _ tb force) as [[s2 c2] r2].
  destruct L as [L1 [L2 _]]. auto.
Qed.
