(** What the terminal shows after a write below the last row. *)
From Coq Require Import ZArith Reals List Bool Lia Permutation Sorting.Sorted.
From Verif Require Import PyBase PyLemmas F64 SpaceModel ColorModel ColorSpec ColorProofs AnsiRe SpanModel Vt SpanSpec
  SpanProofs SpanProofs2 ScreenModel ScreenSpec ScreenProofs ScreenProofs2 ScreenProofs3 ScreenProofs4 ScreenProofs5 ScreenProofs6 ScreenProofs7 ScreenProofs8 DrawSpec DrawProofs
  DrawProofs2 DrawProofs3 ScrollProofs.
Import ListNotations.
Open Scope Z_scope.

Lemma emit_cons : forall ox oy prev q t items,
  emit ox oy prev ((q, t) :: items) = ((if follows prev q then [] else move_to (fst q + ox) (snd q + oy)) ++ t) ++ emit ox oy (Some q) items.
Proof. reflexivity. Qed.
Lemma emit_snoc : forall ox oy q t u l prev, emit ox oy prev (l ++ [(q, t ++ u)]) = emit ox oy prev (l ++ [(q, t)]) ++ u.
Proof.
  intros ox oy q t u l. induction l as [|[q' t'] l IH]; intro prev; cbn [app].
  - rewrite !emit_cons. change (emit ox oy (Some q) []) with (@nil Z). rewrite !app_nil_r, app_assoc. reflexivity.
  - rewrite !emit_cons, IH, app_assoc. reflexivity.
Qed.
Lemma sorted_last : forall (R : pos * str -> pos * str -> Prop) l a b, StronglySorted R (l ++ [a]) -> In b l -> R b a.
Proof.
  intros R l a b H. induction l as [|c l IH]; intro Hi; [contradiction|]. cbn [app] in H. inversion H as [|? ? H1 H2]; subst.
  destruct Hi as [<-|Hi]; [|auto]. rewrite Forall_forall in H2. apply H2. apply in_app_iff. right. now left.
Qed.

(** the text of [sp] over what was there *)
Definition text_at (sh : triple -> ecolor) (x row : Z) (sp : span) (q : pos) : option (Z * rend) :=
  option_map (fun g => painted sh (g, sp)) (row_nth x row (s_text sp) q).
Definition over_text (sh : triple -> ecolor) (x row : Z) (sp : span) (old : pos -> ecell) (q : pos) : ecell :=
  match text_at sh x row sp q with Some v => (fst v, snd v, []) | None => old q end.

Lemma scroll_step : forall e sh w h origin s c m1 sp x y tb force, shades e sh ->
  sc_w s = w -> sc_h s = h -> shaped s -> keyed s -> tainted e c -> sc_buf s = [] -> at_rest m1 -> fits w h origin m1 ->
  drawable sp -> s_text sp <> [] -> 0 <= x -> x + zlen (s_text sp) <= w -> 0 < h -> h + sc_off s <= y ->
  exists s' c', write_bulk e c s [((x, y), [sp])] tb force = (s', c', Ok (zlen (s_text sp))) /\ scrolled e sp x y s s' /\ tainted e c' /\
  let m' := vt (fst (render s' origin false)) m1 in
  at_rest m' /\ e_w m' = e_w m1 /\ e_h m' = e_h m1 /\
  (snd origin - 1 + h < e_h m1 -> forall q, on_screen w h q -> seen origin m' q = over_text sh x (h - 1) sp (seen origin m1) q) /\
  (snd origin - 1 + h = e_h m1 ->
     (forall q, on_screen w (h - 1) q -> seen origin m' q = over_text sh x (h - 1) sp (seen origin m1) (fst q, snd q + 1)) /\
     (forall X, 0 <= X < w -> seen origin m' (X, h - 1) = eblank)).
Proof.
  intros e sh w h origin s c m1 sp x y tb force Hsh I1 I2 I3 I5 I6 B I7 Hf Hd Hne Hx Hw Hh Hy.
  assert (Hnl : ~ In NL (s_text sp)).
  { intro Hi. destruct Hd as [Hp _]. unfold printable in Hp. rewrite Forall_forall in Hp. specialize (Hp _ Hi). discriminate. }
  destruct (scroll_write_tainted e c s sp x y tb force I6 I3 (drawable_opaque _ Hd) (drawable_fine _ Hd) Hnl Hne Hx) as [s' [c' [E [S T]]]];
    [rewrite I1; exact Hw|rewrite I2; exact Hh|rewrite I2; lia|].
  exists s', c'. split; [exact E|]. split; [exact S|]. split; [exact T|]. clear E T. cbv zeta.
  set (p := fun q => match text_at sh x (h - 1) sp q with Some v => v | None => (0, rend0) end).
  destruct S as [_ _ _ S4 _ _ _ S8 S9]. specialize (S4 I5). rewrite I2 in S8, S9.
  pose proof (characters_length e sp true true) as L. set (chars := get_characters e sp true true) in *.
  set (len := zlen (s_text sp)) in *.
  assert (Hlen : 0 < len) by (unfold len; destruct (s_text sp); [congruence|rewrite zlen_cons; unfold zlen; lia]).
  (* the picture of the text *)
  assert (Pt : forall k ch, nth_error chars k = Some ch -> shows sh (plain_cell (ch, sp)) (p (x + Z.of_nat k, h - 1))).
  { intros k ch Ek. pose proof (span_glyphs e sp Hd) as F. fold chars in F.
    assert (Hk : (k < List.length chars)%nat) by (apply nth_error_Some; congruence).
    destruct (nth_error (s_text sp) k) as [g|] eqn:Eg; [|apply nth_error_None in Eg; unfold len, zlen in *; lia].
    assert (Gp : glyph_piece (ch, sp) (g, sp)).
    { assert (X : forall l l' j a b, Forall2 glyph_piece l l' -> nth_error l j = Some a -> nth_error l' j = Some b -> glyph_piece a b).
      { intros l l' j a b HF. revert j. induction HF as [|u v l l' R1 R2 IH]; intros [|j] E1 E2; try discriminate.
        - injection E1 as <-. injection E2 as <-. exact R1.
        - exact (IH j E1 E2). }
      apply (X _ _ k _ _ F); [exact (map_nth_error (fun c0 => (c0, sp)) k chars Ek)|exact (map_nth_error (fun c0 => (c0, sp)) k (s_text sp) Eg)]. }
    unfold p, text_at, row_nth. cbn [fst snd]. rewrite Z.eqb_refl, (proj2 (Z.leb_le x (x + Z.of_nat k))) by lia.
    cbn [andb]. replace (Z.to_nat (x + Z.of_nat k - x)) with k by lia. rewrite Eg. cbn [option_map].
    now apply piece_shows. }
  assert (Pn : forall q, ~ (snd q = h - 1 /\ x <= fst q < x + len) -> text_at sh x (h - 1) sp q = None).
  { intros q Hq. unfold text_at. destruct (row_nth _ _ _ q) as [a|] eqn:Er; [|reflexivity].
    exfalso. apply row_nth_in in Er. apply Hq. exact Er. }
  assert (Py : forall q, snd q = h - 1 /\ x <= fst q < x + len -> text_at sh x (h - 1) sp q = Some (p q)).
  { intros q [D1 D2]. unfold p. destruct (text_at sh x (h - 1) sp q) as [v|] eqn:Ev; [reflexivity|]. exfalso.
    unfold text_at, row_nth in Ev. rewrite (proj2 (Z.eqb_eq _ _) D1), (proj2 (Z.leb_le x (fst q))) in Ev by lia. cbn [andb] in Ev.
    destruct (nth_error (s_text sp) (Z.to_nat (fst q - x))) eqn:En; [discriminate|]. apply nth_error_None in En. unfold len, zlen in *. lia. }
  (* what is pending *)
  assert (Pend : forall q t, pending s' q = Some t -> exists k ch, nth_error chars k = Some ch /\ q = (x + Z.of_nat k, h - 1) /\
     t = drawn e (plain_cell (ch, sp)) ++ (if Z.of_nat k =? len - 1 then [NL] else [])).
  { intros q t Eq. assert (Dc : (snd q = h - 1 /\ x <= fst q < x + len) \/ ~ (snd q = h - 1 /\ x <= fst q < x + len)) by lia.
    destruct Dc as [[D1 D2]|Dc].
    - destruct (nth_error chars (Z.to_nat (fst q - x))) as [ch|] eqn:Ek; [|apply nth_error_None in Ek; unfold len, zlen in *; lia].
      assert (Eqq : q = (x + Z.of_nat (Z.to_nat (fst q - x)), h - 1)) by (destruct q; cbn in *; f_equal; lia).
      exists (Z.to_nat (fst q - x)), ch. split; [exact Ek|]. split; [exact Eqq|]. rewrite (f_equal (pending s') Eqq), (S8 _ ch Ek) in Eq. congruence.
    - rewrite (S9 q Dc) in Eq. unfold pending in Eq. rewrite B in Eq. discriminate. }
  destruct (render_spec s' origin S4) as [items [Perm [Sorted R]]].
  destruct (render s' origin false) as [out s''] eqn:Er. destruct R as [_ [Hout _]]. cbn [fst].
  assert (Nd : NoDup (map fst items)).
  { apply (Permutation_NoDup (l := map fst (sc_buf s'))); [apply Permutation_map, Permutation_sym, Perm|exact S4]. }
  assert (Itm : forall q t, In (q, t) items -> pending s' q = Some t).
  { intros q t Hi. unfold pending. apply (in_buf_get w h origin (e_grid m1) (e_w m1) (e_h m1) Hf); [exact S4|eapply Permutation_in; eauto]. }
  assert (Itm' : forall q t, pending s' q = Some t -> In (q, t) items).
  { intros q t Hi. unfold pending in Hi. apply buf_get_in in Hi. eapply Permutation_in; [apply Permutation_sym|]; eauto. }
  (* the last item *)
  destruct (nth_error chars (Z.to_nat (len - 1))) as [chl|] eqn:El; [|apply nth_error_None in El; unfold len, zlen in *; lia].
  set (ql := (x + len - 1, h - 1)). set (tl := drawn e (plain_cell (chl, sp))).
  assert (Pl : pending s' ql = Some (tl ++ [NL])).
  { pose proof (S8 _ _ El) as X. rewrite Z2Nat.id in X by lia. rewrite Z.eqb_refl in X. unfold ql. replace (x + len - 1) with (x + (len - 1)) by lia. exact X. }
  assert (Ei : exists l, items = l ++ [(ql, tl ++ [NL])]).
  { assert (Hni : items <> []) by (intro Ez; specialize (Itm' _ _ Pl); rewrite Ez in Itm'; contradiction).
    destruct (exists_last Hni) as [l [[qa ta] El']]. exists l. rewrite El'. do 2 f_equal.
    assert (Hq : In (ql, tl ++ [NL]) items) by (apply Itm'; exact Pl).
    rewrite El' in Hq. apply in_app_iff in Hq. destruct Hq as [Hq|[Hq|[]]]; [exfalso|exact Hq].
    assert (Ab : above ql qa) by (rewrite El' in Sorted; exact (sorted_last _ _ _ _ Sorted Hq)).
    assert (Hqa : pending s' qa = Some ta) by (apply Itm; rewrite El'; apply in_app_iff; right; now left).
    destruct (Pend _ _ Hqa) as [k [ch [Ek [-> _]]]]. assert (Hk : (k < List.length chars)%nat) by (apply nth_error_Some; congruence).
    unfold above, ql in Ab. cbn [fst snd] in Ab. unfold len, zlen in *. lia. }
  destruct Ei as [l Ei].
  set (items' := l ++ [(ql, tl)]).
  assert (Keys : map fst items' = map fst items) by (unfold items'; rewrite Ei, !map_app; reflexivity).
  assert (Hi : Forall (shows_item e sh w h p) items').
  { unfold items'. apply Forall_app. split.
    - apply Forall_forall. intros [q t] Hi. assert (Hq : pending s' q = Some t) by (apply Itm; rewrite Ei; apply in_app_iff; now left).
      destruct (Pend _ _ Hq) as [k [ch [Ek [-> Et]]]]. assert (Hk : (k < List.length chars)%nat) by (apply nth_error_Some; congruence).
      destruct (Z.of_nat k =? len - 1) eqn:Elast.
      + exfalso. apply Z.eqb_eq in Elast. rewrite <- Keys in Nd. unfold items' in Nd. rewrite map_app in Nd. cbn [map fst] in Nd.
        apply NoDup_remove_2 in Nd. rewrite app_nil_r in Nd. apply Nd. apply in_map_iff. exists ((x + Z.of_nat k, h - 1), t). split; [|exact Hi].
        unfold ql. cbn [fst]. f_equal. lia.
      + rewrite app_nil_r in Et. split; [unfold on_screen; cbn [fst snd]; unfold len, zlen in *; lia|]. exists (plain_cell (ch, sp)). split; [exact Et|now apply Pt].
    - constructor; [|constructor]. split; [unfold on_screen, ql; cbn [fst snd]; lia|]. exists (plain_cell (chl, sp)). split; [reflexivity|].
      pose proof (Pt _ _ El) as X. rewrite Z2Nat.id in X by lia. cbn [fst]. unfold ql. replace (x + len - 1) with (x + (len - 1)) by lia. exact X. }
  assert (Hfm : fits w h (fst origin, snd origin) m1).
  { exact Hf. }
  rewrite <- Keys in Nd.
  destruct (draw_items e sh w h (fst origin) (snd origin) Hsh p items' None m1 Hi Nd I7 Hfm) as [R1 [R2 [R3 [RY [R4 R5]]]]].
  { intros p0 Hp. discriminate. }
  specialize (RY l ql tl eq_refl). cbn [snd ql] in RY.
  assert (Em : emitted origin items = emit (fst origin) (snd origin) None items' ++ [NL]).
  { rewrite Ei. exact (emit_snoc (fst origin) (snd origin) ql tl [NL] l None). }
  set (m2 := vt (emit (fst origin) (snd origin) None items') m1) in *.
  set (m3 := line_feed (carriage_return m2)).
  assert (V3 : vt (emitted origin items) m1 = m3).
  { rewrite Em, vt_app. fold m2. destruct R1 as [Q1 _]. unfold vt. cbn [fold_left]. unfold feed1. rewrite Q1. reflexivity. }
  assert (V : e_grid (vt out m1) = e_grid m3).
  { destruct Hout as [-> | ->]; [now rewrite V3|]. rewrite vt_app, V3. change [27; 91; 48; 109] with RESET.
    rewrite vt_reset; [reflexivity|]. unfold m3, line_feed, carriage_return. destruct (_ <? _); cbn; apply R1. }
  assert (A3 : e_parse m3 = PGround /\ e_rend m3 = rend0 /\ e_link m3 = [] /\ e_w m3 = e_w m1 /\ e_h m3 = e_h m1).
  { unfold m3, line_feed, carriage_return. destruct R1 as [Q1 [Q2 Q3]]. destruct (_ <? _); cbn; auto. }
  assert (AR : at_rest (vt out m1) /\ e_w (vt out m1) = e_w m1 /\ e_h (vt out m1) = e_h m1).
  { destruct A3 as [Q1 [Q2 [Q3 [Q4 Q5]]]]. destruct Hout as [-> | ->]; [rewrite V3; repeat split; auto|]. rewrite vt_app, V3. change [27; 91; 48; 109] with RESET.
    rewrite vt_reset by exact Q1. repeat split; auto. }
  split; [apply AR|]. split; [apply AR|]. split; [apply AR|]. clear A3 AR.
  (* the terminal before the line feed *)
  assert (SEEN : forall q, on_screen w h q -> seen origin m2 q = over_text sh x (h - 1) sp (seen origin m1) q).
  { intros q Hq. assert (Dc : In q (map fst items') \/ ~ In q (map fst items')).
    { destruct (pending s' q) as [t|] eqn:Ep.
      - left. rewrite Keys. apply in_map_iff. exists (q, t). split; auto.
      - right. rewrite Keys. intro Hin. apply in_map_iff in Hin. destruct Hin as [[q' t] [Eq Hin]]. cbn in Eq. subst q'. apply Itm in Hin. congruence. }
    unfold over_text. destruct Dc as [Hin|Hno].
    - rewrite Py; [destruct origin; exact (R4 q Hin)|]. rewrite Keys in Hin. apply in_map_iff in Hin. destruct Hin as [[q' t] [Eq Hin]]. cbn in Eq. subst q'.
      destruct (Pend _ _ (Itm _ _ Hin)) as [k [ch [Ek [-> _]]]]. cbn [fst snd]. assert (Hk : (k < List.length chars)%nat) by (apply nth_error_Some; congruence).
      unfold len, zlen in *. lia.
    - assert (Eq : (fst q + fst origin - 1 - fst origin + 1, snd q + snd origin - 1 - snd origin + 1) = q) by (destruct q; cbn; f_equal; lia).
      unfold seen. rewrite R5 by (rewrite Eq; exact Hno).
      rewrite Pn; [reflexivity|].
      intros [D1 D2]. apply Hno. destruct (nth_error chars (Z.to_nat (fst q - x))) as [ch|] eqn:Ek; [|apply nth_error_None in Ek; unfold len, zlen in *; lia].
      assert (Eqq : q = (x + Z.of_nat (Z.to_nat (fst q - x)), h - 1)) by (destruct q; cbn in *; f_equal; lia).
      pose proof (S8 _ _ Ek) as Ep. rewrite <- Eqq in Ep. rewrite Keys. apply in_map_iff. eexists (q, _). split; [reflexivity|]. apply Itm'. exact Ep. }
  assert (H1 : e_h m2 = e_h m1) by exact R3.
  assert (Y2 : e_y m2 = h - 1 + snd origin - 1) by exact RY.
  unfold fits in Hf. change (fun q => seen origin m1 q) with (seen origin m1). unfold seen at 1 3 5. rewrite V. split.
  - intros Hlt q Hq. unfold m3, line_feed. cbn [carriage_return set_pos e_y e_h].
    rewrite (proj2 (Z.ltb_lt (e_y m2) (e_h m2 - 1))) by lia. cbn. exact (SEEN q Hq).
  - intro Heq. assert (Eg : forall X Y, e_grid m3 X Y = if Y =? e_h m2 - 1 then eblank else e_grid m2 X (Y + 1)).
    { intros X Y. unfold m3, line_feed. cbn [carriage_return set_pos e_y e_h]. rewrite (proj2 (Z.ltb_ge (e_y m2) (e_h m2 - 1))) by lia. reflexivity. }
    split.
    + intros q [Q1 Q2]. rewrite Eg. rewrite (proj2 (Z.eqb_neq (snd q + snd origin - 1) (e_h m2 - 1))) by lia.
      rewrite <- SEEN by (unfold on_screen; cbn [fst snd]; lia). unfold seen. cbn [fst snd]. f_equal. lia.
    + intros X HX. rewrite Eg. cbn [fst snd]. rewrite (proj2 (Z.eqb_eq (h - 1 + snd origin - 1) (e_h m2 - 1))) by lia. reflexivity.
Qed.

Lemma scrolling : forall e sh w h cursor fill origin m acts sp x y tb force, shades e sh -> is_ctl fill = false ->
  at_rest m -> fits w h origin m -> Forall (act_ok w h) acts ->
  drawable sp -> s_text sp <> [] -> 0 <= x -> x + zlen (s_text sp) <= w -> 0 < h -> h <= y ->
  let '(s, c, m1) := fold_left (perform e origin) (acts ++ [ADraw]) (new_screen w h cursor [fill], [], m) in
  let p := paint_act sh w h (fold_left (paint_act sh w h) acts (blank fill)) (AWrite [((x, h - 1), [sp])] tb force) in
  let '(s', _, _) := write_bulk e c s [((x, y), [sp])] tb force in
  let m' := vt (fst (render s' origin false)) m1 in
  (snd origin - 1 + h < e_h m -> forall q, on_screen w h q -> seen origin m' q = (fst (p q), snd (p q), [])) /\
  (snd origin - 1 + h = e_h m ->
     (forall q, on_screen w (h - 1) q -> seen origin m' q = (fst (p (fst q, snd q + 1)), snd (p (fst q, snd q + 1)), [])) /\
     (forall X, 0 <= X < w -> seen origin m' (X, h - 1) = eblank)).
Proof.
  intros e sh w h cursor fill origin m acts sp x y tb force Hsh Hfill Hm Hf Ha Hd Hne Hx Hw Hh Hy.
  assert (I0 : inv e sh w h origin (e_grid m) (e_w m) (e_h m) never (new_screen w h cursor [fill], [], m) (blank fill)) by (apply inv_start; auto).
  assert (Ha' : Forall (act_ok w h) (acts ++ [ADraw])) by (apply Forall_app; split; [exact Ha|repeat constructor]).
  pose proof (inv_run e sh w h origin (e_grid m) (e_w m) (e_h m) Hsh Hf _ _ _ I0 Ha') as I1.
  assert (EP : fold_left (paint_act sh w h) (acts ++ [ADraw]) (blank fill) = fold_left (paint_act sh w h) acts (blank fill))
    by (rewrite fold_left_app; reflexivity).
  rewrite EP in I1. clear EP. set (P := fold_left (paint_act sh w h) acts (blank fill)) in *.
  assert (B : sc_buf (fst (fst (fold_left (perform e origin) (acts ++ [ADraw]) (new_screen w h cursor [fill], [], m)))) = []).
  { rewrite fold_left_app. cbn [fold_left]. destruct (fold_left (perform e origin) acts _) as [[s0 c0] m0]. cbn [perform].
    unfold render. destruct origin. reflexivity. }
  destruct (fold_left (perform e origin) (acts ++ [ADraw]) _) as [[s c] m1]. cbv zeta. cbn [fst snd] in B.
  destruct I1 as [I1 I2 I3 I4 I5 I6 I7 I8 I9 I10 I11 I12]. cbn [fst snd] in *.
  assert (Hf1 : fits w h origin m1) by (unfold fits in *; destruct I8 as [-> ->]; exact Hf).
  destruct (scroll_step e sh w h origin s c m1 sp x y tb force Hsh I1 I2 I3 I5 (ok_tainted _ _ I6) B I7 Hf1 Hd Hne Hx Hw Hh) as [s' [c' [E [_ [_ [_ [_ [_ [G1 G2]]]]]]]]];
    [rewrite I4; lia|].
  rewrite E. destruct I8 as [_ I8]. rewrite I8 in G1, G2.
  set (p := paint_act sh w h P (AWrite [((x, h - 1), [sp])] tb force)).
  assert (Sp : flat_map (spots w h) [((x, h - 1), [sp])] = row_items x (h - 1) (map (fun g => (g, sp)) (s_text sp))).
  { cbn [flat_map spots]. assert (Hlen : 0 < zlen (s_text sp)) by (destruct (s_text sp); [congruence|rewrite zlen_cons; unfold zlen; lia]).
    rewrite (proj2 (Z.leb_le 0 x)), (proj2 (Z.ltb_lt x w)), (proj2 (Z.leb_le 0 (h - 1))), (proj2 (Z.ltb_lt (h - 1) h)) by lia.
    cbn [andb]. rewrite app_nil_r. unfold glyphs. cbn [flat_map]. rewrite app_nil_r. apply number_row; try lia.
    unfold zlen in *. rewrite map_length. lia. }
  assert (O : forall q, on_screen w h q -> over_text sh x (h - 1) sp (seen origin m1) q = (fst (p q), snd (p q), [])).
  { intros q Hq. unfold over_text, text_at, p. cbn [paint_act]. rewrite Sp, covering_row.
    assert (Er : row_nth x (h - 1) (map (fun g => (g, sp)) (s_text sp)) q = option_map (fun g => (g, sp)) (row_nth x (h - 1) (s_text sp) q)).
    { unfold row_nth. destruct (_ && _); [apply nth_error_map|reflexivity]. }
    rewrite Er. destruct (row_nth x (h - 1) (s_text sp) q) as [g|]; [reflexivity|]. cbn [option_map opt_list rev].
    destruct (I11 q Hq) as [A|[[] _]]; [unfold pending; rewrite B; reflexivity|exact A]. }
  split.
  - intros Hlt q Hq. rewrite (G1 Hlt q Hq). now apply O.
  - intro Heq. destruct (G2 Heq) as [G3 G4]. split; [|exact G4]. intros q Hq. rewrite (G3 q Hq). apply O.
    unfold on_screen in *. cbn [fst snd]. lia.
Qed.
