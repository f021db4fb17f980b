(** Wide characters: where the text of a write appears. *)
From Coq Require Import ZArith Reals List Bool Lia String Permutation Sorting.Sorted.
From Verif Require Import PyBase PyLemmas F64 SpaceModel ColorModel ColorSpec ColorProofs AnsiRe SpanModel Vt SpanSpec
  SpanProofs SpanProofs2 ScreenModel ScreenSpec ScreenProofs ScreenProofs2 ScreenProofs3 ScreenProofs4 ScreenProofs5 ScreenProofs6 ScreenProofs7 ScreenProofs8 DrawSpec DrawProofs DrawProofs2
  ScrollProofs WideSpec WideProofs WideProofs2.
Import ListNotations.
Open Scope Z_scope.

(** * A sorted run *)
Lemma run_sorted : forall y n x (items : list (pos * str)), StronglySorted (fun a b => above (fst a) (fst b)) items ->
  (forall q, In q (map fst items) <-> snd q = y /\ x <= fst q < x + Z.of_nat n) ->
  exists ds, List.length ds = n /\ items = row_items x y ds.
Proof.
  intros y n. induction n as [|n IH]; intros x items Hs H.
  - exists []. split; [reflexivity|]. destruct items as [|i items]; [reflexivity|]. exfalso.
    destruct (proj1 (H (fst i)) (or_introl eq_refl)). lia.
  - assert (H0 : In (x, y) (map fst items)) by (apply H; cbn [fst snd]; lia).
    destruct items as [|[q d] items]; [contradiction|]. inversion Hs as [|? ? S1 S2]; subst.
    assert (Eq : q = (x, y)).
    { destruct H0 as [E|E]; [exact E|]. exfalso. apply in_map_iff in E. destruct E as [i [Ei Hi]].
      rewrite Forall_forall in S2. specialize (S2 i Hi). cbn [fst] in S2. rewrite Ei in S2.
      destruct (proj1 (H q) (or_introl eq_refl)) as [Q1 Q2]. unfold above in S2. cbn [fst snd] in S2. lia. }
    subst q. destruct (IH (x + 1) items S1) as [ds [L ->]].
    { intro q. specialize (H q). cbn [map fst] in H. split.
      - intro Hi. destruct (proj1 H (or_intror Hi)) as [Q1 Q2]. apply in_map_iff in Hi. destruct Hi as [i [Ei Hi]].
        rewrite Forall_forall in S2. specialize (S2 i Hi). cbn [fst] in S2. rewrite Ei in S2. unfold above in S2. cbn [fst snd] in S2. lia.
      - intros [Q1 Q2]. destruct (proj2 H) as [E|E]; [lia|subst q; cbn [fst] in Q2; lia|exact E]. }
    exists (d :: ds). split; [cbn; congruence|reflexivity].
Qed.
Lemma emit_go : forall ox oy y ds x, emit ox oy (Some (x - 1, y)) (row_items x y ds) = List.concat ds.
Proof.
  intros ox oy y ds. induction ds as [|d ds IH]; intro x; [reflexivity|].
  cbn [row_items]. unfold emit. cbn [map combine List.concat fst snd].
  assert (F : follows (Some (x - 1, y)) (x, y) = true) by (unfold follows; cbn [fst snd]; rewrite Z.eqb_refl; rewrite (proj2 (Z.eqb_eq x (x - 1 + 1))) by lia; reflexivity).
  rewrite F. cbn [app]. f_equal. specialize (IH (x + 1)). replace (x + 1 - 1) with x in IH by lia. exact IH.
Qed.
Lemma emit_run : forall ox oy y d ds x, emit ox oy None (row_items x y (d :: ds)) = move_to (x + ox) (y + oy) ++ List.concat (d :: ds).
Proof.
  intros. cbn [row_items]. unfold emit. cbn [map combine List.concat fst snd follows]. rewrite <- app_assoc. f_equal. f_equal.
  pose proof (emit_go ox oy y ds (x + 1)) as E. replace (x + 1 - 1) with x in E by lia. exact E.
Qed.
Lemma row_items_nth : forall A y (l : list A) x k a, nth_error l k = Some a -> In ((x + Z.of_nat k, y), a) (row_items x y l).
Proof.
  intros A y l. induction l as [|b l IH]; intros x [|k] a E; cbn [nth_error] in E; try discriminate.
  - injection E as <-. left. repeat f_equal. lia.
  - right. replace (x + Z.of_nat (S k)) with (x + 1 + Z.of_nat k) by lia. now apply IH.
Qed.

Lemma drawn_run : forall wd e sh w h cursor fill origin m acts x y sp tb force,
  terminal_widths wd -> shades e sh -> is_ctl fill = false -> at_rest m -> fits w h origin m -> Forall (act_ok w h) acts ->
  0 <= x -> 0 <= y < h -> x + zlen (s_text sp) <= w -> fine tb -> drawable sp ->
  fst origin - 1 + x + advance wd (s_text sp) <= e_w m ->
  let p := fold_left (paint_act sh w h) acts (blank fill) in
  (forall k c, nth_error (s_text sp) k = Some c -> painted sh (c, sp) <> p (x + Z.of_nat k, y)) ->
  let '(s1, c1, m1) := fold_left (performw wd e origin) (acts ++ [ADraw]) (new_screen w h cursor [fill], [], m) in
  let '(_, _, m2) := fold_left (performw wd e origin) [AWrite [((x, y), [sp])] tb force; ADraw] (s1, c1, m1) in
  let X := x + fst origin - 1 in let Y := y + snd origin - 1 in
  (forall k c, nth_error (s_text sp) k = Some c -> wd c <> 0 ->
     e_grid m2 (X + advance wd (firstn k (s_text sp))) Y = (c, snd (painted sh (c, sp)), []) /\
     (wd c = 2 -> e_grid m2 (X + advance wd (firstn k (s_text sp)) + 1) Y = (TAIL, snd (painted sh (c, sp)), []))) /\
  (forall X' Y', ~ (Y' = Y /\ X <= X' < X + advance wd (s_text sp)) -> e_grid m2 X' Y' = e_grid m1 X' Y').
Proof.
  intros wd e sh w h cursor fill origin m acts x y sp tb force Hwd Hsh Hfill Hm Hf Ha Hx Hy Hw Ht Hd Hroom p Hdiff.
  set (k0 := (new_screen w h cursor [fill], @nil (cache_key * list str), m)).
  assert (I0 : inv e sh w h origin (e_grid m) (e_w m) (e_h m) never k0 (blank fill)) by (apply inv_start; auto).
  assert (Ha' : Forall (act_ok w h) (acts ++ [ADraw])) by (apply Forall_app; split; [exact Ha|repeat constructor]).
  destruct (run_w wd e sh w h origin (e_grid m) (e_w m) (e_h m) Hwd Hsh Hf (acts ++ [ADraw]) k0 _ m I0 Ha' Hm eq_refl eq_refl) as [m1 [E1 [R1 [W1 [H1 _]]]]].
  pose proof (inv_run e sh w h origin (e_grid m) (e_w m) (e_h m) Hsh Hf (acts ++ [ADraw]) k0 _ I0 Ha') as I1.
  assert (EP : fold_left (paint_act sh w h) (acts ++ [ADraw]) (blank fill) = p) by (rewrite fold_left_app; reflexivity).
  rewrite EP in I1.
  assert (B : sc_buf (fst (fst (fold_left (perform e origin) (acts ++ [ADraw]) k0))) = []).
  { rewrite fold_left_app. cbn [fold_left]. destruct (fold_left (perform e origin) acts k0) as [[s c] m0]. cbn [perform]. unfold render. destruct origin. reflexivity. }
  set (k1 := fold_left (perform e origin) (acts ++ [ADraw]) k0) in *.
  change (fst k0) with (new_screen w h cursor [fill], @nil (cache_key * list str)) in E1.
  match goal with |- match ?f with pair _ _ => _ end => assert (EE : f = (fst k1, m1)) by exact E1 end.
  rewrite EE. clear EE E1. destruct k1 as [[s1 c1] mv] eqn:Ek1. cbn [fst snd] in *. cbv iota beta.
  set (aw := AWrite [((x, y), [sp])] tb force).
  assert (Haw : act_ok w h aw).
  { split; [|split; [exact Ht|]].
    - apply Forall_cons; [|apply Forall_nil]. split; [lia|]. split; [|exact I]. apply Forall_cons; [|apply Forall_nil].
      intro Hn. destruct Hd as [Hp _]. unfold printable in Hp. rewrite Forall_forall in Hp. specialize (Hp _ Hn). discriminate Hp.
    - apply Forall_cons; [|apply Forall_nil]. apply Forall_cons; [exact Hd|apply Forall_nil]. }
  assert (I2 : inv e sh w h origin (e_grid m) (e_w m) (e_h m) never (perform e origin (s1, c1, mv) aw) (paint_act sh w h p aw)).
  { apply inv_act with (st := never); auto. }
  set (P2 := paint_act sh w h p aw) in *.
  (* the picture *)
  assert (SP : flat_map (spots w h) [((x, y), [sp])] = row_items x y (map (fun c => (c, sp)) (s_text sp))).
  { destruct (s_text sp) as [|c0 t0] eqn:Etx.
    - unfold flat_map, spots, glyphs, flat_map. rewrite Etx. cbn [map app number]. destruct (_ && _); reflexivity.
    - assert (Z1 : 1 <= zlen (c0 :: t0)) by (rewrite zlen_cons; pose proof (zlen_nonneg _ t0); lia).
      cbn [flat_map]. rewrite app_nil_r. unfold spots.
      rewrite (proj2 (Z.leb_le 0 x)), (proj2 (Z.ltb_lt x w)), (proj2 (Z.leb_le 0 y)), (proj2 (Z.ltb_lt y h)) by lia. cbn [andb].
      unfold glyphs. cbn [flat_map]. rewrite app_nil_r, Etx. apply number_row; [lia| |lia].
      unfold zlen in *. rewrite map_length. exact Hw. }
  assert (PP : forall q, P2 q = match row_nth x y (s_text sp) q with Some c => painted sh (c, sp) | None => p q end).
  { intro q. unfold P2, aw. cbn [paint_act]. rewrite SP, covering_row. unfold row_nth. destruct (_ && _); [|reflexivity].
    rewrite nth_error_map. destruct (nth_error (s_text sp) _); reflexivity. }
  (* what is pending *)
  destruct (inv_items e sh w h origin (e_grid m) (e_w m) (e_h m) Hf _ _ I2) as [items [_ [Hsort [Hi [Hin Hout]]]]].
  assert (KEY : forall q, In q (map fst items) <-> snd q = y /\ x <= fst q < x + Z.of_nat (List.length (s_text sp))).
  { set (s2 := fst (fst (perform e origin (s1, c1, mv) aw))) in *.
    assert (IN : forall q, In q (map fst items) <-> pending s2 q <> None).
    { intro q. rewrite in_map_iff. split.
      - intros [[q' t] [Eq Hq]]. cbn in Eq. subst q'. apply Hin in Hq. congruence.
      - intro H. destruct (pending s2 q) as [t|] eqn:Ep; [|congruence]. exists (q, t). split; [reflexivity|]. now apply Hin. }
    intro q. rewrite IN.
    assert (NONE : forall q, pending s1 q = None) by (intro q0; unfold pending; rewrite B; reflexivity).
    split.
    - intro Hp. destruct (row_nth x y (s_text sp) q) as [c|] eqn:En.
      + unfold row_nth in En. destruct (_ && _) eqn:Eb; [|discriminate]. apply andb_true_iff in Eb. rewrite Z.eqb_eq, Z.leb_le in Eb.
        apply nth_error_Some_length in En || (assert (En' : nth_error (s_text sp) (Z.to_nat (fst q - x)) <> None) by congruence; apply nth_error_Some in En'). lia.
      + exfalso. apply Hp. unfold s2, aw. cbn [perform].
        pose proof (i_w _ _ _ _ _ _ _ _ _ _ _ I1) as A1. pose proof (i_h _ _ _ _ _ _ _ _ _ _ _ I1) as A2. cbn [fst snd] in A1, A2.
        destruct Haw as [Hc1 [Hc2 Hc3]].
        assert (Hfine : fine_data [((x, y), [sp])]).
        { unfold fine_data. revert Hc3. apply Forall_impl. intros en. apply Forall_impl. apply drawable_fine. }
        assert (Hop : opaque_data [((x, y), [sp])]).
        { unfold opaque_data. revert Hc3. apply Forall_impl. intros en. apply Forall_impl. apply drawable_opaque. }
        destruct (write_bulk_effect e c1 s1 [((x, y), [sp])] tb force) as [s' [c' [n [Ew [_ WE]]]]]; auto.
        { exact (i_cache _ _ _ _ _ _ _ _ _ _ _ I1). } { exact (i_shaped _ _ _ _ _ _ _ _ _ _ _ I1). }
        { split; [exact (i_off _ _ _ _ _ _ _ _ _ _ _ I1)|]. rewrite A1, A2. exact Hc1. }
        rewrite Ew. cbn [fst].
        assert (D : on_screen w h q \/ ~ on_screen w h q) by (unfold on_screen; lia). destruct D as [Hq|Hq].
        * destruct (i_cell _ _ _ _ _ _ _ _ _ _ _ I1 q Hq) as [old [Eo _]]. cbn [fst] in Eo.
          assert (Hq' : on_screen (sc_w s1) (sc_h s1) q) by (rewrite A1, A2; exact Hq).
          pose proof (we_cell _ _ _ _ _ _ WE q old Hq' Eo) as G. rewrite A1, A2 in G.
          rewrite outcome_opaque in G by auto.
          assert (CV : covering q (flat_map (spots w h) [((x, y), [sp])]) = []).
          { rewrite SP, covering_row. unfold row_nth in En |- *. destruct (_ && _); [|reflexivity].
            rewrite nth_error_map, En. reflexivity. }
          pose proof (covering_Forall2 _ q _ _ (data_glyphs e w h [((x, y), [sp])] Hc3)) as CF. rewrite CV in CF.
          assert (CE : covering q (laid_all e w h [((x, y), [sp])]) = []) by (destruct (covering q (laid_all e w h [((x, y), [sp])])); [reflexivity|inversion CF]). rewrite CE in G. cbn [rev okf] in G. destruct G as [_ G]. rewrite G. apply NONE.
        * rewrite (we_off _ _ _ _ _ _ WE) by (rewrite A1, A2; exact Hq). apply NONE.
    - intros [Q1 Q2] Hp.
      assert (Hq : on_screen w h q) by (unfold on_screen, zlen in *; lia).
      pose proof (i_shown _ _ _ _ _ _ _ _ _ _ _ I2 q Hq Hp) as S2. pose proof (i_shown _ _ _ _ _ _ _ _ _ _ _ I1 q Hq (NONE q)) as S1.
      unfold plainly, never in S1, S2. destruct S1 as [S1|[[] _]]. destruct S2 as [S2|[[] _]].
      assert (Em : snd (perform e origin (s1, c1, mv) aw) = mv).
      { unfold aw. cbn [perform]. destruct (write_bulk _ _ _ _ _ _) as [[? ?] ?]. reflexivity. }
      rewrite Em in S2. cbn [snd] in S1. rewrite S1 in S2.
      assert (EQ : P2 q = p q).
      { destruct (P2 q), (p q). cbn [fst snd] in S2. congruence. }
      destruct (nth_error (s_text sp) (Z.to_nat (fst q - x))) as [c|] eqn:En; [|apply nth_error_None in En; lia].
      apply (Hdiff _ _ En). rewrite Z2Nat.id by lia. replace (x + (fst q - x)) with (fst q) by lia.
      replace (fst q, y) with q by (destruct q; cbn in *; congruence). rewrite <- EQ, PP. unfold row_nth.
      rewrite Q1, Z.eqb_refl, (proj2 (Z.leb_le x (fst q))) by lia. cbn [andb]. rewrite En. reflexivity. }
  destruct (run_sorted y _ x items Hsort KEY) as [ds [Lds Eit]].
  set (rd := snd (painted sh (0, sp))).
  assert (RD : forall c, painted sh (c, sp) = (c, rd)) by reflexivity.
  assert (F2 : Forall2 (fun d c => exists cl, d = drawn e cl /\ shows sh cl (c, rd)) ds (s_text sp)).
  { apply Forall2_nth; [exact Lds|]. intros k c Ec.
    destruct (nth_error ds k) as [d|] eqn:Ed; [|apply nth_error_None in Ed; assert (nth_error (s_text sp) k <> None) as Hk by congruence; apply nth_error_Some in Hk; lia].
    exists d. split; [reflexivity|]. pose proof (row_items_nth _ y ds x k d Ed) as Hi'. rewrite <- Eit in Hi'.
    rewrite Forall_forall in Hi. destruct (Hi _ Hi') as [_ [cl [Ecl Hcl]]]. cbn [fst snd] in *. exists cl. split; [exact Ecl|].
    rewrite <- RD. rewrite PP in Hcl. unfold row_nth in Hcl. cbn [fst snd] in Hcl.
    rewrite Z.eqb_refl, (proj2 (Z.leb_le x (x + Z.of_nat k))) in Hcl by lia. cbn [andb] in Hcl.
    replace (Z.to_nat (x + Z.of_nat k - x)) with k in Hcl by lia. rewrite Ec in Hcl. exact Hcl. }
  (* the output *)
  cbn [fold_left]. unfold aw in Hout |- *. cbn [perform] in Hout. cbn [performw].
  destruct (write_bulk e c1 s1 [((x, y), [sp])] tb force) as [[s2 c2] n2]. cbn [fst] in Hout.
  cbn [performw]. destruct (render s2 origin false) as [out s3]. cbn [fst] in Hout. cbv beta iota zeta.
  assert (RES : forall mm, at_rest mm -> forall X Y, e_grid (vtw wd RESET mm) X Y = e_grid mm X Y).
  { intros mm [Q1 _] X Y. rewrite (vtw_narrow wd RESET) by (apply ascii_narrow; [exact Hwd|apply reset_ascii]). rewrite vt_reset by exact Q1. reflexivity. }
  assert (OUT : forall X Y, at_rest (vtw wd (emit (fst origin) (snd origin) None items) m1) ->
     e_grid (vtw wd out m1) X Y = e_grid (vtw wd (emit (fst origin) (snd origin) None items) m1) X Y).
  { intros X Y Hr. destruct Hout as [-> | ->]; [reflexivity|]. rewrite vtw_app. now apply RES. }
  assert (GO : at_rest (vtw wd (emit (fst origin) (snd origin) None items) m1) /\
    let mo := vtw wd (emit (fst origin) (snd origin) None items) m1 in
    (forall k c, nth_error (s_text sp) k = Some c -> wd c <> 0 ->
       e_grid mo (x + fst origin - 1 + advance wd (firstn k (s_text sp))) (y + snd origin - 1) = (c, rd, []) /\
       (wd c = 2 -> e_grid mo (x + fst origin - 1 + advance wd (firstn k (s_text sp)) + 1) (y + snd origin - 1) = (TAIL, rd, []))) /\
    (forall X' Y', ~ (Y' = y + snd origin - 1 /\ x + fst origin - 1 <= X' < x + fst origin - 1 + advance wd (s_text sp)) -> e_grid mo X' Y' = e_grid m1 X' Y')).
  { destruct ds as [|d ds].
    - subst items. cbn. destruct (s_text sp); [|discriminate Lds]. split; [exact R1|]. split; [intros [|k] c E; discriminate E|auto].
    - rewrite Eit, emit_run, vtw_app. destruct Hf as [F1 [F3 [F4 F5]]]. destruct R1 as [R11 [R12 R13]].
      rewrite (vtw_narrow wd (move_to _ _)) by (apply ascii_narrow; [exact Hwd|apply move_ascii; lia]). rewrite vt_move by (auto; lia).
      set (mm := cup_to [y + snd origin; x + fst origin] m1).
      assert (L1 : 1 <= zlen (s_text sp)) by (unfold zlen; rewrite <- Lds; cbn [List.length]; lia).
      assert (X0 : e_x mm = x + fst origin - 1 /\ e_y mm = y + snd origin - 1 /\ e_wrap mm = false /\ e_grid mm = e_grid m1 /\ e_w mm = e_w m1).
      { unfold mm, cup_to, clampZ. cbn [nth set_pos e_x e_y e_wrap e_grid e_w]. rewrite W1, H1. repeat match goal with |- _ /\ _ => split end; auto; lia. }
      destruct X0 as [X1 [X2 [X3 [X4 X5]]]].
      destruct (run_shown_go wd e sh Hwd Hsh rd (s_text sp) (d :: ds) mm (x + fst origin - 1)) as [S1 [S2 S3]].
      { repeat split; [exact R11|exact R12|exact R13]. } { left. auto. } { lia. } { rewrite X5, W1. lia. } { exact F2. }
      rewrite X2, X4 in *. split; [exact S1|]. split; [exact S2|exact S3]. }
  cbv zeta in GO. destruct GO as [G1 [G2 G3]]. split.
  - intros k c Ec Hc. rewrite !OUT by exact G1. rewrite RD. cbn [snd]. exact (G2 k c Ec Hc).
  - intros X' Y' Hno. rewrite OUT by exact G1. now apply G3.
Qed.
