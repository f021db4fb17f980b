(** Lemmas: Spans written by themselves on screens that scroll. *)
From Coq Require Import ZArith Reals List Bool Lia Permutation.
From Verif Require Import PyBase PyLemmas F64 SpaceModel ColorModel ColorSpec AnsiRe SpanModel SpanSpec
  SpanProofs SpanProofs2 ParseProofs ScreenModel ScreenSpec ScreenProofs ScreenProofs2 ScreenProofs3 ScreenProofs4 ScreenProofs5 ScreenProofs6 ScreenProofs7
  ScreenProofs8 DrawSpec ScrollProofs TileSpec PenSpec LoneSpec LoneProofs.
Import ListNotations.
Open Scope Z_scope.
Open Scope list_scope.

Definition at_off (o : Z) (st : wstate) : wstate := mkW (ws_wm st) (ws_am st) (ws_cells st) o (ws_cache st).
Definition letter (s : span) : Prop := zlen (s_text s) = 1 /\ ~ In NL (s_text s).
Lemma iter_letters : forall s, ~ In NL (s_text s) -> Forall letter (span_iter s).
Proof.
  intros s H. rewrite iter_one. apply Forall_map. apply Forall_forall. intros c Hc. split; [reflexivity|]. intros [E|[]]. subst c. auto.
Qed.
Lemma letter_chars : forall e c s, tainted e c -> letter s ->
  exists ch c', cached_characters e c s true true = ([ch], c') /\ ch <> [NL] /\ tainted e c'.
Proof.
  intros e c s Hc [H1 H2]. destruct (cached_tainted e c s true true Hc) as [t [c' [E Hc']]].
  pose proof (spoiled_length t (get_characters e s true true)) as L. rewrite characters_length, H1 in L.
  pose proof (spoiled_no_nl t e s H2) as N. rewrite E.
  destruct (spoiled t (get_characters e s true true)) as [|ch [|ch' r]]; try (unfold zlen in L; cbn [List.length] in L; lia).
  exists ch, c'. inversion N; subst. auto.
Qed.
Lemma place_out : forall w h s chars i n x y lst wm am, h <= y \/ y < 0 -> place w h s chars i n x y lst wm am = (x, y, lst, wm, am).
Proof.
  intros. destruct chars; [reflexivity|]. cbn [place].
  replace ((w <=? x) || (x <? 0) || (h <=? y) || (y <? 0)) with true; [reflexivity|]. symmetry. rewrite !orb_true_iff, !Z.leb_le, !Z.ltb_lt. lia.
Qed.
Lemma place_lst : forall w h s chars i n x y l1 l2 wm am,
  exists x' y' k1 k2 wm' am', place w h s chars i n x y l1 wm am = (x', y', k1, wm', am') /\ place w h s chars i n x y l2 wm am = (x', y', k2, wm', am').
Proof.
  intros w h s chars. induction chars as [|ch chars IH]; intros i n x y l1 l2 wm am; [do 6 eexists; split; reflexivity|]. cbn [place].
  destruct (_ || _); [do 6 eexists; split; reflexivity|]. destruct (str_eqb ch [NL]); [apply IH|].
  destruct (if w <=? x + 1 then _ else _) as [nx ny]. destruct (over _ _ _) as [cc push]. apply IH.
Qed.
Lemma climb : forall e w h o line i x x' y lst st, tainted e (ws_cache st) -> 0 <= o -> ws_off st = o -> Forall letter line -> y - o < h ->
  (x' = x /\ 0 <= x /\ x + zlen line <= w) \/ y - o < 0 ->
  exists st', place_line e w h line i x y lst st = (st', Ok tt) /\ ws_off st' = o /\
    place_all e w h (climbing o x' y line) (at_off 0 st) = (at_off 0 st', Ok tt).
Proof.
  intros e w h o line. induction line as [|s line IH]; intros i x x' y lst st Hc Ho Hoff HL Hy Hx.
  { exists st. repeat split; auto. }
  inversion HL as [|? ? L1 L2]; subst s line. destruct (letter_chars e (ws_cache st) _ Hc L1) as [ch [c' [E [Hch Hc']]]].
  cbn [place_line climbing place_all]. cbn [at_off ws_cache ws_wm ws_am ws_cells ws_off]. rewrite E. cbn [ws_cache ws_wm ws_am ws_cells ws_off].
  rewrite Hoff. rewrite (proj2 (Z.ltb_ge (h - 1) (y - o))) by lia. rewrite (proj2 (Z.ltb_ge (h - 1) (y - o - 0))) by lia.
  rewrite !andb_false_r. cbn [ws_cache ws_wm ws_am ws_cells ws_off]. rewrite ?Hoff, Z.sub_0_r.
  destruct (Z.ltb_spec (y - o) 0) as [Neg|Pos].
  { rewrite !place_out by lia. cbn [place_line]. cbn [ws_cache ws_wm ws_am ws_cells ws_off].
    destruct (IH (i + 1) x (x' + 1) (y - o) lst (mkW (ws_wm st) (ws_am st) (ws_cells st) o c')) as [st' [A [B C]]]; auto; try lia. exists st'. auto. }
  destruct Hx as [[-> [Hx1 Hx2]]|Hx]; [|lia]. rewrite zlen_cons in Hx2. pose proof (zlen_nonneg _ l) as Hl.
  change (zlen [ch]) with 1. cbn [place].
  assert (B : (w <=? x) || (x <? 0) || (h <=? y - o) || (y - o <? 0) = false) by (rewrite !orb_false_iff, !Z.leb_gt, !Z.ltb_ge; lia).
  rewrite B. assert (NB : str_eqb ch [NL] = false) by (destruct (str_eqb ch [NL]) eqn:X; [apply str_eqb_eq in X; contradiction|reflexivity]).
  rewrite NB. destruct (over _ ch _) as [cc push]. destruct (Z.leb_spec w (x + 1)) as [Edge|In].
  - (* the last one *)
    assert (l = []) by (destruct l; [reflexivity|rewrite zlen_cons in Hx2; pose proof (zlen_nonneg _ l); lia]). subst l.
    cbn [place_line climbing place_all]. eexists. split; [reflexivity|]. split; reflexivity.
  - cbn [place_line]. cbn [ws_cache ws_wm ws_am ws_cells ws_off].
    match goal with |- context [place_line e w h l (i + 1) (x + 1) (y - o) ?L ?ST] => destruct (IH (i + 1) (x + 1) (x + 1) (y - o) L ST) as [st' [A [B' C]]]; auto; try lia end.
    exists st'. auto.
Qed.
Lemma climbs : forall e c s sp x y tb force, tainted e c -> 0 <= sc_off s -> ~ In NL (s_text sp) ->
  0 <= x -> x + zlen (s_text sp) <= sc_w s -> y - sc_off s < sc_h s ->
  write_bulk e c s [((x, y), span_iter sp)] tb force =
  let '(s', c', r) := write_bulk e c (with_off 0 s) (climbing (sc_off s) x y (span_iter sp)) tb force in (with_off (sc_off s) s', c', r).
Proof.
  intros e c s sp x y tb force Hc Ho Hn Hx Hw Hy. unfold write_bulk. cbn [with_off sc_w sc_h sc_cells sc_buf sc_cursor sc_off place_all].
  assert (Ln : zlen (span_iter sp) = zlen (s_text sp)) by (rewrite iter_one; unfold zlen; now rewrite map_length).
  destruct (climb e (sc_w s) (sc_h s) (sc_off s) (span_iter sp) 0 x x y (zlen (span_iter sp) - 1)
    (mkW (blank_matrix (sc_w s) (sc_h s) None) (blank_matrix (sc_w s) (sc_h s) []) (sc_cells s) (sc_off s) c)) as [st' [A [B C]]]; auto.
  { now apply iter_letters. }
  { left. rewrite Ln. auto. }
  rewrite A. unfold at_off in C. cbn [ws_cache ws_wm ws_am ws_cells ws_off] in C. rewrite C. cbn [at_off ws_cache ws_wm ws_am ws_cells ws_off].
  destruct (commit _ _ _ _ _ _ _ _) as [[[cells buf] n] ex]. rewrite B. reflexivity.
Qed.

(** * Below the last row of a screen that has not scrolled *)
Lemma below_line : forall e w h pre i x y z st, tainted e (ws_cache st) -> ws_off st = 0 -> Forall letter pre -> h <= y -> 
  exists c', tainted e c' /\
  place_line e w h (pre ++ [z]) i x y (i + zlen pre) st =
  place_line e w h [z] 0 x y 0 (mkW (ws_wm st) (ws_am st) (ws_cells st) 0 c').
Proof.
  intros e w h pre. induction pre as [|s pre IH]; intros i x y z st Hc Hoff HL Hy.
  - exists (ws_cache st). split; [exact Hc|]. cbn [app]. rewrite zlen_nil, Z.add_0_r. cbn [place_line]. cbn [ws_cache ws_wm ws_am ws_cells ws_off].
    destruct (cached_characters _ _ _ _ _) as [chars c1]. cbn [ws_cache ws_wm ws_am ws_cells ws_off]. rewrite Hoff, !Z.eqb_refl.
    assert (PL : forall chars' st1, (let '(x0, y0, lst, wm, am) := place w h z chars' 0 (zlen chars) x (y - ws_off st1) i (ws_wm st1) (ws_am st1) in
        (mkW wm am (ws_cells st1) (ws_off st1) (ws_cache st1), Ok tt)) =
      (let '(x0, y0, lst, wm, am) := place w h z chars' 0 (zlen chars) x (y - ws_off st1) 0 (ws_wm st1) (ws_am st1) in
        (mkW wm am (ws_cells st1) (ws_off st1) (ws_cache st1), @Ok unit tt))).
    { intros chars' st1. destruct (place_lst w h z chars' 0 (zlen chars) x (y - ws_off st1) i 0 (ws_wm st1) (ws_am st1)) as [x' [y' [k1 [k2 [wm' [am' [-> ->]]]]]]]. reflexivity. }
    destruct (true && _); [|apply PL]. destruct (append_nl chars); [|reflexivity]. destruct (ws_cells st); [reflexivity|apply PL].
  - inversion HL as [|? ? L1 L2]; subst. destruct (letter_chars e (ws_cache st) _ Hc L1) as [ch [c1 [E [Hch Hc']]]].
    destruct (IH (i + 1) x y z (mkW (ws_wm st) (ws_am st) (ws_cells st) 0 c1)) as [c' [A B]]; auto. cbn [ws_cache ws_wm ws_am ws_cells ws_off] in B.
    exists c'. split; [exact A|]. rewrite <- B. clear A B.
    cbn [app place_line]. rewrite E. cbn [ws_cache ws_wm ws_am ws_cells ws_off]. rewrite zlen_cons. pose proof (zlen_nonneg _ pre).
    rewrite (proj2 (Z.eqb_neq i (i + (1 + zlen pre)))) by lia. cbn [andb]. cbn [ws_cache ws_wm ws_am ws_cells ws_off]. rewrite Hoff, Z.sub_0_r.
    rewrite place_out by lia. replace (i + (1 + zlen pre)) with (i + 1 + zlen pre) by lia. reflexivity.
Qed.
Lemma below_write : forall e c s sp pre z x y tb force, tainted e c -> sc_off s = 0 -> s_text sp = pre ++ [z] -> ~ In NL (s_text sp) -> sc_h s <= y ->
  exists c', tainted e c' /\
  write_bulk e c s [((x, y), span_iter sp)] tb force = write_bulk e c' s [((x, y), [one sp z])] tb force.
Proof.
  intros e c s sp pre z x y tb force Hc Ho Ht Hn Hy. rewrite iter_one, Ht, map_app. cbn [map]. unfold write_bulk. cbn [place_all].
  destruct (below_line e (sc_w s) (sc_h s) (map (one sp) pre) 0 x y (one sp z)
     (mkW (blank_matrix (sc_w s) (sc_h s) None) (blank_matrix (sc_w s) (sc_h s) []) (sc_cells s) (sc_off s) c)) as [c' [A B]]; auto.
  { apply Forall_map. apply Forall_forall. intros a Ha. split; [reflexivity|]. intros [E|[]]. subst a. apply Hn. rewrite Ht. apply in_app_iff. now left. }
  exists c'. split; [exact A|].
  replace (zlen (map (one sp) pre ++ [one sp z]) - 1) with (0 + zlen (map (one sp) pre)) by (rewrite zlen_app; change (zlen [one sp z]) with 1; lia).
  rewrite B. cbn [ws_cache ws_wm ws_am ws_cells ws_off]. rewrite Ho. change (zlen [one sp z] - 1) with 0. reflexivity.
Qed.
Lemma below : forall e c s sp pre z x y tb force, tainted e c -> shaped s -> opaque_span sp -> fine_span sp ->
  sc_off s = 0 -> s_text sp = pre ++ [z] -> ~ In NL (s_text sp) -> 0 <= x < sc_w s -> 0 < sc_h s <= y ->
  exists s' c', write_bulk e c s [((x, y), span_iter sp)] tb force = (s', c', Ok 1) /\ scrolled e (one sp z) x y s s' /\ tainted e c'.
Proof.
  intros e c s sp pre z x y tb force Hc Hs Hop Hf Ho Ht Hn Hx Hy.
  destruct (below_write e c s sp pre z x y tb force Hc Ho Ht Hn ltac:(lia)) as [c1 [A B]].
  destruct (scroll_write_tainted e c1 s (one sp z) x y tb force A Hs) as [s' [c' [C [D E]]]]; try lia.
  - exact Hop.
  - exact Hf.
  - cbn. intros [E|[]]. subst z. apply Hn. rewrite Ht. apply in_app_iff. right. now left.
  - discriminate.
  - change (zlen (s_text (one sp z))) with 1. lia.
  - exists s', c'. rewrite B, C. auto.
Qed.

(** * In the last cell *)
Lemma one_chars : forall e c sp a, tainted e c -> a <> NL ->
  exists u t c', cached_characters e c (one sp a) true true = ([u ++ repeat NL t], c') /\ get_characters e (one sp a) true true = [u] /\
    (forall k, rstrip_by is_nl (u ++ repeat NL k) = u) /\ (forall k, u ++ repeat NL k <> [NL]) /\ tainted e c'.
Proof.
  intros e c sp a Hc Ha. destruct (cached_tainted e c (one sp a) true true Hc) as [t [c' [E Hc']]]. rewrite E.
  pose proof (characters_length e (one sp a) true true) as L. change (zlen (s_text (one sp a))) with 1 in L.
  assert (Hn : ~ In NL (s_text (one sp a))) by (cbn; intros [X|[]]; congruence).
  destruct (get_characters e (one sp a) true true) as [|u [|u' r]] eqn:G; try (unfold zlen in L; cbn [List.length] in L; lia).
  destruct (characters_tail e (one sp a) u Hn) as [v [d [-> Hd]]]; [rewrite G; now left|].
  exists (v ++ [d]), t, c'. split; [reflexivity|]. split; [reflexivity|]. split; [intro; now apply rstrip_repeat|]. split; [|exact Hc'].
  intros k X. destruct v as [|b v]; cbn in X; [injection X as X _; congruence|]. injection X as _ X. destruct v; discriminate.
Qed.
Lemma last_cell : forall e c s sp a b tb force, tainted e c -> shaped s -> opaque_span sp ->
  sc_off s = 0 -> s_text sp = [a; b] -> a <> NL -> b <> NL -> 2 <= sc_w s -> 0 < sc_h s ->
  exists s' c' ca cb, write_bulk e c s [((sc_w s - 1, sc_h s - 1), span_iter sp)] tb force = (s', c', Ok 2) /\
    get_characters e (one sp a) true true = [ca] /\ get_characters e (one sp b) true true = [cb] /\
    sc_off s' = 1 /\ shaped s' /\
    (forall q, on_screen (sc_w s) (sc_h s - 1) q -> cell_at s' q = cell_at s (fst q, snd q + 1)) /\
    cell_at s' (sc_w s - 1, sc_h s - 1) = Some (plain_cell (ca, sp)) /\ cell_at s' (0, sc_h s - 1) = Some (plain_cell (cb, sp)) /\
    (forall X, 0 < X < sc_w s - 1 -> cell_at s' (X, sc_h s - 1) = Some ([], None, None)).
Proof.
  intros e c s sp a b tb force Hc Hs Hop Ho Ht Ha Hb Hw Hh.
  rewrite iter_one, Ht. cbn [map]. unfold write_bulk. cbn [place_all]. set (w := sc_w s) in *. set (h := sc_h s) in *.
  destruct (one_chars e c sp a Hc Ha) as [ua [ta [c1 [Ea [Ga [Ra [Na Hc1]]]]]]].
  destruct (one_chars e c1 sp b Hc1 Hb) as [ub [tb' [c2 [Eb [Gb [Rb [Nb Hc2]]]]]]].
  cbn [place_line]. cbn [ws_cache]. rewrite Ea. cbn [ws_cache ws_wm ws_am ws_cells ws_off].
  change (zlen [one sp a; one sp b] - 1) with 1. change (0 =? 1) with false. cbn [andb]. cbn [ws_cache ws_wm ws_am ws_cells ws_off]. rewrite Ho, Z.sub_0_r.
  change (zlen [ua ++ repeat NL ta]) with 1. cbn [place].
  assert (B1 : (w <=? w - 1) || (w - 1 <? 0) || (h <=? h - 1) || (h - 1 <? 0) = false) by (rewrite !orb_false_iff, !Z.leb_gt, !Z.ltb_ge; lia).
  rewrite B1. assert (NB : str_eqb (ua ++ repeat NL ta) [NL] = false) by (apply str_eqb_neq, Na).
  rewrite NB. rewrite (proj2 (Z.leb_le w (w - 1 + 1))) by lia. change (0 =? 1 - 1) with true. cbv iota.
  assert (M1 : mget (blank_matrix w h (@None wcell)) (w - 1) (h - 1) = Some None) by (apply mget_blank; lia). rewrite M1.
  destruct (over (one sp a) (ua ++ repeat NL ta) None) as [ca pa] eqn:OVa.
  cbn [place_line]. cbn [ws_cache ws_wm ws_am ws_cells ws_off]. rewrite Eb. cbn [ws_cache ws_wm ws_am ws_cells ws_off].
  change (0 + 1 =? 1) with true. rewrite (proj2 (Z.ltb_lt (h - 1) (h - 1 + 1 - 0))) by lia. cbn [andb].
  replace (append_nl [ub ++ repeat NL tb']) with (Ok [ub ++ repeat NL (S tb')]).
  2: { unfold append_nl. cbn [rev app]. rewrite <- app_assoc, <- repeat_cons. reflexivity. }
  destruct (sc_cells s) as [|row0 cells0] eqn:Ecells.
  { exfalso. apply shaped_dims in Hs. destruct Hs as [H0 _]. rewrite Ecells in H0. cbn in H0. fold h in H0. lia. }
  cbn [ws_cache ws_wm ws_am ws_cells ws_off]. replace (h - 1 + 1 - (h - 1 + 1 - h + 1)) with (h - 1) by lia.
  cbn [place]. assert (B2 : (w <=? 0) || (0 <? 0) || (h <=? h - 1) || (h - 1 <? 0) = false) by (rewrite !orb_false_iff, !Z.leb_gt, !Z.ltb_ge; lia).
  rewrite B2. assert (NB2 : str_eqb (ub ++ repeat NL (S tb')) [NL] = false) by (apply str_eqb_neq, Nb).
  rewrite NB2. rewrite (proj2 (Z.leb_gt w (0 + 1))) by lia.
  set (items := [((w - 1, h - 1), (ua ++ repeat NL ta, one sp a)); ((0, h - 1), (ub ++ repeat NL (S tb'), one sp b))]).
  match goal with |- context [mset ?WM 0 (h - 1) _] => set (wm1 := WM) end. match goal with |- context [am_push ?AM 0 (h - 1) _] => set (am1 := AM) end.
  destruct (over (one sp b) (ub ++ repeat NL (S tb')) _) as [cb pb] eqn:OVb. cbn [place_line]. cbn [ws_cache ws_wm ws_am ws_cells ws_off].
  assert (EM : fold_left put items (blank_matrix w h None, blank_matrix w h []) = (mset wm1 0 (h - 1) (Some cb), am_push am1 0 (h - 1) pb)).
  { unfold items. cbn [fold_left put]. rewrite M1, OVa. fold wm1 am1.
    unfold put. rewrite OVb. reflexivity. }
  set (cells1 := cells0 ++ [map (fun _ : Z => ([], None, None)) (range w)]).
  apply shaped_dims in Hs. fold w h in Hs. rewrite Ecells in Hs.
  assert (D1 : dims w h cells1) by (eapply dims_scroll; exact Hs).
  assert (OP : forall d, opaque_span (one sp d)) by (intro; exact Hop).
  assert (Hout : forall q, outcome tb items q =
     if pos_eqb q (w - 1, h - 1) then Some (Ok (plain_cell (ua, sp), endswith [NL] (ua ++ repeat NL ta)))
     else if pos_eqb q (0, h - 1) then Some (Ok (plain_cell (ub, sp), endswith [NL] (ub ++ repeat NL (S tb')))) else None).
  { intro q. unfold outcome, items, covering. cbn [filter map fst snd].
    destruct (pos_eqb q (w - 1, h - 1)) eqn:P1.
    - apply pos_eqb_iff in P1. subst q. assert (P2 : pos_eqb (0, h - 1) (w - 1, h - 1) = false) by (unfold pos_eqb; cbn [fst snd]; rewrite (proj2 (Z.eqb_neq 0 (w - 1))) by lia; reflexivity).
      rewrite pos_eqb_refl, P2. cbn [map fold_left snd]. rewrite cstep_opaque by apply OP. f_equal. rewrite finish_plain by apply OP. rewrite Ra. reflexivity.
    - assert (P1' : pos_eqb (w - 1, h - 1) q = false). { destruct (pos_eqb (w - 1, h - 1) q) eqn:X; [|reflexivity]. apply pos_eqb_iff in X. subst q. rewrite pos_eqb_refl in P1. discriminate. }
      rewrite P1'. destruct (pos_eqb q (0, h - 1)) eqn:P2.
      + apply pos_eqb_iff in P2. subst q. rewrite pos_eqb_refl. cbn [map fold_left snd]. rewrite cstep_opaque by apply OP. f_equal. rewrite finish_plain by apply OP. rewrite Rb. reflexivity.
      + assert (P2' : pos_eqb (0, h - 1) q = false). { destruct (pos_eqb (0, h - 1) q) eqn:X; [|reflexivity]. apply pos_eqb_iff in X. subst q. rewrite pos_eqb_refl in P2. discriminate. }
        rewrite P2'. reflexivity. }
  destruct (commit_items e w h items tb cells1 (sc_buf s) D1) as [cells' [Ecm [D' G]]].
  { intros q i [X|[X|[]]]; injection X as <- _; unfold on_screen; cbn [fst snd]; lia. }
  { intros q ex _ X. rewrite Hout in X. destruct (pos_eqb _ _); [discriminate|]. destruct (pos_eqb _ _); discriminate. }
  set (f := fun q => okf (outcome tb items q)) in *. rewrite EM in Ecm. cbn [fst snd] in Ecm.
  match type of Ecm with _ = ?r => match goal with |- context [commit ?a ?b ?c ?d ?i ?j ?k ?l] => replace (commit a b c d i j k l) with r by (symmetry; exact Ecm) end end.
  assert (Hlast : forall X, 0 <= X < w -> mget cells1 X (h - 1) = Some ([], None, None)).
  { intros X HX. unfold mget, cells1. destruct Hs as [H0 _]. cbn [List.length] in H0.
    rewrite nth_error_app2 by lia. replace (Z.to_nat (h - 1) - List.length cells0)%nat with O by lia. cbn [nth_error].
    rewrite nth_error_map. assert (E : nth_error (range w) (Z.to_nat X) <> None) by (apply nth_error_Some; rewrite range_length; lia).
    destruct (nth_error (range w) (Z.to_nat X)); [reflexivity|congruence]. }
  assert (Ch : forall q, on_screen w h q -> (changes f cells1 q = true <-> q = (w - 1, h - 1) \/ q = (0, h - 1))).
  { intros q Hq. unfold changes, f. rewrite Hout. destruct (pos_eqb q (w - 1, h - 1)) eqn:P1.
    - apply pos_eqb_iff in P1. subst q. cbn [okf fst snd]. rewrite Hlast by lia. unfold plain_cell, cell_eqb. cbn [opt_color_eqb]. rewrite andb_false_r. cbn. tauto.
    - destruct (pos_eqb q (0, h - 1)) eqn:P2.
      + apply pos_eqb_iff in P2. subst q. cbn [okf fst snd]. rewrite Hlast by lia. unfold plain_cell, cell_eqb. cbn [opt_color_eqb]. rewrite andb_false_r. cbn. tauto.
      + cbn [okf]. split; [discriminate|]. intros [X|X]; subst q; rewrite pos_eqb_refl in *; discriminate. }
  assert (On : forall cs bf cu of q, on_screen w h q -> cell_at (mkScreen w h cs bf cu of) q = mget cs (fst q) (snd q)).
  { intros cs bf cu of q Hq. rewrite cell_at_on by exact Hq. reflexivity. }
  do 2 eexists. exists ua, ub. split; [apply f_equal2; [reflexivity|f_equal]|].
  { assert (P : Permutation (filter (changes f cells1) (positions w h)) [(w - 1, h - 1); (0, h - 1)]).
    { apply NoDup_Permutation.
      - apply NoDup_filter, positions_NoDup.
      - constructor; [intros [X|[]]; injection X; lia|]. constructor; [intros []|constructor].
      - intro q. rewrite filter_In, positions_in. split.
        + intros [H1 H2]. apply Ch in H2; [|exact H1]. cbn [In]. destruct H2 as [->| ->]; auto.
        + intro Hq. assert (on_screen w h q) by (destruct Hq as [<-|[<-|[]]]; unfold on_screen; cbn [fst snd]; lia).
          split; [assumption|]. apply Ch; [assumption|]. destruct Hq as [<-|[<-|[]]]; auto. }
    apply Permutation_length in P. unfold zlen. rewrite P. reflexivity. }
  split; [exact Ga|]. split; [exact Gb|]. cbn [sc_off]. split; [lia|]. split; [apply shaped_dims; exact D'|].
  split; [|split; [|split]].
  - intros q [Q1 Q2]. assert (Hq : on_screen w h q) by (unfold on_screen; lia). rewrite On by exact Hq. rewrite G by exact Hq.
    destruct (changes f cells1 q) eqn:E; [apply Ch in E; [|exact Hq]; destruct E as [->| ->]; cbn [snd] in Q2; lia|].
    unfold cell_at. cbn [fst snd]. rewrite (proj2 (Z.leb_le 0 (fst q))), (proj2 (Z.leb_le 0 (snd q + 1))) by lia. cbn [andb].
    rewrite Ecells. unfold mget, cells1. destruct Hs as [H0 _]. cbn [List.length] in H0.
    rewrite nth_error_app1 by lia. replace (Z.to_nat (snd q + 1)) with (S (Z.to_nat (snd q))) by lia. reflexivity.
  - assert (Hq : on_screen w h (w - 1, h - 1)) by (unfold on_screen; cbn [fst snd]; lia). rewrite On by exact Hq. rewrite G by exact Hq.
    rewrite (proj2 (Ch _ Hq)) by auto. unfold f. rewrite Hout, pos_eqb_refl. reflexivity.
  - assert (Hq : on_screen w h (0, h - 1)) by (unfold on_screen; cbn [fst snd]; lia). rewrite On by exact Hq. rewrite G by exact Hq.
    rewrite (proj2 (Ch _ Hq)) by auto. unfold f. rewrite Hout, pos_eqb_refl.
    assert (P2 : pos_eqb (0, h - 1) (w - 1, h - 1) = false) by (unfold pos_eqb; cbn [fst snd]; rewrite (proj2 (Z.eqb_neq 0 (w - 1))) by lia; reflexivity).
    rewrite P2. reflexivity.
  - intros X HX. assert (Hq : on_screen w h (X, h - 1)) by (unfold on_screen; cbn [fst snd]; lia). rewrite On by exact Hq. rewrite G by exact Hq.
    destruct (changes f cells1 (X, h - 1)) eqn:E; [apply Ch in E; [|exact Hq]; destruct E as [E|E]; injection E; lia|]. cbn [fst snd]. apply Hlast. lia.
Qed.
