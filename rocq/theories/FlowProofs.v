(** Lemmas: several Spans with line breaks in one write. *)
From Coq Require Import ZArith Reals List Bool Lia.
From Verif Require Import PyBase PyLemmas F64 SpaceModel ColorModel ColorSpec AnsiRe SpanModel Vt SpanSpec SpanProofs
  ScreenModel ScreenSpec ScreenProofs ScreenProofs2 ScreenProofs3 ScreenProofs4 DrawSpec DrawProofs DrawProofs2 LineSpec LineProofs FlowSpec.
Import ListNotations.
Open Scope Z_scope.
Open Scope list_scope.

Definition number (w : Z) (p : pos) : Z := snd p * w + fst p.
Lemma number_divmod : forall w n, 0 < w -> number w (n mod w, n / w) = n.
Proof. intros w n H. unfold number. cbn [fst snd]. pose proof (Z.div_mod n w). lia. Qed.
Lemma after_number : forall w lines l p, 0 < w -> number w p + zlen l <= number w (after_lines w p (l :: lines)).
Proof.
  intros w lines. induction lines as [|l' lines IH]; intros l p H.
  - cbn [after_lines]. unfold after_end. cbv zeta. rewrite number_divmod by exact H. unfold number. lia.
  - change (after_lines w p (l :: l' :: lines)) with (after_lines w (below_end w p l) (l' :: lines)). specialize (IH l' (below_end w p l) H).
    pose proof (zlen_nonneg _ l'). unfold below_end in *. cbv zeta in *. set (n := snd p * w + fst p + zlen l) in *.
    assert (E : number w (n mod w, n / w + 1) = n + w) by (pose proof (number_divmod w n H) as D; unfold number in *; cbn [fst snd] in *; lia).
    rewrite E in IH. unfold number at 1. lia.
Qed.
Lemma inside_number : forall w h p, inside_screen w h p = true -> 0 <= number w p < w * h.
Proof. intros w h [x y] H. apply inside_iff in H. unfold number. cbn [fst snd] in *. nia. Qed.
(** a Span that ends on the screen *)
Lemma flow_spot : forall w h s lines x y wm am, lines <> [] -> Forall (fun l => ~ In NL l) lines ->
  inside_screen w h (x, y) = true -> inside_screen w h (after_lines w (x, y) lines) = true ->
  let '(x', y', wm', am') := spot w h s (map sing (join [NL] lines)) (x, y, wm, am) in (x', y') = after_lines w (x, y) lines.
Proof.
  intros w h s lines. induction lines as [|l lines IH]; intros x y wm am Hne HF Hin Hend; [congruence|]. inversion HF as [|? ? Hl HF']; subst.
  assert (Hw : 0 < w) by (apply inside_iff in Hin; cbn [fst snd] in Hin; lia).
  pose proof (after_number w lines l (x, y) Hw) as N. pose proof (inside_number _ _ _ Hend) as N2.
  pose proof (spot_end w h s l x y wm am Hin Hl) as SE. cbv zeta in SE.
  unfold number at 1 in N. cbn [fst snd] in N.
  destruct lines as [|l' lines].
  { cbn [join]. destruct (spot w h s (map sing l) (x, y, wm, am)) as [[[x1 y1] wm1] am1]. destruct SE as [S1 _]. apply S1. lia. }
  change (join [NL] (l :: l' :: lines)) with (l ++ [NL] ++ join [NL] (l' :: lines)). rewrite map_app, spot_app.
  destruct (spot w h s (map sing l) (x, y, wm, am)) as [[[x1 y1] wm1] am1]. cbn [map app]. rewrite spot_cons.
  change (str_eqb (sing NL) [NL]) with true. cbv iota. destruct SE as [S1 _].
  change (after_lines w (x, y) (l :: l' :: lines)) with (after_lines w (below_end w (x, y) l) (l' :: lines)) in *.
  assert (LT : y * w + x + zlen l < w * h) by lia. specialize (S1 LT). injection S1 as -> ->.
  unfold below_end in *. cbn [fst snd] in *. cbv zeta in *. set (n := y * w + x + zlen l) in *. pose proof (zlen_nonneg _ l) as Zl.
  apply inside_iff in Hin. cbn [fst snd] in Hin.
  assert (I1 : inside_screen w h (n mod w, n / w) = true).
  { apply inside_iff. cbn [fst snd]. split; [apply Z.mod_pos_bound; lia|]. split; [apply Z.div_pos; unfold n; nia|apply Z.div_lt_upper_bound; lia]. }
  rewrite I1. apply IH; [discriminate|exact HF'| |exact Hend].
  pose proof (after_number w lines l' (n mod w, n / w + 1) Hw) as N3. pose proof (inside_number _ _ _ Hend) as N4. pose proof (zlen_nonneg _ l').
  assert (E : number w (n mod w, n / w + 1) = n + w) by (pose proof (number_divmod w n Hw) as D; unfold number in *; cbn [fst snd] in *; lia).
  apply inside_iff in I1. cbn [fst snd] in I1. apply inside_iff. cbn [fst snd]. split; [lia|]. split; [lia|].
  assert (n / w + 1 = (n + 1 * w) / w) as -> by (rewrite Z.div_add by lia; reflexivity). apply Z.div_lt_upper_bound; lia.
Qed.
(** all Spans of an entry *)
Fixpoint along (w h : Z) (spans : list span) (k : Z * Z * wmatrix * amatrix) : Z * Z * wmatrix * amatrix :=
  match spans with [] => k | s :: r => along w h r (spot w h s (map sing (s_text s)) k) end.
Lemma flows_start : forall w h p s r, flows w h p (s :: r) -> no_attribute s /\ snd p < h.
Proof. intros w h p s [|s2 r] H; [exact H|]. destruct H as [H1 [H2 _]]. apply inside_iff in H2. split; [exact H1|lia]. Qed.
Lemma text_spot : forall w h s x y wm am, inside_screen w h (x, y) = true -> inside_screen w h (after_text w (x, y) (s_text s)) = true ->
  let '(x', y', _, _) := spot w h s (map sing (s_text s)) (x, y, wm, am) in (x', y') = after_text w (x, y) (s_text s).
Proof.
  intros w h s x y wm am H1 H2. destruct (join_split (s_text s)) as [J1 [J2 J3]]. unfold after_text in *.
  pose proof (flow_spot w h s _ x y wm am J3 J2 H1 H2) as F. now rewrite J1 in F.
Qed.
Lemma place_flows : forall e w h spans i x y lst st, cache_ok e (ws_cache st) -> ws_off st = 0 -> flows w h (x, y) spans ->
  exists c', cache_ok e c' /\ place_line e w h spans i x y lst st =
    (let '(_, _, wm, am) := along w h spans (x, y, ws_wm st, ws_am st) in mkW wm am (ws_cells st) 0 c', Ok tt).
Proof.
  intros e w h spans. induction spans as [|s spans IH]; intros i x y lst st Hc Ho HF.
  { exists (ws_cache st). split; [exact Hc|]. cbn. rewrite <- Ho. destruct st; reflexivity. }
  destruct (flows_start _ _ _ _ _ HF) as [Hs Hy]. cbn [fst snd] in Hy. cbn [place_line].
  destruct (cached_ok e (ws_cache st) s true true Hc) as [c1 [E1 E2]]. rewrite E1.
  cbn [ws_cache ws_wm ws_am ws_cells ws_off]. rewrite Ho. rewrite (proj2 (Z.ltb_ge (h - 1) (y - 0))) by lia. rewrite andb_false_r.
  cbn [ws_cache ws_wm ws_am ws_cells ws_off]. rewrite Z.sub_0_r. rewrite plain_characters by exact Hs.
  destruct (place_spot w h s (map sing (s_text s)) 0 (zlen (map sing (s_text s))) x y lst (ws_wm st) (ws_am st)) as [lst' ->].
  cbn [along]. destruct spans as [|s2 spans].
  { destruct (spot w h s (map sing (s_text s)) (x, y, ws_wm st, ws_am st)) as [[[x1 y1] wm1] am1]. exists c1. split; [exact E2|reflexivity]. }
  destruct HF as [_ [H1 [H2 H3]]]. pose proof (text_spot w h s x y (ws_wm st) (ws_am st) H1 H2) as T.
  destruct (spot w h s (map sing (s_text s)) (x, y, ws_wm st, ws_am st)) as [[[x1 y1] wm1] am1]. rewrite <- T in H3.
  destruct (IH (i + 1) x1 y1 lst' (mkW wm1 am1 (ws_cells st) 0 c1) E2 eq_refl H3) as [c' [A B]]. exists c'. split; [exact A|]. exact B.
Qed.
Definition bundles (w h : Z) (data : list (pos * list span)) (k : wmatrix * amatrix) : wmatrix * amatrix :=
  fold_left (fun k entry => let '(_, _, wm, am) := along w h (snd entry) (fst (fst entry), snd (fst entry), fst k, snd k) in (wm, am)) data k.
Lemma place_bundles : forall e w h data st, cache_ok e (ws_cache st) -> ws_off st = 0 -> Forall (flow_entry w h) data ->
  exists c', cache_ok e c' /\ place_all e w h data st =
    (let k := bundles w h data (ws_wm st, ws_am st) in mkW (fst k) (snd k) (ws_cells st) 0 c', Ok tt).
Proof.
  intros e w h data. induction data as [|[[x y] line] data IH]; intros st Hc Ho HF.
  { exists (ws_cache st). split; [exact Hc|]. cbn. rewrite <- Ho. destruct st; reflexivity. }
  inversion HF as [|? ? H1 HF']; subst. unfold flow_entry in H1. cbn [fst snd] in H1. cbn [place_all].
  destruct (place_flows e w h line 0 x y (zlen line - 1) st Hc Ho H1) as [c1 [E2 ->]]. unfold bundles. cbn [fold_left fst snd]. fold (bundles w h).
  destruct (along w h line (x, y, ws_wm st, ws_am st)) as [[[x1 y1] wm1] am1].
  destruct (IH (mkW wm1 am1 (ws_cells st) 0 c1) E2 eq_refl HF') as [c' [A B]]. exists c'. split; [exact A|]. rewrite B. reflexivity.
Qed.
Lemma one_app : forall w h a b k, one_by_one w h (a ++ b) k = one_by_one w h b (one_by_one w h a k).
Proof. intros. unfold one_by_one. apply fold_left_app. Qed.
Lemma flow_matrix : forall w h spans x y wm am, flows w h (x, y) spans ->
  let '(_, _, wm', am') := along w h spans (x, y, wm, am) in (wm', am') = one_by_one w h (flow w h (x, y) spans) (wm, am).
Proof.
  intros w h spans. induction spans as [|s spans IH]; intros x y wm am HF; [reflexivity|]. cbn [along flow]. rewrite one_app.
  destruct (join_split (s_text s)) as [J1 [J2 J3]].
  pose proof (stairs_spot w h s (split_on NL (s_text s)) x y wm am J3 J2) as S. rewrite J1 in S.
  destruct spans as [|s2 spans].
  { cbn [along flow]. destruct (spot w h s (map sing (s_text s)) (x, y, wm, am)) as [[[x1 y1] wm1] am1]. exact S. }
  destruct HF as [_ [H1 [H2 H3]]]. pose proof (text_spot w h s x y wm am H1 H2) as T.
  destruct (spot w h s (map sing (s_text s)) (x, y, wm, am)) as [[[x1 y1] wm1] am1]. rewrite <- T in *. rewrite <- S. apply IH. exact H3.
Qed.
Lemma flows_matrix : forall w h data k, Forall (flow_entry w h) data -> bundles w h data k = one_by_one w h (flat_map (entry_flow w h) data) k.
Proof.
  intros w h data. induction data as [|[[x y] line] data IH]; intros [wm am] HF; [reflexivity|]. inversion HF as [|? ? H1 HF']; subst.
  cbn [flat_map]. rewrite one_app. unfold bundles. cbn [fold_left fst snd]. fold (bundles w h). unfold flow_entry in H1. cbn [fst snd] in H1.
  pose proof (flow_matrix w h line x y wm am H1) as M. unfold entry_flow at 2. cbn [fst snd].
  destruct (along w h line (x, y, wm, am)) as [[[x1 y1] wm1] am1]. rewrite <- M. apply IH. exact HF'.
Qed.
Lemma flow_lone : forall w h spans p, Forall no_attribute spans -> Forall (lone_entry h) (flow w h p spans).
Proof.
  intros w h spans. induction spans as [|s spans IH]; intros p HF; [constructor|]. inversion HF; subst. cbn [flow]. apply Forall_app. split; [now apply stairs_lone|now apply IH].
Qed.
Lemma flows_plain : forall w h spans p, flows w h p spans -> Forall no_attribute spans.
Proof.
  intros w h spans. induction spans as [|s spans IH]; intros p H; [constructor|]. constructor; [now apply (flows_start w h p s spans)|].
  destruct spans as [|s2 spans]; [constructor|]. destruct H as [_ [_ [_ H]]]. exact (IH _ H).
Qed.
Lemma flow_write : forall e c c2 s data tb force, cache_ok e c -> cache_ok e c2 -> sc_off s = 0 -> Forall (flow_entry (sc_w s) (sc_h s)) data ->
  let '(s1, c1', r1) := write_bulk e c s data tb force in
  let '(s2, c2', r2) := write_bulk e c2 s (flat_map (entry_flow (sc_w s) (sc_h s)) data) tb force in
  s1 = s2 /\ r1 = r2 /\ cache_ok e c1' /\ cache_ok e c2' /\ sc_off s1 = 0 /\ sc_w s1 = sc_w s /\ sc_h s1 = sc_h s.
Proof.
  intros e c c2 s data tb force Hc Hc2 Ho HF. unfold write_bulk. rewrite Ho.
  destruct (place_bundles e (sc_w s) (sc_h s) data (mkW (blank_matrix (sc_w s) (sc_h s) None) (blank_matrix (sc_w s) (sc_h s) []) (sc_cells s) 0 c) Hc eq_refl HF) as [c' [A ->]].
  assert (HF2 : Forall (lone_entry (sc_h s)) (flat_map (entry_flow (sc_w s) (sc_h s)) data)).
  { apply Forall_flat_map. revert HF. apply Forall_impl. intros [p line] H. apply flow_lone. exact (flows_plain _ _ _ _ H). }
  destruct (place_lone e (sc_w s) (sc_h s) _ (mkW (blank_matrix (sc_w s) (sc_h s) None) (blank_matrix (sc_w s) (sc_h s) []) (sc_cells s) 0 c2) Hc2 eq_refl HF2) as [c2' [A2 ->]].
  cbn [ws_cache ws_wm ws_am ws_cells ws_off]. rewrite (flows_matrix _ _ _ _ HF). cbv zeta. cbn [ws_cache ws_wm ws_am ws_cells ws_off].
  destruct (commit _ _ _ _ _ _ _ _) as [[[cells buf] n] ex]. repeat split; auto.
Qed.

(** * Histories *)
Lemma flow_run : forall e origin w h acts s c c2 m, cache_ok e c -> cache_ok e c2 -> sc_off s = 0 -> sc_w s = w -> sc_h s = h -> Forall (flow_act_ok w h) acts ->
  let '(s1, _, m1) := fold_left (perform e origin) acts (s, c, m) in
  let '(s2, _, m2) := fold_left (perform e origin) (map (flow_act w h) acts) (s, c2, m) in s1 = s2 /\ m1 = m2.
Proof.
  intros e origin w h acts. induction acts as [|a acts IH]; intros s c c2 m Hc Hc2 Ho Hw Hh HF; [split; reflexivity|].
  inversion HF as [|? ? Ha HF']; subst. cbn [map fold_left]. destruct a as [data tb force|fill|]; cbn [flow_act perform].
  - destruct Ha as [Ha _]. pose proof (flow_write e c c2 s data tb force Hc Hc2 Ho Ha) as L.
    destruct (write_bulk e c s data tb force) as [[s1 c1] r1]. destruct (write_bulk e c2 s _ tb force) as [[s2 c2'] r2].
    destruct L as [-> [_ [L1 [L2 [L3 [L4 L5]]]]]]. specialize (IH s2 c1 c2' m L1 L2 L3 L4 L5 HF'). exact IH.
  - apply IH; auto.
  - destruct (render s origin false) as [out s'] eqn:R. assert (ES : s' = mkScreen (sc_w s) (sc_h s) (sc_cells s) [] (sc_cursor s) (sc_off s)).
    { unfold render in R. destruct origin. injection R as _ <-. reflexivity. }
    apply IH; auto; subst s'; cbn; auto.
Qed.
Lemma flow_ok : forall w h spans p, Forall text_ok spans -> Forall no_attribute spans ->
  Forall (calm_entry w h) (flow w h p spans) /\ Forall (fun entry => Forall drawable (snd entry)) (flow w h p spans).
Proof.
  intros w h spans. induction spans as [|s spans IH]; intros p H1 H2; [split; constructor|]. inversion H1 as [|? ? Ht H1']; inversion H2; subst. cbn [flow].
  destruct (IH (after_text w p (s_text s))) as [A B]; auto. destruct (stairs_ok w h s (split_on NL (s_text s)) p) as [C D]; auto.
  { apply split_printable. apply Ht. }
  split; apply Forall_app; auto.
Qed.
Lemma flow_act_fine : forall w h a, flow_act_ok w h a -> act_ok w h (flow_act w h a).
Proof.
  intros w h [data tb force|fill|] H; try exact H. destruct H as [H1 [H2 H3]]. cbn [flow_act act_ok].
  assert (G : Forall (calm_entry w h) (flat_map (entry_flow w h) data) /\ Forall (fun entry => Forall drawable (snd entry)) (flat_map (entry_flow w h) data)).
  { split; apply Forall_flat_map; apply Forall_forall; intros [p line] Hi; rewrite Forall_forall in H1, H3; specialize (H1 _ Hi); specialize (H3 _ Hi);
      apply flow_ok; auto; exact (flows_plain _ _ _ _ H1). }
  destruct G. auto.
Qed.
Lemma flow_shown : forall e sh w h cursor fill origin m acts, shades e sh -> is_ctl fill = false ->
  at_rest m -> fits w h origin m -> Forall (flow_act_ok w h) acts ->
  let '(s, _, m') := fold_left (perform e origin) (acts ++ [ADraw]) (new_screen w h cursor [fill], [], m) in
  let p := fold_left (paint_act sh w h) (map (flow_act w h) acts) (blank fill) in
  (forall q, on_screen w h q -> seen origin m' q = (fst (p q), snd (p q), [])) /\
  (forall X Y, ~ on_screen w h (X - fst origin + 1, Y - snd origin + 1) -> e_grid m' X Y = e_grid m X Y) /\
  at_rest m' /\ sc_buf s = [].
Proof.
  intros e sh w h cursor fill origin m acts Hsh Hf Hm Hfit HF.
  assert (HF2 : Forall (act_ok w h) (map (flow_act w h) acts)) by (apply Forall_map; revert HF; apply Forall_impl; intros a; apply flow_act_fine).
  pose proof (drawing e sh w h cursor fill origin m _ Hsh Hf Hm Hfit HF2) as D.
  assert (HF3 : Forall (flow_act_ok w h) (acts ++ [ADraw])) by (apply Forall_app; split; [exact HF|repeat constructor]).
  assert (Hc0 : cache_ok e []) by constructor.
  pose proof (flow_run e origin w h (acts ++ [ADraw]) (new_screen w h cursor [fill]) [] [] m Hc0 Hc0 eq_refl eq_refl eq_refl HF3) as T.
  rewrite map_app in T. cbn [map flow_act] in T. destruct (fold_left (perform e origin) (acts ++ [ADraw]) _) as [[s1 c1] m1].
  destruct (fold_left (perform e origin) (map (flow_act w h) acts ++ [ADraw]) _) as [[s2 c2] m2]. destruct T as [-> ->]. exact D.
Qed.

(** * Texts that reach the end of the screen *)
Lemma step_number : forall w h x y, 0 <= x < w -> 0 <= y < h ->
  let '(nx, ny) := if w <=? x + 1 then (0, y + 1) else (x + 1, y) in
  ny * w + nx = y * w + x + 1 /\ 0 <= nx < w /\ 0 <= ny /\ (ny < h \/ (nx = 0 /\ ny = h)).
Proof. intros w h x y Hx Hy. destruct (Z.leb_spec w (x + 1)); repeat split; try nia. Qed.
Lemma place_out : forall w h s chars i n x lst wm am, place w h s chars i n x h lst wm am = (x, h, lst, wm, am).
Proof. intros w h s [|ch chars] i n x lst wm am; [reflexivity|]. cbn [place]. rewrite Z.leb_refl, orb_true_r. reflexivity. Qed.
Lemma place_end : forall w h s chars i n x y lst wm am, 0 <= x < w -> 0 <= y < h -> Forall (fun ch => ch <> [NL]) chars ->
  n = i + zlen chars -> chars <> [] -> w * h <= y * w + x + zlen chars ->
  exists wm' am', place w h s chars i n x y lst wm am = (0, h, if w * h =? y * w + x + zlen chars then 1 else 0, wm', am').
Proof.
  intros w h s chars. induction chars as [|ch chars IH]; intros i n x y lst wm am Hx Hy HF Hn Hne Hl; [congruence|]. inversion HF; subst. rewrite zlen_cons in *. cbn [place].
  replace ((w <=? x) || (x <? 0) || (h <=? y) || (y <? 0)) with false.
  2: { destruct (Z.leb_spec w x), (Z.ltb_spec x 0), (Z.leb_spec h y), (Z.ltb_spec y 0); try lia; reflexivity. }
  destruct (str_eqb ch [NL]) eqn:E; [apply str_eqb_eq in E; contradiction|].
  pose proof (step_number w h x y Hx Hy) as SN. destruct (if w <=? x + 1 then _ else _) as [nx ny]. destruct SN as [N1 [N2 [N3 N4]]].
  destruct (over _ _ _) as [cc push].
  destruct N4 as [N4|[-> ->]].
  - assert (chars <> []) by (intros ->; rewrite zlen_nil in Hl; nia).
    match goal with |- context [place w h s chars ?i' ?n' nx ny ?l ?a ?b] => destruct (IH i' n' nx ny l a b) as [wm' [am' P]] end; auto; try lia.
    rewrite P. exists wm', am'. replace (ny * w + nx + zlen chars) with (y * w + x + (1 + zlen chars)) by lia. reflexivity.
  - rewrite place_out. do 2 eexists. repeat f_equal.
    destruct chars as [|d chars].
    + rewrite zlen_nil in *. rewrite (proj2 (Z.eqb_eq i _)) by lia. rewrite (proj2 (Z.eqb_eq (w * h) _)) by lia. reflexivity.
    + rewrite zlen_cons in *. pose proof (zlen_nonneg _ chars). rewrite (proj2 (Z.eqb_neq i _)) by lia. rewrite (proj2 (Z.eqb_neq (w * h) _)) by lia. reflexivity.
Qed.
Lemma rest_dropped : forall e w h rest i x st, cache_ok e (ws_cache st) -> ws_off st = 0 -> 0 < i ->
  exists c', cache_ok e c' /\ place_line e w h rest i x h 0 st = (mkW (ws_wm st) (ws_am st) (ws_cells st) 0 c', Ok tt).
Proof.
  intros e w h rest. induction rest as [|s rest IH]; intros i x st Hc Ho Hi.
  { exists (ws_cache st). split; [exact Hc|]. cbn. rewrite <- Ho. destruct st; reflexivity. }
  cbn [place_line]. destruct (cached_ok e (ws_cache st) s true true Hc) as [c1 [E1 E2]]. rewrite E1.
  cbn [ws_cache ws_wm ws_am ws_cells ws_off]. rewrite (proj2 (Z.eqb_neq i 0)) by lia. cbn [andb]. cbn [ws_cache ws_wm ws_am ws_cells ws_off]. rewrite Ho, Z.sub_0_r, place_out.
  destruct (IH (i + 1) x (mkW (ws_wm st) (ws_am st) (ws_cells st) 0 c1) E2 eq_refl) as [c' [A B]]; [lia|]. exists c'. split; [exact A|]. exact B.
Qed.
Lemma first_placed : forall e w h a x y lst rest st, cache_ok e (ws_cache st) -> ws_off st = 0 -> no_attribute a -> ~ In NL (s_text a) -> s_text a <> [] ->
  inside_screen w h (x, y) = true -> w * h <= y * w + x + zlen (s_text a) ->
  exists c' wm am, cache_ok e c' /\ forall rest', rest' = rest \/ rest' = [] ->
    place_line e w h (a :: rest') 0 x y lst st = place_line e w h rest' 1 0 h (if w * h =? y * w + x + zlen (s_text a) then 1 else 0) (mkW wm am (ws_cells st) 0 c').
Proof.
  intros e w h a x y lst rest st Hc Ho Ha Hnl Hne Hin Hl. apply inside_iff in Hin. cbn [fst snd] in Hin. destruct Hin as [Hx Hy].
  destruct (cached_ok e (ws_cache st) a true true Hc) as [c1 [E1 E2]].
  assert (Z1 : zlen (map sing (s_text a)) = zlen (s_text a)) by (unfold zlen; now rewrite map_length).
  destruct (place_end w h a (map sing (s_text a)) 0 (zlen (map sing (s_text a))) x y lst (ws_wm st) (ws_am st) Hx Hy) as [wm [am P]].
  { apply Forall_map. apply Forall_forall. intros c Hi E. injection E as E. subst c. contradiction. }
  { symmetry. apply Z.add_0_l. }
  { destruct (s_text a); [congruence|discriminate]. }
  { etransitivity; [exact Hl|]. apply Z.eq_le_incl. f_equal. symmetry. exact Z1. }
  match type of P with context [w * h =? y * w + x + ?z] => change z with (zlen (map sing (s_text a))) in P end. rewrite Z1 in P. exists c1, wm, am. split; [exact E2|]. intros rest' _. cbn [place_line]. rewrite E1.
  cbn [ws_cache ws_wm ws_am ws_cells ws_off]. rewrite Ho. rewrite (proj2 (Z.ltb_ge (h - 1) (y - 0))) by lia. rewrite andb_false_r.
  cbn [ws_cache ws_wm ws_am ws_cells ws_off]. rewrite Z.sub_0_r. rewrite plain_characters by exact Ha. rewrite Z1. erewrite P. reflexivity.
Qed.
Lemma cut_off : forall e c s p a rest tb force, cache_ok e c -> sc_off s = 0 -> no_attribute a -> ~ In NL (s_text a) ->
  inside_screen (sc_w s) (sc_h s) p = true -> sc_w s * sc_h s < reach (sc_w s) p a ->
  let '(s1, _, r1) := write_bulk e c s [(p, a :: rest)] tb force in
  let '(s2, _, r2) := write_bulk e c s [(p, [a])] tb force in s1 = s2 /\ r1 = r2.
Proof.
  intros e c s [x y] a rest tb force Hc Ho Ha Hnl Hin Hl. unfold reach in Hl. cbn [fst snd] in Hl. unfold write_bulk. rewrite Ho. cbn [place_all].
  pose proof (inside_number _ _ _ Hin) as N. unfold number in N. cbn [fst snd] in N.
  assert (Hne : s_text a <> []) by (intro E; rewrite E, zlen_nil in Hl; lia).
  set (st := mkW _ _ _ _ _).
  assert (Q : forall lst, exists c' wm am, cache_ok e c' /\ forall rest', place_line e (sc_w s) (sc_h s) (a :: rest') 0 x y lst st =
    place_line e (sc_w s) (sc_h s) rest' 1 0 (sc_h s) 0 (mkW wm am (sc_cells s) 0 c')).
  { intro lst. destruct (first_placed e (sc_w s) (sc_h s) a x y lst rest st Hc eq_refl Ha Hnl Hne Hin ltac:(lia)) as [c' [wm [am [A B]]]].
    exists c', wm, am. split; [exact A|]. intro rest'. destruct (first_placed e (sc_w s) (sc_h s) a x y lst rest' st Hc eq_refl Ha Hnl Hne Hin ltac:(lia)) as [c2 [wm2 [am2 [A2 B2]]]].
    rewrite (B2 rest') by now left. pose proof (B [] (or_intror eq_refl)) as E1. rewrite (B2 [] (or_intror eq_refl)) in E1. cbn [place_line] in E1.
    injection E1 as -> -> ->. rewrite (proj2 (Z.eqb_neq _ _)) by lia. reflexivity. }
  assert (L : forall lst1 lst2 rest', exists c1' c2' wm am, place_line e (sc_w s) (sc_h s) (a :: rest') 0 x y lst1 st = (mkW wm am (sc_cells s) 0 c1', Ok tt) /\
    place_line e (sc_w s) (sc_h s) [a] 0 x y lst2 st = (mkW wm am (sc_cells s) 0 c2', Ok tt)).
  { intros lst1 lst2 rest'. destruct (Q lst1) as [c1' [wm1 [am1 [A1 B1]]]]. destruct (Q lst2) as [c2' [wm2 [am2 [A2 B2]]]].
    assert (S : (wm2, am2) = (wm1, am1)).
    { pose proof (B1 []) as X. pose proof (B2 []) as Y. cbn [place_line] in X, Y. revert X Y.
      destruct (cached_characters e (ws_cache st) a true true) as [ch cc]. cbn [ws_cache ws_wm ws_am ws_cells ws_off st].
      apply inside_iff in Hin. cbn [fst snd] in Hin. rewrite (proj2 (Z.ltb_ge (sc_h s - 1) (y - 0))) by lia. rewrite !andb_false_r. cbn [ws_cache ws_wm ws_am ws_cells ws_off].
      match goal with |- context [place ?w0 ?h0 a ch 0 (zlen ch) x ?y0 lst1 ?m1 ?m2] =>
        destruct (place_any w0 h0 a ch 0 (zlen ch) 0 (zlen ch) x y0 lst1 lst2 m1 m2) as [x' [y' [k1 [k2 [wm' [am' [-> ->]]]]]]] end.
      intros X Y. injection X as -> -> _. injection Y as -> -> _. reflexivity. }
    injection S as -> ->. rewrite (B1 rest'), (B2 []).
    destruct (rest_dropped e (sc_w s) (sc_h s) rest' 1 0 (mkW wm1 am1 (sc_cells s) 0 c1') A1 eq_refl ltac:(lia)) as [c3 [_ ->]].
    exists c3, c2', wm1, am1. split; reflexivity. }
  destruct (L (zlen (a :: rest) - 1) (zlen [a] - 1) rest) as [c1' [c2' [wm [am [-> ->]]]]]. cbn [ws_cache ws_wm ws_am ws_cells ws_off].
  destruct (commit _ _ _ _ _ _ _ _) as [[[cells buf] n] ex]. split; reflexivity.
Qed.
Lemma scrolled_away : forall e c s p a b tb force, cache_ok e c -> sc_off s = 0 -> shaped s -> no_attribute a -> ~ In NL (s_text a) -> s_text a <> [] ->
  inside_screen (sc_w s) (sc_h s) p = true -> sc_w s * sc_h s = reach (sc_w s) p a ->
  let '(s1, _, r1) := write_bulk e c s [(p, [a; b])] tb force in sc_off s1 = 1 /\ (s_text b = [] -> r1 = Err IndexError).
Proof.
  intros e c s [x y] a b tb force Hc Ho Hs Ha Hnl Hne Hin Hl. unfold reach in Hl. cbn [fst snd] in Hl. unfold write_bulk. rewrite Ho. cbn [place_all].
  set (st := mkW _ _ _ _ _).
  destruct (first_placed e (sc_w s) (sc_h s) a x y (zlen [a; b] - 1) [b] st Hc eq_refl Ha Hnl Hne Hin ltac:(lia)) as [c' [wm [am [A B]]]].
  rewrite (B [b]) by now left. rewrite (proj2 (Z.eqb_eq _ _)) by exact Hl. cbn [place_line].
  destruct (cached_ok e c' b true true A) as [c1 [E1 E2]]. cbn [ws_cache]. rewrite E1. cbn [ws_cache ws_wm ws_am ws_cells ws_off st].
  rewrite Z.eqb_refl, Z.sub_0_r, (proj2 (Z.ltb_lt (sc_h s - 1) (sc_h s))) by lia. cbn [andb].
  replace (sc_h s - sc_h s + 1) with 1 by lia.
  destruct (append_nl (get_characters e b true true)) as [chars'|ex] eqn:AN.
  - destruct (sc_cells s) as [|row cells] eqn:EC.
    { exfalso. destruct Hs as [Hs _]. rewrite EC, zlen_nil in Hs. apply inside_iff in Hin. lia. }
    cbn [ws_cache ws_wm ws_am ws_cells ws_off]. destruct (place _ _ _ _ _ _ _ _ _ _ _) as [[[[x2 y2] l2] wm2] am2]. cbn [ws_cache ws_wm ws_am ws_cells ws_off].
    destruct (commit _ _ _ _ _ _ _ _) as [[[cells2 buf] n] ex]. split; [reflexivity|]. intro E. exfalso.
    unfold get_characters in AN. rewrite E in AN. destruct (chars_init _ _ _) as [q1 q2] eqn:Q. cbn in Q. injection Q as <- <-. discriminate AN.
  - cbn [ws_off]. split; [reflexivity|]. intros _. unfold append_nl in AN. destruct (rev _); [injection AN as <-; reflexivity|discriminate].
Qed.
