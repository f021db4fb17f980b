(** Lemmas: text with line breaks and no attributes. *)
From Coq Require Import ZArith Reals List Bool Lia.
From Verif Require Import PyBase PyLemmas F64 SpaceModel ColorModel ColorSpec AnsiRe SpanModel Vt SpanSpec SpanProofs
  ScreenModel ScreenSpec ScreenProofs ScreenProofs2 ScreenProofs3 ScreenProofs4 DrawSpec DrawProofs DrawProofs2 LineSpec.
Import ListNotations.
Open Scope Z_scope.
Open Scope list_scope.

Definition sing (c : Z) : str := [c].
Lemma plain_characters : forall e s, no_attribute s -> get_characters e s true true = map sing (s_text s).
Proof.
  intros e s H. unfold get_characters. pose proof (no_flags_lead (s_flags s) H) as L. unfold lead in L. fold (span_colorless s) in L. rewrite L.
  assert (G : forall t, chars_init [] true t = (map sing t, [])).
  { intro t. induction t as [|c t IH]; [reflexivity|]. cbn [chars_init]. rewrite IH. reflexivity. }
  rewrite G. cbn [str_eqb negb andb]. destruct (s_text s) as [|c t] using rev_ind; [reflexivity|].
  rewrite rev_unit, removelast_last, map_app. reflexivity.
Qed.
Lemma with_text_attribute : forall t s, no_attribute s -> no_attribute (with_text t s).
Proof. intros t s H. exact H. Qed.

(** the outcome of the character loop without its [last] *)
Definition spot (w h : Z) (s : span) (chars : list str) (k : Z * Z * wmatrix * amatrix) : Z * Z * wmatrix * amatrix :=
  let '(x, y, wm, am) := k in let '(x', y', _, wm', am') := place w h s chars 0 0 x y 0 wm am in (x', y', wm', am').
Lemma place_any : forall w h s chars i n j k x y l1 l2 wm am,
  exists x' y' k1 k2 wm' am', place w h s chars i n x y l1 wm am = (x', y', k1, wm', am') /\ place w h s chars j k x y l2 wm am = (x', y', k2, wm', am').
Proof.
  intros w h s chars. induction chars as [|ch chars IH]; intros i n j k x y l1 l2 wm am; [do 6 eexists; split; reflexivity|]. cbn [place].
  destruct (_ || _); [do 6 eexists; split; reflexivity|]. destruct (str_eqb ch [NL]); [apply IH|].
  destruct (if w <=? x + 1 then _ else _) as [nx ny]. destruct (over _ _ _) as [cc push]. apply IH.
Qed.
Lemma place_spot : forall w h s chars i n x y lst wm am, exists lst',
  place w h s chars i n x y lst wm am = (let '(x', y', wm', am') := spot w h s chars (x, y, wm, am) in (x', y', lst', wm', am')).
Proof.
  intros. unfold spot. destruct (place_any w h s chars i n 0 0 x y lst 0 wm am) as [x' [y' [k1 [k2 [wm' [am' [-> ->]]]]]]]. exists k1. reflexivity.
Qed.
Lemma spot_cons : forall w h s ch chars x y wm am, spot w h s (ch :: chars) (x, y, wm, am) =
  if inside_screen w h (x, y) then
    if str_eqb ch [NL] then spot w h s chars (x, y + 1, wm, am) else
      let '(nx, ny) := if w <=? x + 1 then (0, y + 1) else (x + 1, y) in
      let '(c, push) := over s ch (match mget wm x y with Some o => o | None => None end) in
      spot w h s chars (nx, ny, mset wm x y (Some c), am_push am x y push)
  else (x, y, wm, am).
Proof.
  intros. unfold spot at 1. cbn [place]. unfold inside_screen. cbn [fst snd].
  replace ((w <=? x) || (x <? 0) || (h <=? y) || (y <? 0)) with (negb ((0 <=? x) && (x <? w) && (0 <=? y) && (y <? h))).
  2: { destruct (Z.leb_spec 0 x), (Z.ltb_spec x w), (Z.leb_spec 0 y), (Z.ltb_spec y h), (Z.leb_spec w x), (Z.ltb_spec x 0), (Z.leb_spec h y), (Z.ltb_spec y 0); try lia; reflexivity. }
  destruct (_ && _); cbn [negb]; [|reflexivity]. destruct (str_eqb ch [NL]).
  - unfold spot. destruct (place_any w h s chars (0 + 1) 0 0 0 x (y + 1) 0 0 wm am) as [x' [y' [k1 [k2 [wm' [am' [-> ->]]]]]]]. reflexivity.
  - destruct (if w <=? x + 1 then _ else _) as [nx ny]. destruct (over _ _ _) as [cc push]. unfold spot.
    match goal with |- context [place w h s chars (0 + 1) 0 nx ny ?l ?a ?b] => destruct (place_any w h s chars (0 + 1) 0 0 0 nx ny l 0 a b) as [x' [y' [k1 [k2 [wm' [am' [-> ->]]]]]]] end. reflexivity.
Qed.
Lemma spot_nil : forall w h s k, spot w h s [] k = k.
Proof. intros w h s [[[x y] wm] am]. reflexivity. Qed.
Lemma spot_out : forall w h s chars x y wm am, inside_screen w h (x, y) = false -> spot w h s chars (x, y, wm, am) = (x, y, wm, am).
Proof. intros w h s [|ch chars] x y wm am H; [reflexivity|]. rewrite spot_cons, H. reflexivity. Qed.
Lemma spot_app : forall w h s a b k, spot w h s (a ++ b) k = spot w h s b (spot w h s a k).
Proof.
  intros w h s a. induction a as [|ch a IH]; intros b [[[x y] wm] am]; [reflexivity|]. rewrite <- app_comm_cons, !spot_cons.
  destruct (inside_screen w h (x, y)) eqn:E; [|now rewrite spot_out]. destruct (str_eqb ch [NL]); [apply IH|].
  destruct (if w <=? x + 1 then _ else _) as [nx ny]. destruct (over _ _ _) as [cc push]. apply IH.
Qed.
Lemma spot_style : forall w h s s' chars k, s_fg s = s_fg s' -> s_bg s = s_bg s' -> s_flags s = s_flags s' -> spot w h s chars k = spot w h s' chars k.
Proof.
  intros w h s s' chars k H1 H2 H3. revert k. induction chars as [|ch chars IH]; intros [[[x y] wm] am]; [reflexivity|]. rewrite !spot_cons.
  destruct (inside_screen w h (x, y)); [|reflexivity]. destruct (str_eqb ch [NL]); [apply IH|].
  destruct (if w <=? x + 1 then _ else _) as [nx ny]. unfold over. rewrite H1, H2, H3. destruct (match _ with Some _ => _ | None => _ end) as [cc push]. apply IH.
Qed.
(** where a line ends *)
Lemma inside_iff : forall w h p, inside_screen w h p = true <-> 0 <= fst p < w /\ 0 <= snd p < h.
Proof. intros. unfold inside_screen. rewrite !andb_true_iff, !Z.leb_le, !Z.ltb_lt. lia. Qed.
Lemma spot_end : forall w h s t x y wm am, inside_screen w h (x, y) = true -> ~ In NL t ->
  let '(x', y', _, _) := spot w h s (map sing t) (x, y, wm, am) in
  let n := y * w + x + zlen t in
  (n < w * h -> (x', y') = (n mod w, n / w)) /\ (w * h <= n -> inside_screen w h (x', y') = false /\ h <= n / w).
Proof.
  intros w h s t x y wm am H Hn. apply inside_iff in H. cbn [fst snd] in H. destruct H as [Hx Hy]. unfold spot.
  destruct (place_spec w h s (map sing t) 0 0 x y 0 wm am Hx (or_introl Hy)) as [lst [-> _]].
  { apply Forall_map. apply Forall_forall. intros c Hc E. injection E as E. subst c. contradiction. }
  cbv zeta. match goal with |- context [Z.min (_ + ?z) (w * h)] => assert (L : z = zlen t) by (unfold zlen; now rewrite map_length); rewrite L end. split; intro Hw.
  - now rewrite Z.min_l by lia.
  - rewrite Z.min_r by lia. replace (w * h) with (h * w + 0) by lia. destruct (cell_number w 0 h ltac:(lia)) as [-> ->]. split.
    + apply not_true_iff_false. rewrite inside_iff. cbn [fst snd]. lia.
    + apply Z.div_le_lower_bound; lia.
Qed.

(** * The Spans of the stairs *)
Definition one_by_one (w h : Z) (entries : list (pos * list span)) (k : wmatrix * amatrix) : wmatrix * amatrix :=
  fold_left (fun k entry => fold_left (fun k s => let '(_, _, wm, am) := spot w h s (map sing (s_text s)) (fst (fst entry), snd (fst entry), fst k, snd k) in (wm, am)) (snd entry) k) entries k.
Lemma one_by_one_cons : forall w h x y s data wm am, one_by_one w h (((x, y), [s]) :: data) (wm, am) =
  (let '(_, _, wm', am') := spot w h s (map sing (s_text s)) (x, y, wm, am) in one_by_one w h data (wm', am')).
Proof. intros. unfold one_by_one. cbn [fold_left fst snd]. destruct (spot _ _ _ _ _) as [[[x1 y1] wm1] am1]. reflexivity. Qed.
Lemma join_split : forall t, join [NL] (split_on NL t) = t /\ Forall (fun l => ~ In NL l) (split_on NL t) /\ split_on NL t <> [].
Proof.
  intro t. induction t as [|c t [IH1 [IH2 IH3]]]; [split; [reflexivity|split; [repeat constructor; auto|discriminate]]|]. cbn [split_on].
  destruct (Z.eqb_spec c NL) as [->|N].
  - split; [|split; [constructor; auto|discriminate]]. destruct (split_on NL t) as [|a r] eqn:E; [congruence|]. cbn [join]. rewrite <- IH1. reflexivity.
  - destruct (split_on NL t) as [|a r] eqn:E; [congruence|]. inversion IH2; subst. split; [|split; [|discriminate]].
    + cbn [join]. destruct r; reflexivity.
    + constructor; [|assumption]. intros [X|X]; congruence.
Qed.
Lemma stairs_spot : forall w h s lines x y wm am, lines <> [] -> Forall (fun l => ~ In NL l) lines ->
  let '(_, _, wm', am') := spot w h s (map sing (join [NL] lines)) (x, y, wm, am) in
  (wm', am') = one_by_one w h (stairs w h (x, y) s lines) (wm, am).
Proof.
  intros w h s lines. induction lines as [|l lines IH]; intros x y wm am Hne HF; [congruence|]. inversion HF as [|? ? Hl HF']; subst. cbn [stairs].
  destruct (inside_screen w h (x, y)) eqn:E; [|rewrite spot_out by exact E; reflexivity].
  unfold one_by_one. cbn [fold_left fst snd]. fold (one_by_one w h).
  change (s_text (with_text l s)) with l. rewrite (spot_style w h (with_text l s) s) by reflexivity.
  pose proof (spot_end w h s l x y wm am E Hl) as SE.
  destruct lines as [|l' lines].
  { cbn [join stairs one_by_one fold_left]. destruct (spot w h s (map sing l) (x, y, wm, am)) as [[[x1 y1] wm1] am1]. reflexivity. }
  change (join [NL] (l :: l' :: lines)) with (l ++ [NL] ++ join [NL] (l' :: lines)). rewrite map_app, spot_app.
  destruct (spot w h s (map sing l) (x, y, wm, am)) as [[[x1 y1] wm1] am1]. cbn [map app]. rewrite spot_cons.
  change (str_eqb (sing NL) [NL]) with true. cbv iota. cbv zeta in SE. unfold below_end. cbn [fst snd]. destruct SE as [S1 S2].
  set (n := y * w + x + zlen l) in *. apply inside_iff in E. cbn [fst snd] in E. pose proof (zlen_nonneg _ l) as Zl.
  destruct (Z.ltb_spec n (w * h)) as [Lt|Ge].
  - specialize (S1 Lt). injection S1 as -> ->. assert (I1 : inside_screen w h (n mod w, n / w) = true).
    { apply inside_iff. cbn [fst snd]. split; [apply Z.mod_pos_bound; lia|]. split; [apply Z.div_pos; unfold n; nia|apply Z.div_lt_upper_bound; lia]. }
    rewrite I1. apply IH; [discriminate|exact HF'].
  - destruct (S2 Ge) as [O1 O2]. rewrite O1. cbn [stairs]. assert (O3 : inside_screen w h (n mod w, n / w + 1) = false).
    { apply not_true_iff_false. rewrite inside_iff. cbn [fst snd]. lia. }
    rewrite O3. reflexivity.
Qed.
Definition lone_entry (h : Z) (entry : pos * list span) : Prop := exists s, snd entry = [s] /\ no_attribute s /\ snd (fst entry) < h.
Lemma place_lone : forall e w h data st, cache_ok e (ws_cache st) -> ws_off st = 0 -> Forall (lone_entry h) data ->
  exists c', cache_ok e c' /\ place_all e w h data st =
    (let k := one_by_one w h data (ws_wm st, ws_am st) in mkW (fst k) (snd k) (ws_cells st) 0 c', Ok tt).
Proof.
  intros e w h data. induction data as [|[[x y] line] data IH]; intros st Hc Ho HF.
  { exists (ws_cache st). split; [exact Hc|]. cbn. rewrite <- Ho. destruct st; reflexivity. }
  inversion HF as [|? ? [s [El [Hs Hy]]] HF']; subst. cbn [snd fst] in El, Hy. subst line. cbn [place_all place_line].
  destruct (cached_ok e (ws_cache st) s true true Hc) as [c1 [E1 E2]]. rewrite E1.
  cbn [ws_cache ws_wm ws_am ws_cells ws_off]. rewrite Ho. rewrite (proj2 (Z.ltb_ge (h - 1) (y - 0))) by lia. rewrite andb_false_r.
  cbn [ws_cache ws_wm ws_am ws_cells ws_off]. rewrite Z.sub_0_r. rewrite plain_characters by exact Hs.
  destruct (place_spot w h s (map sing (s_text s)) 0 (zlen (map sing (s_text s))) x y (zlen [s] - 1) (ws_wm st) (ws_am st)) as [lst ->].
  rewrite one_by_one_cons.
  destruct (spot w h s (map sing (s_text s)) (x, y, ws_wm st, ws_am st)) as [[[x1 y1] wm1] am1].
  destruct (IH (mkW wm1 am1 (ws_cells st) 0 c1) E2 eq_refl HF') as [c' [A B]]. exists c'. split; [exact A|]. rewrite B. reflexivity.
Qed.
Lemma stairs_lone : forall w h s lines p, no_attribute s -> Forall (lone_entry h) (stairs w h p s lines).
Proof.
  intros w h s lines. induction lines as [|l lines IH]; intros p Hs; [constructor|]. cbn [stairs]. destruct (inside_screen w h p) eqn:E; [|constructor].
  constructor; [|now apply IH]. apply inside_iff in E. exists (with_text l s). split; [reflexivity|]. split; [exact Hs|]. cbn [fst snd]. lia.
Qed.
Lemma stairs_matrix : forall w h data k, Forall (text_entry h) data -> one_by_one w h (flat_map (entry_stairs w h) data) k = one_by_one w h data k.
Proof.
  intros w h data. induction data as [|[[x y] line] data IH]; intros k HF; [reflexivity|]. inversion HF as [|? ? [s [El [Hs Hy]]] HF']; subst. cbn [snd fst] in El, Hy. subst line.
  cbn [flat_map]. unfold entry_stairs at 1. cbn [flat_map fst snd]. rewrite app_nil_r. unfold one_by_one at 1. rewrite fold_left_app. fold (one_by_one w h).
  change (fold_left _ (stairs w h (x, y) s (split_on NL (s_text s))) k) with (one_by_one w h (stairs w h (x, y) s (split_on NL (s_text s))) k).
  destruct (join_split (s_text s)) as [J1 [J2 J3]]. destruct k as [wm am].
  pose proof (stairs_spot w h s (split_on NL (s_text s)) x y wm am J3 J2) as S. rewrite J1 in S.
  transitivity (one_by_one w h data (one_by_one w h (stairs w h (x, y) s (split_on NL (s_text s))) (wm, am))); [apply (IH _ HF')|].
  rewrite one_by_one_cons. destruct (spot w h s (map sing (s_text s)) (x, y, wm, am)) as [[[x1 y1] wm1] am1].
  rewrite <- S. reflexivity.
Qed.
Lemma lines_write : forall e c c2 s data tb force, cache_ok e c -> cache_ok e c2 -> sc_off s = 0 -> Forall (text_entry (sc_h s)) data ->
  let '(s1, c1', r1) := write_bulk e c s data tb force in
  let '(s2, c2', r2) := write_bulk e c2 s (flat_map (entry_stairs (sc_w s) (sc_h s)) data) tb force in
  s1 = s2 /\ r1 = r2 /\ cache_ok e c1' /\ cache_ok e c2' /\ sc_off s1 = 0 /\ sc_w s1 = sc_w s /\ sc_h s1 = sc_h s.
Proof.
  intros e c c2 s data tb force Hc Hc2 Ho HF. unfold write_bulk. rewrite Ho.
  destruct (place_lone e (sc_w s) (sc_h s) data (mkW (blank_matrix (sc_w s) (sc_h s) None) (blank_matrix (sc_w s) (sc_h s) []) (sc_cells s) 0 c) Hc eq_refl HF) as [c' [A ->]].
  assert (HF2 : Forall (lone_entry (sc_h s)) (flat_map (entry_stairs (sc_w s) (sc_h s)) data)).
  { apply Forall_flat_map. revert HF. apply Forall_impl. intros [p line] [sp [El [Hs Hy]]]. cbn [snd fst] in *. subst line. unfold entry_stairs. cbn [flat_map fst snd]. rewrite app_nil_r. now apply stairs_lone. }
  destruct (place_lone e (sc_w s) (sc_h s) _ (mkW (blank_matrix (sc_w s) (sc_h s) None) (blank_matrix (sc_w s) (sc_h s) []) (sc_cells s) 0 c2) Hc2 eq_refl HF2) as [c2' [A2 ->]].
  cbn [ws_cache ws_wm ws_am ws_cells ws_off]. rewrite (stairs_matrix _ _ _ _ HF). cbv zeta. cbn [ws_cache ws_wm ws_am ws_cells ws_off].
  destruct (commit _ _ _ _ _ _ _ _) as [[[cells buf] n] ex]. repeat split; auto.
Qed.

(** * Histories *)
Lemma text_run : forall e origin w h acts s c c2 m, cache_ok e c -> cache_ok e c2 -> sc_off s = 0 -> sc_w s = w -> sc_h s = h -> Forall (text_act_ok w h) acts ->
  let '(s1, _, m1) := fold_left (perform e origin) acts (s, c, m) in
  let '(s2, _, m2) := fold_left (perform e origin) (map (text_act w h) acts) (s, c2, m) in s1 = s2 /\ m1 = m2.
Proof.
  intros e origin w h acts. induction acts as [|a acts IH]; intros s c c2 m Hc Hc2 Ho Hw Hh HF; [split; reflexivity|].
  inversion HF as [|? ? Ha HF']; subst. cbn [map fold_left]. destruct a as [data tb force|fill|]; cbn [text_act perform].
  - destruct Ha as [Ha _]. pose proof (lines_write e c c2 s data tb force Hc Hc2 Ho Ha) as L.
    destruct (write_bulk e c s data tb force) as [[s1 c1] r1]. destruct (write_bulk e c2 s _ tb force) as [[s2 c2'] r2].
    destruct L as [-> [_ [L1 [L2 [L3 [L4 L5]]]]]]. specialize (IH s2 c1 c2' m L1 L2 L3 L4 L5 HF'). exact IH.
  - apply IH; auto.
  - destruct (render s origin false) as [out s'] eqn:R. assert (ES : s' = mkScreen (sc_w s) (sc_h s) (sc_cells s) [] (sc_cursor s) (sc_off s)).
    { unfold render in R. destruct origin. injection R as _ <-. reflexivity. }
    apply IH; auto; subst s'; cbn; auto.
Qed.
Lemma stairs_ok : forall w h s lines p, Forall (fun l => printable l) lines -> text_ok s -> no_attribute s ->
  Forall (calm_entry w h) (stairs w h p s lines) /\ Forall (fun entry => Forall drawable (snd entry)) (stairs w h p s lines).
Proof.
  intros w h s lines. induction lines as [|l lines IH]; intros p HF Hs Hn; [split; constructor|]. inversion HF as [|? ? Hl HF']; subst. cbn [stairs].
  destruct (inside_screen w h p) eqn:E; [|split; constructor]. destruct (IH (below_end w p l) HF' Hs Hn) as [A B]. apply inside_iff in E. destruct p as [x y]. cbn [fst snd] in E. split; constructor; auto.
  - split; [lia|]. split; [|exact Logic.I]. constructor; [|constructor]. cbn [with_text s_text]. intro X. unfold printable in Hl. rewrite Forall_forall in Hl. specialize (Hl _ X). discriminate.
  - constructor; [|constructor]. destruct Hs as [_ [H2 H3]]. split; [exact Hl|]. split; [intros _; exact Hn|]. split; assumption.
Qed.
Lemma split_printable : forall t, Forall (fun c => c = NL \/ is_ctl c = false) t -> Forall (fun l => printable l) (split_on NL t).
Proof.
  intros t. induction t as [|c t IH]; intro H; [repeat constructor|]. inversion H as [|? ? Hc Ht]; subst. cbn [split_on]. specialize (IH Ht).
  destruct (Z.eqb_spec c NL) as [E|E]; [constructor; [constructor|exact IH]|]. destruct Hc as [Hc|Hc]; [contradiction|].
  destruct (split_on NL t); [repeat constructor; exact Hc|]. inversion IH; subst. constructor; [constructor; assumption|assumption].
Qed.
Lemma text_act_fine : forall w h a, text_act_ok w h a -> act_ok w h (text_act w h a).
Proof.
  intros w h [data tb force|fill|] H; try exact H. destruct H as [H1 [H2 H3]]. cbn [text_act act_ok].
  assert (G : Forall (calm_entry w h) (flat_map (entry_stairs w h) data) /\ Forall (fun entry => Forall drawable (snd entry)) (flat_map (entry_stairs w h) data)).
  { split; apply Forall_flat_map; apply Forall_forall; intros [p line] Hi; rewrite Forall_forall in H1, H3; destruct (H1 _ Hi) as [s [El [Hs Hy]]]; specialize (H3 _ Hi);
      cbn [fst snd] in *; subst line; inversion H3 as [|? ? Hs' _]; subst; unfold entry_stairs; cbn [flat_map fst snd]; rewrite app_nil_r;
      destruct (stairs_ok w h s (split_on NL (s_text s)) p) as [A B]; auto; apply split_printable; apply Hs'. }
  destruct G. auto.
Qed.
Lemma lines_shown : forall e sh w h cursor fill origin m acts, shades e sh -> is_ctl fill = false ->
  at_rest m -> fits w h origin m -> Forall (text_act_ok w h) acts ->
  let '(s, _, m') := fold_left (perform e origin) (acts ++ [ADraw]) (new_screen w h cursor [fill], [], m) in
  let p := fold_left (paint_act sh w h) (map (text_act w h) acts) (blank fill) in
  (forall q, on_screen w h q -> seen origin m' q = (fst (p q), snd (p q), [])) /\
  (forall X Y, ~ on_screen w h (X - fst origin + 1, Y - snd origin + 1) -> e_grid m' X Y = e_grid m X Y) /\
  at_rest m' /\ sc_buf s = [].
Proof.
  intros e sh w h cursor fill origin m acts Hsh Hf Hm Hfit HF.
  assert (HF2 : Forall (act_ok w h) (map (text_act w h) acts)) by (apply Forall_map; revert HF; apply Forall_impl; intros a; apply text_act_fine).
  pose proof (drawing e sh w h cursor fill origin m _ Hsh Hf Hm Hfit HF2) as D.
  assert (HF3 : Forall (text_act_ok w h) (acts ++ [ADraw])) by (apply Forall_app; split; [exact HF|repeat constructor]).
  assert (Hc0 : cache_ok e []) by constructor.
  pose proof (text_run e origin w h (acts ++ [ADraw]) (new_screen w h cursor [fill]) [] [] m Hc0 Hc0 eq_refl eq_refl eq_refl HF3) as T.
  rewrite map_app in T. cbn [map text_act] in T. destruct (fold_left (perform e origin) (acts ++ [ADraw]) _) as [[s1 c1] m1].
  destruct (fold_left (perform e origin) (map (text_act w h) acts ++ [ADraw]) _) as [[s2 c2] m2]. destruct T as [-> ->]. exact D.
Qed.
