(** Drawing: one cell, then all pending cells. *)
From Coq Require Import ZArith Reals List Bool Lia String Permutation Sorting.Sorted.
From Verif Require Import PyBase PyLemmas F64 SpaceModel ColorModel ColorSpec ColorProofs AnsiRe SpanModel Vt SpanSpec
  SpanProofs SpanProofs2 ScreenModel ScreenSpec ScreenProofs ScreenProofs3 ScreenProofs4 ScreenProofs5 ScreenProofs6 ScreenProofs7 ScreenProofs8 DrawSpec.
Import ListNotations.
Open Scope Z_scope.

(** * One cell *)
Definition lead (f : flags) : str := csi_or_empty (colorless_body f).
Definition layer_ok (bg : bool) (o : option color) : Prop := forall c, o = Some c -> by_value c /\ c_bg c = bg.
Definition shade_o (sh : triple -> ecolor) (o : option color) : option ecolor := option_map (fun c => sh (c_rgb c)) o.
(** the cell displays as [g] in [rd] *)
Definition shows (sh : triple -> ecolor) (c : cell) (v : Z * rend) : Prop :=
  let '(t, fg, bg) := c in
  layer_ok false fg /\ layer_ok true bg /\ is_ctl (fst v) = false /\
  exists f r, t = lead f ++ fst v :: r /\ (r = [] \/ r = RESET) /\
    snd v = styled f (shade_o sh fg) (shade_o sh bg) rend0 /\
    (fg = None -> bg = None -> f = no_flags /\ r = []).

Lemma vt_char : forall g m, is_ctl g = false -> e_parse m = PGround -> vt [g] m = put_char g m.
Proof. intros g m H Hm. rewrite vt_text; auto. repeat constructor. exact H. Qed.
Lemma vt_lead : forall f m, e_parse m = PGround -> vt (lead f) m = set_rend (styled f None None (e_rend m)) m.
Proof.
  intros f m Hm. unfold lead, csi_or_empty. destruct (colorless_body f) as [|a b] eqn:E.
  - apply colorless_nil in E. cbn in E.
    assert (S : styled f None None (e_rend m) = e_rend m).
    { destruct f as [[] [] [] [] [] [] [] [] [] []]; try discriminate E; destruct (e_rend m); reflexivity. }
    rewrite S, set_rend_id. reflexivity.
  - rewrite vt_csi_m; auto; rewrite <- E; [|apply colorless_params]. rewrite colorless_sgr; auto. rewrite E. discriminate.
Qed.
Lemma vt_glyph : forall f g r m, is_ctl g = false -> (r = [] \/ r = RESET) -> e_parse m = PGround ->
  vt (lead f ++ g :: r) m =
  let m' := put_char g (set_rend (styled f None None (e_rend m)) m) in match r with [] => m' | _ => set_rend rend0 m' end.
Proof.
  intros f g r m Hg Hr Hm. rewrite vt_app, vt_lead by exact Hm. change (g :: r) with ([g] ++ r). rewrite vt_app, vt_char by auto.
  destruct Hr as [-> | ->]; [reflexivity|]. rewrite vt_reset; [reflexivity|]. now rewrite put_char_parse.
Qed.

Lemma colors_body : forall e sh fg bg pen, shades e sh -> layer_ok false fg -> layer_ok true bg ->
  let b := match fg, bg with
           | Some f, Some b => color_ansi e f ++ lit ";"%string ++ color_ansi e b
           | Some f, None => color_ansi e f
           | None, Some b => color_ansi e b
           | None, None => [] end in
  forallb param_char b = true /\ (b = [] <-> fg = None /\ bg = None) /\
  (b <> [] -> sgr (params b) pen = styled no_flags (shade_o sh fg) (shade_o sh bg) pen).
Proof.
  intros e sh fg bg pen Hsh Hf Hb.
  assert (A : forall l c, by_value c /\ c_bg c = l -> color_ansi e c <> [] /\ forallb param_char (color_ansi e c) = true /\
     forall more pen, sgr (params (color_ansi e c) ++ more) pen = sgr more (paint l (sh (c_rgb c)) pen)).
  { intros l c [H1 H2]. destruct (Hsh c H1) as [E1 [E2 E3]]. rewrite H2 in E3. auto. }
  assert (A0 : forall l c pen, by_value c /\ c_bg c = l -> sgr (params (color_ansi e c)) pen = paint l (sh (c_rgb c)) pen).
  { intros l c pen0 H. destruct (A l c H) as [_ [_ E]]. specialize (E [] pen0). rewrite app_nil_r in E. exact E. }
  destruct fg as [f|], bg as [b|]; cbn [shade_o option_map]; cbv zeta.
  - specialize (Hf f eq_refl). specialize (Hb b eq_refl). destruct (A _ _ Hf) as [N1 [P1 E1]]. destruct (A _ _ Hb) as [N2 [P2 E2]].
    change (lit ";"%string ++ color_ansi e b) with (59 :: color_ansi e b).
    split; [rewrite forallb_app, P1; cbn [forallb]; rewrite P2; reflexivity|].
    split; [split; [intro H; apply app_eq_nil in H; destruct H; contradiction|intros [H _]; discriminate]|].
    intros _. rewrite params_semi, E1, (A0 true) by exact Hb. destruct pen; reflexivity.
  - specialize (Hf f eq_refl). destruct (A _ _ Hf) as [N1 [P1 E1]].
    split; [exact P1|]. split; [split; [contradiction|intros [H _]; discriminate]|]. intros _. rewrite (A0 false) by exact Hf. destruct pen; reflexivity.
  - specialize (Hb b eq_refl). destruct (A _ _ Hb) as [N1 [P1 E1]].
    split; [exact P1|]. split; [split; [contradiction|intros [_ H]; discriminate]|]. intros _. rewrite (A0 true) by exact Hb. destruct pen; reflexivity.
  - split; [reflexivity|]. split; [tauto|]. congruence.
Qed.

Lemma set_rend2 : forall a b m, set_rend a (set_rend b m) = set_rend a m. Proof. reflexivity. Qed.
Lemma vt_drawn : forall e sh c v m, shades e sh -> shows sh c v -> e_parse m = PGround -> e_rend m = rend0 ->
  vt (drawn e c) m = set_rend rend0 (put_char (fst v) (set_rend (snd v) m)).
Proof.
  intros e sh [[t fg] bg] [g rd] m Hsh [Hf [Hb [Hg [f [r [Et [Hr [Erd Hn]]]]]]]] Hm Hp. cbn [fst snd] in *. unfold drawn.
  destruct (colors_body e sh fg bg rend0 Hsh Hf Hb) as [P [N S]].
  match goal with |- context [str_eqb ?b []] => set (cs := b) in * end.
  destruct (str_eqb cs []) eqn:E.
  - apply str_eqb_eq in E. apply N in E. destruct E as [-> ->]. destruct (Hn eq_refl eq_refl) as [-> ->].
    subst t. rewrite vt_glyph by auto. cbv zeta. rewrite Hp. rewrite Erd. cbn [shade_o option_map]. rewrite styled_none.
    rewrite <- (set_rend_id (put_char g (set_rend rend0 m))) at 1. rewrite put_char_rend. reflexivity.
  - apply str_eqb_neq in E. specialize (S E).
    change ([27; 91] ++ cs ++ [109] ++ t ++ [27; 91; 48; 109]) with (csi_m cs ++ t ++ RESET) || idtac.
    replace ([27; 91] ++ cs ++ [109] ++ t ++ [27; 91; 48; 109]) with (csi_m cs ++ t ++ RESET)
      by (unfold csi_m; rewrite <- !app_assoc; reflexivity).
    rewrite !vt_app, vt_csi_m by auto. rewrite Hp, S. subst t.
    rewrite vt_glyph by auto. cbv zeta. cbn [e_rend set_rend]. rewrite styled_trans, <- Erd, set_rend2.
    assert (Q : e_parse (put_char g (set_rend rd m)) = PGround) by (rewrite put_char_parse; exact Hm).
    destruct Hr as [-> | ->]; (rewrite vt_reset; [reflexivity|exact Q]).
Qed.

(** equal cells display the same *)
Lemma glyph_det : forall f g r f' g' r' pen, is_ctl g = false -> is_ctl g' = false -> (r = [] \/ r = RESET) -> (r' = [] \/ r' = RESET) ->
  lead f ++ g :: r = lead f' ++ g' :: r' -> g = g' /\ styled f None None pen = styled f' None None pen.
Proof.
  intros f g r f' g' r' pen Hg Hg' Hr Hr' E.
  set (m := set_rend pen (emu0 2 1)).
  assert (V : forall f g r, is_ctl g = false -> (r = [] \/ r = RESET) -> e_grid (vt (lead f ++ g :: r) m) 0 0 = (g, styled f None None pen, [])).
  { intros f0 g0 r0 H1 H2. rewrite vt_glyph by auto. cbv zeta. change (e_rend m) with pen.
    destruct H2 as [-> | ->]; reflexivity. }
  pose proof (V f g r Hg Hr) as V1. rewrite E, (V f' g' r' Hg' Hr') in V1. apply pair_equal_spec in V1. destruct V1 as [V1 _]. apply pair_equal_spec in V1. destruct V1. auto.
Qed.
Lemma shade_eq : forall sh a b, eq_color a b -> shade_o sh a = shade_o sh b.
Proof.
  intros sh [a|] [b|] H; cbn in *; try contradiction; auto. unfold eq_color in H. cbn in H. f_equal. f_equal. tauto.
Qed.
Lemma shows_det : forall sh c c' v v', same_cell c c' -> shows sh c v -> shows sh c' v' -> v = v'.
Proof.
  intros sh [[t fg] bg] [[t' fg'] bg'] [g rd] [g' rd'] [Et [Ef Eb]] [_ [_ [Hg [f [r [H1 [H2 [H3 _]]]]]]]] [_ [_ [Hg' [f' [r' [H1' [H2' [H3' _]]]]]]]].
  cbn [fst snd] in *. rewrite (shade_eq sh _ _ Ef), (shade_eq sh _ _ Eb) in H3. rewrite H1, H1' in Et. 
  destruct (glyph_det f g r f' g' r' (styled no_flags (shade_o sh fg') (shade_o sh bg') rend0) Hg Hg' H2 H2' Et) as [-> E].
  rewrite !styled_trans in E. congruence.
Qed.

(** * Cursor moves *)
Lemma dec_params : forall n, 0 <= n -> forallb param_char (dec n) = true /\ params (dec n) = [n].
Proof.
  intros n H. pose proof (sgr_text_params [n]) as P. destruct P as [P1 [P2 P3]]; [repeat constructor; lia|discriminate|].
  split; [exact P2|exact P1].
Qed.
Lemma vt_move : forall x y m, 0 <= x -> 0 <= y -> e_parse m = PGround -> vt (move_to x y) m = cup_to [y; x] m.
Proof.
  intros x y m Hx Hy Hm. destruct (dec_params x Hx) as [P1 E1]. destruct (dec_params y Hy) as [P2 E2].
  unfold move_to. set (b := dec y ++ [59] ++ dec x).
  assert (P : forallb param_char b = true) by (unfold b; rewrite !forallb_app, P1, P2; reflexivity).
  assert (E : params b = [y; x]) by (unfold b; change (dec y ++ [59] ++ dec x) with (dec y ++ 59 :: dec x); rewrite params_semi, E1, E2; reflexivity).
  replace ([27; 91] ++ dec y ++ [59] ++ dec x ++ [72]) with (27 :: 91 :: (b ++ [72])) by (unfold b; cbn [app]; rewrite <- !app_assoc; reflexivity).
  cbn [vt fold_left]. unfold feed1 at 3. rewrite Hm. change (27 =? 27) with true. cbv iota.
  unfold feed1 at 2. cbn [e_parse set_parse]. change (91 =? 91) with true. cbv iota.
  change (fold_left feed1 (b ++ [72]) ?x) with (vt (b ++ [72]) x).
  change (set_parse (PCsi []) (set_parse PEsc m)) with (set_parse (PCsi []) m).
  rewrite vt_app, vt_csi_buf by assumption. cbn [app vt fold_left].
  unfold feed1. cbn [e_parse set_parse]. change (72 =? 27) with false. change (is_final 72) with true. cbv iota.
  change (set_parse PGround (set_parse (PCsi b) m)) with (set_parse PGround m).
  rewrite <- Hm, emu_eta. unfold csi. destruct b as [|c b'] eqn:Eb; [discriminate E|].
  pose proof P as P'. cbn [forallb] in P. apply andb_true_iff in P. destruct P as [Pc _].
  apply param_char_csi in Pc. destruct Pc as [_ [_ ->]]. unfold csi_plain. rewrite P', E. reflexivity.
Qed.

(** * All pending cells *)
Section Items.
Variables (e : env) (sh : triple -> ecolor) (w h ox oy : Z).
Hypothesis Hsh : shades e sh.

Definition emit (prev : option pos) (items : list (pos * str)) : str :=
  List.concat (map (fun pi => let '(p, (q, t)) := pi in
    (if follows p q then [] else move_to (fst q + ox) (snd q + oy)) ++ t)
    (combine (prev :: map (fun i => Some (fst i)) items) items)).
Definition shows_item (G : picture) (i : pos * str) : Prop :=
  on_screen w h (fst i) /\ exists c, snd i = drawn e c /\ shows sh c (G (fst i)).
(** the cursor is right after [prev] *)
Definition after_prev (m : emu) (prev : option pos) : Prop :=
  forall p, prev = Some p -> fst p + 1 < w -> e_x m = fst p + ox /\ e_y m = snd p + oy - 1 /\ e_wrap m = false.

Lemma put_here : forall g m, e_wrap m = false ->
  let m' := put_char g m in
  (forall X Y, e_grid m' X Y = if (X =? e_x m) && (Y =? e_y m) then (g, e_rend m, e_link m) else e_grid m X Y) /\
  e_w m' = e_w m /\ e_h m' = e_h m /\ e_y m' = e_y m /\
  (e_x m < e_w m - 1 -> e_x m' = e_x m + 1 /\ e_wrap m' = false).
Proof.
  intros g m Hw. unfold put_char. rewrite Hw. cbn [set_grid e_x e_w e_y].
  destruct (e_x m <? e_w m - 1) eqn:E; cbn; (split; [reflexivity|]); (split; [reflexivity|]); (split; [reflexivity|]); (split; [reflexivity|]); intro H.
  - auto.
  - apply Z.ltb_ge in E. lia.
Qed.

Lemma draw_one : forall G prev i m, shows_item G i -> at_rest m -> fits w h (ox, oy) m -> after_prev m prev ->
  let '(q, t) := i in
  let m' := vt ((if follows prev q then [] else move_to (fst q + ox) (snd q + oy)) ++ t) m in
  at_rest m' /\ e_w m' = e_w m /\ e_h m' = e_h m /\ after_prev m' (Some q) /\ e_y m' = snd q + oy - 1 /\
  (forall X Y, e_grid m' X Y = if (X =? fst q + ox - 1) && (Y =? snd q + oy - 1) then (fst (G q), snd (G q), []) else e_grid m X Y).
Proof.
  intros G prev [q t] m [Hq [c [Et Hc]]] [Hm1 [Hm2 Hm3]] [F1 [F2 [F3 F4]]] Hp. cbn [fst snd] in *. cbv zeta.
  destruct Hq as [Qx Qy]. rewrite vt_app.
  match goal with |- context [vt t (vt ?a m)] => set (mv := a) end.
  assert (Hmove : exists m1, vt mv m = m1 /\
     e_parse m1 = PGround /\ e_rend m1 = rend0 /\ e_link m1 = [] /\ e_w m1 = e_w m /\ e_h m1 = e_h m /\ e_grid m1 = e_grid m /\
     e_x m1 = fst q + ox - 1 /\ e_y m1 = snd q + oy - 1 /\ e_wrap m1 = false).
  { unfold mv. destruct (follows prev q) eqn:E.
    - exists m. split; [reflexivity|]. destruct prev as [p|]; [|discriminate]. cbn in E. apply andb_true_iff in E. rewrite !Z.eqb_eq in E.
      destruct E as [E1 E2]. destruct (Hp p eq_refl) as [A1 [A2 A3]]; [lia|]. rewrite A1, A2.
      repeat match goal with |- _ /\ _ => split end; auto; lia.
    - rewrite vt_move by (auto; lia). eexists. split; [reflexivity|]. unfold cup_to, clampZ. cbn [nth set_pos e_parse e_rend e_link e_w e_h e_grid e_x e_y e_wrap].
      repeat match goal with |- _ /\ _ => split end; auto; lia. }
  destruct Hmove as [m1 [-> [P1 [P2 [P3 [P4 [P5 [P6 [P7 [P8 P9]]]]]]]]]].
  rewrite Et, (vt_drawn e sh c (G q) m1) by auto.
  set (m2 := set_rend (snd (G q)) m1). destruct (put_here (fst (G q)) m2 P9) as [A1 [A2 [A3 [AY A4]]]].
  assert (W1 : e_w m2 = e_w m1) by reflexivity. assert (H1 : e_h m2 = e_h m1) by reflexivity.
  assert (X1 : e_x m2 = e_x m1) by reflexivity. assert (Y1 : e_y m2 = e_y m1) by reflexivity.
  split; [|split; [|split; [|split; [|split]]]].
  - unfold at_rest. cbn [set_rend e_parse e_rend e_link]. rewrite put_char_parse, put_char_link. auto.
  - cbn [set_rend e_w]. rewrite A2, W1, P4. reflexivity.
  - cbn [set_rend e_h]. rewrite A3, H1, P5. reflexivity.
  - intros p Ep Hlt. injection Ep as <-. cbn [set_rend e_x e_y e_wrap]. destruct A4 as [B1 B3]; [rewrite X1, W1, P7, P4; lia|].
    rewrite B1, AY, X1, Y1, P7, P8. repeat match goal with |- _ /\ _ => split end; auto; lia.
  - cbn [set_rend e_y]. rewrite AY, Y1, P8. reflexivity.
  - intros X Y. cbn [set_rend e_grid]. rewrite A1, X1, Y1, P7, P8. cbn [m2 set_rend e_rend e_link e_grid]. rewrite P3, P6. reflexivity.
Qed.

Lemma draw_items : forall G items prev m, Forall (shows_item G) items -> NoDup (map fst items) ->
  at_rest m -> fits w h (ox, oy) m -> after_prev m prev ->
  let m' := vt (emit prev items) m in
  at_rest m' /\ e_w m' = e_w m /\ e_h m' = e_h m /\
  (forall l q t, items = l ++ [(q, t)] -> e_y m' = snd q + oy - 1) /\
  (forall q, In q (map fst items) -> seen (ox, oy) m' q = (fst (G q), snd (G q), [])) /\
  (forall X Y, ~ In (X - ox + 1, Y - oy + 1) (map fst items) -> e_grid m' X Y = e_grid m X Y).
Proof.
  intros G items. induction items as [|[q t] items IH]; intros prev m Hi Hn Hm Hf Hp.
  - cbn. repeat match goal with |- _ /\ _ => split end; auto; try tauto. intros [|? ?] ? ? E; discriminate.
  - inversion Hi as [|? ? H1 H2]; subst. inversion Hn as [|? ? N1 N2]; subst.
    assert (E : emit prev ((q, t) :: items) = ((if follows prev q then [] else move_to (fst q + ox) (snd q + oy)) ++ t) ++ emit (Some q) items) by reflexivity.
    rewrite E, vt_app. clear E. pose proof (draw_one G prev (q, t) m H1 Hm Hf Hp) as D. cbv beta iota zeta in D.
    set (m1 := vt _ m) in *. destruct D as [D1 [D2 [D3 [D4 [DY D5]]]]].
    assert (Hf1 : fits w h (ox, oy) m1) by (unfold fits in *; rewrite D2, D3; exact Hf).
    destruct (IH (Some q) m1 H2 N2 D1 Hf1 D4) as [R1 [R2 [R3 [RY [R4 R5]]]]]. cbv zeta.
    split; [exact R1|]. split; [congruence|]. split; [congruence|]. split.
    { intros [|i l] q' t' E; cbn [app] in E.
      - assert (E1 : q = q' /\ items = []) by (split; congruence). destruct E1 as [<- ->]. exact DY.
      - assert (E2 : items = l ++ [(q', t')]) by congruence. exact (RY l q' t' E2). }
    cbn [map fst] in *. split.
    + intros q' [<-|Hin]; [|now apply R4].
      unfold seen. cbn [fst snd]. rewrite R5.
      * rewrite D5, !Z.eqb_refl. reflexivity.
      * intro Hin. apply N1. replace q with (fst q + ox - 1 - ox + 1, snd q + oy - 1 - oy + 1); [exact Hin|]. destruct q; cbn; f_equal; lia.
    + intros X Y Hno. rewrite R5 by (intro; apply Hno; now right). rewrite D5.
      destruct (Z.eqb_spec X (fst q + ox - 1)), (Z.eqb_spec Y (snd q + oy - 1)); cbn [andb]; auto.
      exfalso. apply Hno. left. destruct q; cbn in *; f_equal; lia.
Qed.
End Items.
