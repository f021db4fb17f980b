(** Lemmas: what is written in a cell; drawing cells with any pen. *)
From Coq Require Import ZArith Reals List Bool Lia String Permutation Sorting.Sorted.
From Verif Require Import PyBase PyLemmas F64 SpaceModel ColorModel ColorSpec ColorProofs ColorProofs2 AnsiRe SpanModel Vt SpanSpec
  SpanProofs SpanProofs2 ScreenModel ScreenSpec ScreenProofs ScreenProofs2 ScreenProofs3 ScreenProofs4 ScreenProofs5 ScreenProofs6 ScreenProofs7 ScreenProofs8 DrawSpec
  DrawProofs DrawProofs2 DrawProofs3 CutProofs CutProofs2 TileSpec TileProofs PenSpec.
Import ListNotations.
Open Scope Z_scope.

(** * Equal inks *)
Lemma same_flags_iff : forall a b, same_flags a b = true <-> a = b.
Proof.
  intros a b. split; [|intros ->; destruct b as [[] [] [] [] [] [] [] [] [] []]; reflexivity].
  unfold same_flags. rewrite forallb_forall. intro H.
  assert (E : forall k, get_flag k a = get_flag k b) by (intro k; apply eqb_prop, H; destruct k; cbn; tauto).
  pose proof (E FBold). pose proof (E FDim). pose proof (E FItalic). pose proof (E FUnderline). pose proof (E FBlink). pose proof (E FFastBlink).
  pose proof (E FInvert). pose proof (E FConceal). pose proof (E FStrike). pose proof (E FOpaque). clear E H.
  destruct a, b; cbn in *. congruence.
Qed.
Lemma same_color_iff : forall a b, same_color a b = true <-> a = b.
Proof.
  intros [a|] [b|]; cbn; try (split; [discriminate|congruence]); [|split; reflexivity].
  rewrite triple_eqb_iff. split; congruence.
Qed.
Lemma same_ink_iff : forall a b, same_ink a b = true <-> a = b.
Proof.
  intros [[c f b] fg bg] [[c' f' b'] fg' bg']. unfold same_ink. cbn [ink_tile ink_fg ink_bg tile_char tile_flags tile_ends].
  rewrite !andb_true_iff, Z.eqb_eq, same_flags_iff, eqb_true_iff, !same_color_iff. split; [intros [[[[-> ->] ->] ->] ->]; reflexivity|].
  intro E. injection E. intros. subst. auto.
Qed.

(** * The text of a tile tells the tile *)
Definition read_flags (body : str) (k : flag) : bool := existsb (str_eqb (setter k)) (split_on 59 body).
Lemma colorless_read : forall f k, read_flags (colorless_body f) k = get_flag k f.
Proof. intros [[] [] [] [] [] [] [] [] [] []] []; vm_compute; reflexivity. Qed.
Lemma colorless_inj : forall f f', colorless_body f = colorless_body f' -> f = f'.
Proof.
  intros f f' E. apply same_flags_iff. unfold same_flags. apply forallb_forall. intros k _. apply eqb_true_iff.
  rewrite <- !colorless_read. now rewrite E.
Qed.
Lemma params_split : forall b b' r r', forallb param_char b = true -> forallb param_char b' = true ->
  b ++ 109 :: r = b' ++ 109 :: r' -> b = b' /\ r = r'.
Proof.
  intro b. induction b as [|c b IH]; intros [|c' b'] r r' H H' E; cbn [app forallb] in *.
  - injection E as ->. auto.
  - injection E as <- E. discriminate H'.
  - injection E as -> E. discriminate H.
  - injection E as <- E. apply andb_true_iff in H, H'. destruct (IH b' r r') as [-> ->]; tauto.
Qed.
Lemma tile_text_inj : forall t t', is_ctl (tile_char t) = false -> is_ctl (tile_char t') = false -> tile_text t = tile_text t' -> t = t'.
Proof.
  intros [g f b] [g' f' b'] Hg Hg' E. unfold tile_text, DrawProofs.lead, csi_or_empty in E. cbn [tile_char tile_flags tile_ends] in *.
  assert (X : colorless_body f = colorless_body f' /\ g :: ending b = g' :: ending b').
  { destruct (colorless_body f) as [|x l] eqn:E1, (colorless_body f') as [|x' l'] eqn:E2; cbn [app] in E.
    - auto.
    - unfold csi_m in E. cbn [app] in E. injection E as -> _. discriminate Hg.
    - unfold csi_m in E. cbn [app] in E. injection E as <- _. discriminate Hg'.
    - rewrite <- E1, <- E2 in *. pose proof (colorless_params f) as P. pose proof (colorless_params f') as P'. unfold csi_m in E. rewrite <- !app_assoc in E.
      cbn [app] in E. injection E as E. destruct (params_split _ _ _ _ P P' E). auto. }
  destruct X as [X1 X2]. apply colorless_inj in X1. subst f'. injection X2 as <- X2. f_equal. destruct b, b'; auto; discriminate.
Qed.

(** * The ink of a cell *)
Definition has_ink (c : cell) (i : ink) : Prop :=
  let '(t, fg, bg) := c in
  t = tile_text (ink_tile i) /\ option_map c_rgb fg = ink_fg i /\ option_map c_rgb bg = ink_bg i /\
  layer_ok false fg /\ layer_ok true bg /\ is_ctl (tile_char (ink_tile i)) = false /\
  (fg = None -> bg = None /\ ink_tile i = bare (tile_char (ink_tile i))).
Lemma fone_eqb : feqb fone fone = true. Proof. reflexivity. Qed.
Lemma same_layer : forall l a b, layer_ok l a -> layer_ok l b -> (eq_color a b <-> option_map c_rgb a = option_map c_rgb b).
Proof.
  intros l [a|] [b|] Ha Hb; cbn; try (split; [contradiction|discriminate]); [|tauto].
  destruct (Ha a eq_refl) as [[_ [Aa _]] _]. destruct (Hb b eq_refl) as [[_ [Ab _]] _]. rewrite Aa, Ab, fone_eqb.
  split; [intros [E _]; now rewrite E|]. intro E. injection E as E. auto.
Qed.
Lemma has_ink_same : forall c c' i i', has_ink c i -> has_ink c' i' -> (same_cell c c' <-> i = i').
Proof.
  intros [[t fg] bg] [[t' fg'] bg'] i i' [A1 [A2 [A3 [A4 [A5 [A6 A7]]]]]] [B1 [B2 [B3 [B4 [B5 [B6 B7]]]]]].
  unfold same_cell. rewrite (same_layer false fg fg' A4 B4), (same_layer true bg bg' A5 B5). rewrite A2, A3, B2, B3, A1, B1.
  destruct i as [ti f b], i' as [ti' f' b']. cbn [ink_tile ink_fg ink_bg] in *. split.
  - intros [E1 [E2 E3]]. apply tile_text_inj in E1; auto. congruence.
  - intro E. injection E. intros. subst. auto.
Qed.
Lemma fill_ink : forall c, is_ctl c = false -> has_ink ([c], None, None) (bare_ink c).
Proof.
  intros c Hc. split; [reflexivity|]. split; [reflexivity|]. split; [reflexivity|]. split; [discriminate|]. split; [discriminate|].
  split; [exact Hc|]. intros _. split; reflexivity.
Qed.

(** * Writing inks *)
Lemma worn_nth : forall f r t k c, nth_error t k = Some c ->
  nth_error (worn_tiles f r t) k =
  Some (if (k =? List.length t - 1)%nat then if r then mkTile c f (existsb (fun k => get_flag k f) all_flags) else bare c else mkTile c f false).
Proof.
  intros f r t. induction t as [|a t IH]; intros [|k] c H; cbn in H; try discriminate.
  - injection H as ->. destruct t; reflexivity.
  - assert (Hk : (k < List.length t)%nat) by (apply nth_error_Some; congruence).
    destruct t as [|b t]; [cbn in Hk; lia|]. change (worn_tiles f r (a :: b :: t)) with (mkTile a f false :: worn_tiles f r (b :: t)).
    cbn [nth_error]. rewrite (IH k c H). cbn [List.length] in *.
    destruct (Nat.eqb_spec k (S (List.length t) - 1)), (Nat.eqb_spec (S k) (S (S (List.length t)) - 1)); auto; lia.
Qed.
Lemma worn_length : forall f r t, List.length (worn_tiles f r t) = List.length t.
Proof. intros f r t. induction t as [|a [|b t] IH]; cbn; auto. Qed.
Lemma white_value : by_value WHITE /\ c_bg WHITE = false.
Proof. split; [|reflexivity]. split; [unfold color_ok, channel_ok; cbn; lia|]. split; [reflexivity|exact Logic.I]. Qed.
Definition ink_piece (i : str * span) (k : ink) : Prop := has_ink (plain_cell i) k.
Lemma span_inked : forall e s, inkable s ->
  Forall2 ink_piece (map (fun ch => (ch, s)) (get_characters e s true true)) (span_inks s).
Proof.
  intros e s [D1 [D2 D3]]. destruct (characters_spec e s true true) as [HL HN].
  apply Forall2_nth; [unfold span_inks; rewrite !map_length; now rewrite worn_length|].
  intros k i E. unfold span_inks in E. rewrite nth_error_map in E.
  destruct (nth_error (worn_tiles (s_flags s) (s_reset s) (s_text s)) k) as [t|] eqn:Et; [|discriminate]. cbn [option_map] in E. injection E as <-.
  assert (Hk : (k < List.length (s_text s))%nat).
  { rewrite <- (worn_length (s_flags s) (s_reset s)). apply nth_error_Some. congruence. }
  destruct (nth_error (s_text s) k) as [c|] eqn:Ec; [|apply nth_error_None in Ec; lia].
  rewrite (worn_nth _ _ _ _ _ Ec) in Et. apply (f_equal (fun o => match o with Some x => x | None => t end)) in Et. cbv beta match in Et.
  eexists. split; [apply map_nth_error, HN, Ec|].
  assert (Hc : is_ctl c = false) by (unfold printable in D1; rewrite Forall_forall in D1; apply D1; eapply nth_error_In; eauto).
  assert (Tc : tile_char t = c) by (subst t; destruct (k =? _)%nat, (s_reset s); reflexivity).
  unfold ink_piece, plain_cell, has_ink. cbn [ink_tile ink_fg ink_bg]. rewrite Tc.
  split; [|split; [|split; [|split; [|split; [|split; [exact Hc|discriminate]]]]]].
  - cbn [layer_sequences]. change (span_colorless s) with (DrawProofs.lead (s_flags s)). unfold entry. cbn [orb].
    destruct (k =? List.length (s_text s) - 1)%nat; [|subst t; reflexivity].
    assert (El : str_eqb (DrawProofs.lead (s_flags s)) [] = negb (existsb (fun k => get_flag k (s_flags s)) all_flags)).
    { unfold DrawProofs.lead, csi_or_empty. pose proof (colorless_nil (s_flags s)) as N.
      destruct (existsb _ all_flags); cbn [negb].
      - destruct (colorless_body (s_flags s)); [destruct N as [N _]; specialize (N eq_refl); discriminate|reflexivity].
      - destruct N as [_ N]. rewrite (N eq_refl). reflexivity. }
    rewrite El, negb_involutive. destruct (s_reset s) eqn:Er; cbn [andb]; subst t; [|reflexivity].
    unfold tile_text. cbn [tile_flags tile_char tile_ends].
    destruct (existsb _ all_flags); cbn [ending]; [reflexivity|]. cbn [negb] in El. apply str_eqb_eq in El. now rewrite El.
  - destruct (s_fg s) as [f|]; reflexivity.
  - reflexivity.
  - intros f Ef. injection Ef as <-. destruct (s_fg s) as [f|]; [now apply D2|exact white_value].
  - intros f Ef. now apply D3.
Qed.
Lemma data_inked : forall e w h data, Forall (fun entry => Forall inkable (snd entry)) data ->
  Forall2 (same_place ink_piece) (laid_all e w h data) (flat_map (ink_spots w h) data).
Proof.
  intros e w h data H. unfold laid_all. induction H as [|[[x y] line] data Hl Hd IH]; [constructor|].
  cbn [flat_map]. apply Forall2_app; [|exact IH]. unfold laid, ink_spots. destruct (_ && _); [|constructor].
  apply number_related. cbn [snd] in Hl. unfold pieces. clear -Hl. induction Hl as [|s line Hs Hl IH]; [constructor|].
  cbn [flat_map]. apply Forall2_app; [now apply span_inked|exact IH].
Qed.
Lemma inkable_fine : forall s, inkable s -> fine_span s.
Proof.
  intros s [_ [H1 H2]] c [E|E]; [destruct (H1 c E) as [[A [B _]] _]|destruct (H2 c E) as [[A [B _]] _]]; now apply fine_fone.
Qed.
Lemma inkable_opaque : forall s, inkable s -> opaque_span s.
Proof. intros s [_ [H1 H2]]. split; intros c E; [destruct (H1 c E) as [[_ [A _]] _]|destruct (H2 c E) as [[_ [A _]] _]]; exact A. Qed.

(** * One cell, with any pen *)
Definition pen_then (i : ink) (pen : rend) : rend := if written i then rend0 else pen.
Lemma vt_inked : forall e sh c i m, shades e sh -> has_ink c i -> e_parse m = PGround ->
  vt (drawn e c) m = set_rend (pen_then i (e_rend m)) (put_char (tile_char (ink_tile i)) (set_rend (snd (fst (inked sh i (e_rend m)))) m)).
Proof.
  intros e sh [[t fg] bg] [[g f b] ifg ibg] m Hsh [A1 [A2 [A3 [A4 [A5 [A6 A7]]]]]] Hm.
  unfold pen_then, written, inked. cbn [ink_tile ink_fg ink_bg tile_char tile_flags tile_ends fst snd] in *. unfold drawn.
  destruct (colors_body e sh fg bg (e_rend m) Hsh A4 A5) as [P [N S]].
  match goal with |- context [str_eqb ?b []] => set (cs := b) in * end.
  assert (Sf : option_map sh ifg = shade_o sh fg) by (rewrite <- A2; destruct fg; reflexivity).
  assert (Sb : option_map sh ibg = shade_o sh bg) by (rewrite <- A3; destruct bg; reflexivity).
  rewrite Sf, Sb. destruct (str_eqb cs []) eqn:E.
  - apply str_eqb_eq in E. apply N in E. destruct E as [-> ->]. destruct (A7 eq_refl) as [_ Eb]. injection Eb as -> ->.
    cbn [option_map] in A2. subst ifg. subst t. unfold tile_text. cbn [tile_flags tile_char tile_ends ending].
    rewrite vt_glyph by auto. cbv zeta. cbn [shade_o option_map]. rewrite !styled_none.
    rewrite <- (set_rend_id (put_char g (set_rend (e_rend m) m))) at 1. rewrite put_char_rend. reflexivity.
  - apply str_eqb_neq in E. specialize (S E).
    assert (Nf : ifg <> None).
    { intro Nf. apply E. apply N. destruct fg; [subst ifg; discriminate|]. split; [reflexivity|]. now apply A7. }
    replace ([27; 91] ++ cs ++ [109] ++ t ++ [27; 91; 48; 109]) with (csi_m cs ++ t ++ RESET)
      by (unfold csi_m; rewrite <- !app_assoc; reflexivity).
    rewrite !vt_app, vt_csi_m by auto. rewrite S. subst t. unfold tile_text. cbn [tile_flags tile_char tile_ends].
    rewrite vt_glyph by (auto; destruct b; cbn; auto). cbv zeta. cbn [e_rend set_rend]. rewrite styled_trans, set_rend2.
    set (rd := styled f (shade_o sh fg) (shade_o sh bg) (e_rend m)).
    assert (Q : e_parse (put_char g (set_rend rd m)) = PGround) by (rewrite put_char_parse; exact Hm).
    destruct ifg; [|congruence].
    destruct b; cbn [ending]; (rewrite vt_reset; [reflexivity|exact Q]).
Qed.

(** * Strings that are never in the middle of a command *)
Definition midway (s : str) : Prop := forall m, e_parse m = PGround ->
  e_parse (vt s m) = PGround /\ forall a b, s = a ++ b -> mid (e_parse (vt a m)).
Lemma midway_app : forall s t, midway s -> midway t -> midway (s ++ t).
Proof.
  intros s t Hs Ht m Hm. destruct (Hs m Hm) as [P1 A1]. destruct (Ht _ P1) as [P2 A2]. split; [now rewrite vt_app|].
  intros a b E. destruct (cut_app _ _ _ _ E) as [[l L]|[l [-> L]]]; [exact (A1 a l L)|]. rewrite vt_app. exact (A2 l b L).
Qed.
Lemma midway_quiet : forall s, quiet s -> midway s.
Proof. intros s H m Hm. destruct (H m Hm) as [A B]. split; [exact A|]. intros a b E. apply (B a b E). Qed.
Lemma midway_char : forall g, is_ctl g = false -> midway [g].
Proof.
  intros g Hg m Hm. rewrite vt_char by auto. rewrite put_char_parse. split; [exact Hm|]. intros [|x a] b E.
  - cbn. rewrite Hm. exact Logic.I.
  - cbn [app] in E. injection E as <- E. symmetry in E. apply app_eq_nil in E. destruct E as [-> _]. rewrite vt_char by auto. rewrite put_char_parse, Hm. exact Logic.I.
Qed.
Lemma midway_drawn : forall e sh c i, shades e sh -> has_ink c i -> midway (drawn e c).
Proof.
  intros e sh [[t fg] bg] [[g f b] ifg ibg] Hsh [A1 [A2 [A3 [A4 [A5 [A6 A7]]]]]]. cbn [ink_tile ink_fg ink_bg tile_char] in *. unfold drawn.
  destruct (colors_body e sh fg bg rend0 Hsh A4 A5) as [P _].
  match goal with |- context [str_eqb ?b []] => set (cs := b) in * end.
  assert (T : midway t).
  { subst t. unfold tile_text. cbn [tile_flags tile_char tile_ends]. apply midway_app; [apply midway_quiet, quiet_lead|].
    change (g :: ending b) with ([g] ++ ending b). apply midway_app; [now apply midway_char|]. apply midway_quiet. destruct b; [apply quiet_reset|apply quiet_nil]. }
  destruct (str_eqb cs []); [exact T|].
  replace ([27; 91] ++ cs ++ [109] ++ t ++ [27; 91; 48; 109]) with (csi_m cs ++ t ++ RESET)
    by (unfold csi_m; rewrite <- !app_assoc; reflexivity).
  apply midway_app; [now apply midway_quiet, quiet_m|]. apply midway_app; [exact T|]. apply midway_quiet, quiet_reset.
Qed.
(** a string that ends in a reset puts the pen away *)
Lemma midway_reset : forall s body m, midway s -> s = body ++ RESET -> e_parse m = PGround -> e_rend (vt s m) = rend0.
Proof.
  intros s body m Hs E Hm. destruct (Hs m Hm) as [_ A]. specialize (A body RESET E). rewrite E, vt_app.
  change RESET with (27 :: [91; 48; 109]). rewrite esc_resets by exact A. change (27 :: [91; 48; 109]) with RESET. rewrite vt_reset by reflexivity. reflexivity.
Qed.

(** * All pending cells *)
Section Items.
Variables (e : env) (sh : triple -> ecolor) (w h ox oy : Z).
Hypothesis Hsh : shades e sh.
Definition ink_item (G : pos -> ink) (i : pos * str) : Prop :=
  on_screen w h (fst i) /\ exists c, snd i = drawn e c /\ has_ink c (G (fst i)).

Lemma ink_one : forall G prev i m, ink_item G i -> listening m -> fits w h (ox, oy) m -> after_prev w ox oy m prev ->
  let '(q, t) := i in
  let m' := vt ((if follows prev q then [] else move_to (fst q + ox) (snd q + oy)) ++ t) m in
  listening m' /\ e_rend m' = pen_then (G q) (e_rend m) /\ e_w m' = e_w m /\ e_h m' = e_h m /\ after_prev w ox oy m' (Some q) /\
  (forall X Y, e_grid m' X Y = if (X =? fst q + ox - 1) && (Y =? snd q + oy - 1) then inked sh (G q) (e_rend m) else e_grid m X Y).
Proof.
  intros G prev [q t] m [Hq [c [Et Hc]]] [Hm1 Hm3] [F1 [F2 [F3 F4]]] Hp. cbn [fst snd] in *. cbv zeta.
  destruct Hq as [Qx Qy]. rewrite vt_app.
  match goal with |- context [vt t (vt ?a m)] => set (mv := a) end.
  assert (Hmove : exists m1, vt mv m = m1 /\
     e_parse m1 = PGround /\ e_rend m1 = e_rend m /\ e_link m1 = [] /\ e_w m1 = e_w m /\ e_h m1 = e_h m /\ e_grid m1 = e_grid m /\
     e_x m1 = fst q + ox - 1 /\ e_y m1 = snd q + oy - 1 /\ e_wrap m1 = false).
  { unfold mv. destruct (follows prev q) eqn:E.
    - exists m. split; [reflexivity|]. destruct prev as [p|]; [|discriminate]. cbn in E. apply andb_true_iff in E. rewrite !Z.eqb_eq in E.
      destruct E as [E1 E2]. destruct (Hp p eq_refl) as [A1 [A2 A3]]; [lia|]. rewrite A1, A2.
      repeat match goal with |- _ /\ _ => split end; auto; lia.
    - rewrite vt_move by (auto; lia). eexists. split; [reflexivity|]. unfold cup_to, clampZ. cbn [nth set_pos e_parse e_rend e_link e_w e_h e_grid e_x e_y e_wrap].
      repeat match goal with |- _ /\ _ => split end; auto; lia. }
  destruct Hmove as [m1 [-> [P1 [P2 [P3 [P4 [P5 [P6 [P7 [P8 P9]]]]]]]]]].
  rewrite Et, (vt_inked e sh c (G q) m1) by auto. rewrite P2.
  set (rd := snd (fst (inked sh (G q) (e_rend m)))). set (g := tile_char (ink_tile (G q))).
  set (m2 := set_rend rd m1). destruct (put_here g m2 P9) as [A1 [A2 [A3 [AY A4]]]].
  assert (W1 : e_w m2 = e_w m1) by reflexivity. assert (H1 : e_h m2 = e_h m1) by reflexivity.
  assert (X1 : e_x m2 = e_x m1) by reflexivity. assert (Y1 : e_y m2 = e_y m1) by reflexivity.
  split; [|split; [reflexivity|split; [|split; [|split]]]].
  - unfold listening. cbn [set_rend e_parse e_rend e_link]. rewrite put_char_parse, put_char_link. auto.
  - cbn [set_rend e_w]. rewrite A2, W1, P4. reflexivity.
  - cbn [set_rend e_h]. rewrite A3, H1, P5. reflexivity.
  - intros p Ep Hlt. injection Ep as <-. cbn [set_rend e_x e_y e_wrap]. destruct A4 as [B1 B3]; [rewrite X1, W1, P7, P4; lia|].
    rewrite B1, AY, X1, Y1, P7, P8. repeat match goal with |- _ /\ _ => split end; auto; lia.
  - intros X Y. cbn [set_rend e_grid]. rewrite A1, X1, Y1, P7, P8. cbn [m2 set_rend e_rend e_link e_grid]. rewrite P3, P6. reflexivity.
Qed.

Definition put_away (G : pos -> ink) (l : list (pos * str)) : bool := existsb (fun i => written (G (fst i))) l.
Lemma ink_items : forall G items prev m, Forall (ink_item G) items -> NoDup (map fst items) ->
  listening m -> fits w h (ox, oy) m -> after_prev w ox oy m prev ->
  let m' := vt (emit ox oy prev items) m in
  listening m' /\ e_w m' = e_w m /\ e_h m' = e_h m /\
  (forall l q t r, items = l ++ (q, t) :: r ->
     seen (ox, oy) m' q = inked sh (G q) (if put_away G l then rend0 else e_rend m)) /\
  (forall X Y, ~ In (X - ox + 1, Y - oy + 1) (map fst items) -> e_grid m' X Y = e_grid m X Y).
Proof.
  intros G items. induction items as [|[q t] items IH]; intros prev m Hi Hn Hm Hf Hp.
  - cbn. split; [exact Hm|]. split; [reflexivity|]. split; [reflexivity|]. split; [|reflexivity]. intros [|? ?] q t r E; discriminate.
  - inversion Hi as [|? ? H1 H2]; subst. inversion Hn as [|? ? N1 N2]; subst.
    assert (E : emit ox oy prev ((q, t) :: items) = ((if follows prev q then [] else move_to (fst q + ox) (snd q + oy)) ++ t) ++ emit ox oy (Some q) items) by reflexivity.
    rewrite E, vt_app. clear E. pose proof (ink_one G prev (q, t) m H1 Hm Hf Hp) as D. cbv beta iota zeta in D.
    set (m1 := vt _ m) in *. destruct D as [D1 [DP [D2 [D3 [D4 D5]]]]].
    assert (Hf1 : fits w h (ox, oy) m1) by (unfold fits in *; rewrite D2, D3; exact Hf).
    destruct (IH (Some q) m1 H2 N2 D1 Hf1 D4) as [R1 [R2 [R3 [R4 R5]]]]. cbv zeta.
    split; [exact R1|]. split; [congruence|]. split; [congruence|].
    cbn [map fst] in *. split.
    + intros [|i l] q' t' r E; cbn [app] in E.
      * assert (Eq : q' = q) by congruence. subst q'. cbn [put_away existsb]. unfold seen. cbn [fst snd]. rewrite R5.
        -- rewrite D5, !Z.eqb_refl. reflexivity.
        -- intro Hin. apply N1. replace q with (fst q + ox - 1 - ox + 1, snd q + oy - 1 - oy + 1); [exact Hin|]. destruct q; cbn; f_equal; lia.
      * assert (Ei : i = (q, t)) by congruence. assert (Er : items = l ++ (q', t') :: r) by congruence. subst i.
        rewrite (R4 l q' t' r Er), DP. unfold put_away, pen_then. cbn [existsb fst]. destruct (written (G q)); [|reflexivity].
        cbn [orb]. destruct (existsb _ l); reflexivity.
    + intros X Y Hno. rewrite R5 by (intro; apply Hno; now right). rewrite D5.
      destruct (Z.eqb_spec X (fst q + ox - 1)), (Z.eqb_spec Y (snd q + oy - 1)); cbn [andb]; auto.
      exfalso. apply Hno. left. destruct q; cbn in *; f_equal; lia.
Qed.
Lemma midway_emit : forall G items prev, 0 <= ox -> 0 <= oy -> Forall (ink_item G) items -> midway (emit ox oy prev items).
Proof.
  intros G items prev Hx Hy H. revert prev. induction H as [|[q t] items [[Q1 Q2] [c [Et Hc]]] Hl IH]; intro prev; [apply midway_quiet, quiet_nil|].
  cbn [fst snd] in *.
  change (emit ox oy prev ((q, t) :: items)) with (((if follows prev q then [] else move_to (fst q + ox) (snd q + oy)) ++ t) ++ emit ox oy (Some q) items).
  apply midway_app; [|apply IH]. apply midway_app; [|rewrite Et; eapply midway_drawn; eauto].
  apply midway_quiet. destruct (follows prev q); [apply quiet_nil|]. apply quiet_move; lia.
Qed.
End Items.
