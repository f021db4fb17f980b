(** Proofs about writing to a screen with color objects: the same as with colors as values. *)
From Coq Require Import ZArith List Bool Lia.
From Verif Require Import PyBase PyLemmas F64 SpaceModel ColorModel ColorProofs2 SpanModel ScreenModel
  ScreenProofs ObjModel ObjSpec ObjProofs.
Open Scope Z_scope.

(** * Spans *)
Record spanR (H : list color) (e : env) (o : ospan) (s : span) : Prop := {
  sr_text : os_text o = s_text s;
  sr_fg : optR H (os_fg o) (s_fg s);
  sr_bg : optR H (os_bg o) (s_bg s);
  sr_link : os_link o = s_link s;
  sr_flags : os_flags o = s_flags s;
  sr_reset : os_reset o = s_reset s;
  sr_seqs : os_sequences o = span_sequences e s;
  sr_computed : os_computed o = span_str e s
}.
Lemma spanR_app : forall H l e o s, spanR H e o s -> spanR (H ++ l) e o s.
Proof. intros H l e o s [A B C D E F G I]. constructor; auto; now apply optR_app. Qed.

Lemma opt_ansi_agrees : forall e w o c, good e w -> optR (vals w) o c ->
  agrees e w (opt_ansi e o) (Ok (map (color_ansi e) (opt_list c))) (fun _ a b => a = b).
Proof.
  intros e w [r|] [c|] G HR; cbn in HR; try contradiction; cbn [opt_ansi opt_list map].
  - change (Ok [color_ansi e c]) with (bindr (Ok (color_ansi e c)) (fun a => Ok [a])).
    eapply agrees_bind; [now apply ansi_agrees|]. intros w' a b G' _ _ ->. now apply agrees_ret.
  - now apply agrees_ret.
Qed.

Lemma new_span_agrees : forall e w t fg bg fgv bgv l f rs, good e w -> optR (vals w) fg fgv -> optR (vals w) bg bgv ->
  agrees e w (new_span e t fg bg l f rs) (Ok (mkSpan t fgv bgv l f rs)) (fun H => spanR H e).
Proof.
  intros e w t fg bg fgv bgv l f rs G Hf Hb. unfold new_span.
  pose proof (opt_ansi_agrees e w fg fgv G Hf) as A. unfold agrees, bindW in *.
  destruct (opt_ansi e fg w) as [w1 [a|x]]; [|tauto]. destruct A as [G1 [Gr1 [C1 ->]]].
  pose proof (opt_ansi_agrees e w1 bg bgv G1 (optR_grows _ _ _ _ Gr1 Hb)) as B. unfold agrees in B.
  destruct (opt_ansi e bg w1) as [w2 [b|x]]; [|tauto]. destruct B as [G2 [Gr2 [C2 ->]]].
  unfold retW. split; auto. split; [eapply grows_trans; eauto|]. split; [congruence|].
  assert (Gr : grows w w2) by (eapply grows_trans; eauto).
  constructor; auto; try (eapply optR_grows; eauto).
Qed.

(** * Characters and their cache *)
Lemma ochars_eq : forall H e o s ex al, spanR H e o s -> ochars o ex al = get_characters e s ex al.
Proof.
  intros H e o s ex al [A B C D E F G I]. unfold ochars, chars_of, get_characters, span_colorless.
  rewrite A, E, F, G. reflexivity.
Qed.
Definition keyR (H : list color) (e : env) (a : okey) (b : cache_key) : Prop :=
  let '(o, x, y) := a in let '(s, x', y') := b in spanR H e o s /\ x = x' /\ y = y'.
Definition cacheR (H : list color) (e : env) (a : ocache) (b : ccache) : Prop :=
  Forall2 (fun x y => keyR H e (fst x) (fst y) /\ snd x = snd y) a b.
Lemma cacheR_app : forall H l e a b, cacheR H e a b -> cacheR (H ++ l) e a b.
Proof.
  intros H l e a b F. induction F as [|[[[o x] y] v] [[[s x'] y'] v'] a b [[P Q] V] F IH]; constructor; auto.
  cbn in *. split; auto. split; auto. now apply spanR_app.
Qed.
Lemma okey_eq : forall objs e a b a' b', keyR (map ob_color objs) e a a' -> keyR (map ob_color objs) e b b' ->
  okey_eqb objs a b = key_eqb e a' b'.
Proof.
  intros objs e [[o x] y] [[o2 x2] y2] [[s x'] y'] [[s2 x2'] y2'] [[A B C D E F G I] [<- <-]]
    [[A2 B2 C2 D2 E2 F2 G2 I2] [<- <-]].
  set (w := mkWorld objs [] []). change (map ob_color objs) with (vals w) in *.
  unfold okey_eqb, key_eqb, ospan_eqb, span_eqb. change objs with (w_objs w).
  rewrite (optR_val _ _ _ B), (optR_val _ _ _ C), (optR_val _ _ _ B2), (optR_val _ _ _ C2).
  rewrite A, A2, D, D2, E, E2, F, F2, G, G2, I, I2. reflexivity.
Qed.
Lemma cache_find_R : forall objs e k k' a b, keyR (map ob_color objs) e k k' -> cacheR (map ob_color objs) e a b ->
  ocache_find objs k a = cache_find e k' b.
Proof.
  intros objs e k k' a b K F. induction F as [|[k1 v1] [k2 v2] a b [P V] F IH]; cbn [ocache_find cache_find]; auto.
  cbn [fst snd] in *. rewrite (okey_eq objs e k1 k k2 k' P K), IH, V. reflexivity.
Qed.
Lemma Forall2_firstn : forall A B (P : A -> B -> Prop) n l l', Forall2 P l l' -> Forall2 P (firstn n l) (firstn n l').
Proof. intros A B P n l l' H. revert n. induction H; intros [|n]; cbn; constructor; auto. Qed.
Lemma Forall2_filter : forall A B (P : A -> B -> Prop) f g l l', (forall a b, P a b -> f a = g b) -> Forall2 P l l' ->
  Forall2 P (filter f l) (filter g l').
Proof.
  intros A B P f g l l' E H. induction H as [|a b l l' Hab H IH]; cbn; [constructor|].
  rewrite (E a b Hab). destruct (g b); auto.
Qed.
Lemma cache_put_R : forall objs e k k' v a b, keyR (map ob_color objs) e k k' -> cacheR (map ob_color objs) e a b ->
  cacheR (map ob_color objs) e (ocache_put objs k v a) (cache_put e k' v b).
Proof.
  intros objs e k k' v a b K F. unfold ocache_put, cache_put, cache_del, cacheR. apply Forall2_firstn.
  constructor; [split; auto|]. apply Forall2_filter; auto.
  intros x y [P _]. f_equal. now apply okey_eq.
Qed.
Lemma characters_R : forall objs e a b o s ex al, cacheR (map ob_color objs) e a b -> spanR (map ob_color objs) e o s ->
  fst (ocharacters objs a o ex al) = fst (cached_characters e b s ex al) /\
  cacheR (map ob_color objs) e (snd (ocharacters objs a o ex al)) (snd (cached_characters e b s ex al)).
Proof.
  intros objs e a b o s ex al F S. unfold ocharacters, cached_characters.
  assert (K : keyR (map ob_color objs) e (o, ex, al) (s, ex, al)) by (split; auto).
  rewrite (cache_find_R objs e _ _ a b K F). destruct (cache_find e (s, ex, al) b) as [v|]; cbn [fst snd].
  - split; auto. now apply cache_put_R.
  - rewrite (ochars_eq _ _ _ _ ex al S). split; auto. now apply cache_put_R.
Qed.

(** * Matrices *)
Definition matR {A B} (P : A -> B -> Prop) : list (list A) -> list (list B) -> Prop := Forall2 (Forall2 P).
Lemma matR_get : forall A B (P : A -> B -> Prop) m m' x y, matR P m m' ->
  match mget m x y, mget m' x y with Some a, Some b => P a b | None, None => True | _, _ => False end.
Proof.
  intros A B P m m' x y H. unfold mget. pose proof (Forall2_nth _ _ _ _ _ (Z.to_nat y) H) as N.
  destruct (nth_error m (Z.to_nat y)), (nth_error m' (Z.to_nat y)); try tauto.
  apply Forall2_nth. exact N.
Qed.
Lemma upd_nth_R : forall A B (P : A -> B -> Prop) n f g l l', (forall a b, P a b -> P (f a) (g b)) -> Forall2 P l l' ->
  Forall2 P (upd_nth n f l) (upd_nth n g l').
Proof. intros A B P n f g l l' E H. revert n. induction H; intros [|n]; cbn; constructor; auto. Qed.
Lemma set_nth_R : forall A B (P : A -> B -> Prop) n a b l l', P a b -> Forall2 P l l' ->
  Forall2 P (set_nth n a l) (set_nth n b l').
Proof. intros A B P n a b l l' E H. revert n. induction H; intros [|n]; cbn; constructor; auto. Qed.
Lemma matR_set : forall A B (P : A -> B -> Prop) m m' x y a b, matR P m m' -> P a b ->
  matR P (mset m x y a) (mset m' x y b).
Proof. intros. unfold mset. apply upd_nth_R; auto. intros r r' Hr. now apply set_nth_R. Qed.
Lemma matR_impl : forall A B (P Q : A -> B -> Prop) m m', (forall a b, P a b -> Q a b) -> matR P m m' -> matR Q m m'.
Proof.
  intros A B P Q m m' E H. induction H as [|r r' m m' Hr H IH]; constructor; auto.
  clear -E Hr. induction Hr; constructor; auto.
Qed.
Lemma matR_blank : forall A B (P : A -> B -> Prop) w h a b, P a b -> matR P (blank_matrix w h a) (blank_matrix w h b).
Proof.
  intros A B P w h a b H. unfold blank_matrix. generalize (range h). intro l. induction l; cbn; constructor; auto.
  generalize (range w). intro k. induction k; cbn; constructor; auto.
Qed.

Definition cellR (H : list color) (a : ocell) (b : cell) : Prop :=
  fst (fst a) = fst (fst b) /\ optR H (snd (fst a)) (snd (fst b)) /\ optR H (snd a) (snd b).
Definition wcellR (H : list color) (a : owcell) (b : wcell) : Prop :=
  let '(c, f, g, k) := a in let '(c', f', g', k') := b in c = c' /\ optR H f f' /\ optR H g g' /\ k = k'.
Definition owcellR (H : list color) (a : option owcell) (b : option wcell) : Prop :=
  match a, b with Some a, Some b => wcellR H a b | None, None => True | _, _ => False end.

(** * Placing *)
Lemma over_R : forall w e o s ch a b, spanR (vals w) e o s -> owcellR (vals w) a b ->
  wcellR (vals w) (fst (oover (w_objs w) o ch a)) (fst (over s ch b)) /\
  optR (vals w) (snd (oover (w_objs w) o ch a)) (snd (over s ch b)).
Proof.
  intros w e o s ch a b S HR. destruct S as [A B C D E F G I]. unfold oover, over.
  destruct a as [[[[c f] g] k]|], b as [[[[c' f'] g'] k']|]; cbn in HR; try contradiction.
  - destruct HR as [<- [Hf [Hg Hk]]]. destruct (os_bg o) as [r|], (s_bg s) as [v|]; cbn in C; try contradiction.
    + rewrite (R_nth _ _ _ C), E. destruct (alpha_not_one v); [|now cbn].
      cbn. destruct (char_empty ch && negb (fl_opaque (s_flags s))); cbn; auto.
    + cbn. auto.
  - destruct (os_bg o) as [r|], (s_bg s) as [v|]; cbn in C; try contradiction; cbn; auto.
Qed.
Lemma push_R : forall H am am' x y c c', matR (Forall2 (R H)) am am' -> optR H c c' ->
  matR (Forall2 (R H)) (oam_push am x y c) (am_push am' x y c').
Proof.
  intros H am am' x y [c|] [c'|] F HR; cbn in HR; try contradiction; cbn; auto.
  apply upd_nth_R; auto. intros r r' Hr. apply upd_nth_R; auto. intros l l' Hl. apply Forall2_app; auto.
Qed.
Lemma place_R : forall w e o s wd h chars i n x y lst wm wm' am am', spanR (vals w) e o s ->
  matR (owcellR (vals w)) wm wm' -> matR (Forall2 (R (vals w))) am am' ->
  let '(x1, y1, l1, wm1, am1) := oplace (w_objs w) wd h o chars i n x y lst wm am in
  let '(x2, y2, l2, wm2, am2) := place wd h s chars i n x y lst wm' am' in
  x1 = x2 /\ y1 = y2 /\ l1 = l2 /\ matR (owcellR (vals w)) wm1 wm2 /\ matR (Forall2 (R (vals w))) am1 am2.
Proof.
  intros w e o s wd h chars. induction chars as [|ch chars IH]; intros i n x y lst wm wm' am am' S M A.
  - cbn. auto.
  - cbn [oplace place]. destruct ((wd <=? x) || (x <? 0) || (h <=? y) || (y <? 0)); [auto|].
    destruct (str_eqb ch [NL]); [now apply IH|].
    destruct (if wd <=? x + 1 then (0, y + 1) else (x + 1, y)) as [nx ny].
    pose proof (matR_get _ _ _ _ _ x y M) as N.
    assert (O : owcellR (vals w) (match mget wm x y with Some o => o | None => None end)
                  (match mget wm' x y with Some o => o | None => None end)).
    { destruct (mget wm x y), (mget wm' x y); cbn; tauto. }
    destruct (over_R w e o s ch _ _ S O) as [P Q].
    destruct (oover (w_objs w) o ch _) as [c1 p1]. destruct (over s ch _) as [c2 p2]. cbn [fst snd] in P, Q.
    apply IH; auto; [apply matR_set; auto|now apply push_R].
Qed.

Record wsR (w : world) (e : env) (a : owstate) (b : wstate) : Prop := {
  wr_wm : matR (owcellR (vals w)) (ow_wm a) (ws_wm b);
  wr_am : matR (Forall2 (R (vals w))) (ow_am a) (ws_am b);
  wr_cells : matR (cellR (vals w)) (ow_cells a) (ws_cells b);
  wr_off : ow_off a = ws_off b;
  wr_cache : cacheR (vals w) e (ow_cache a) (ws_cache b)
}.
Lemma blank_row_R : forall H (w : Z), Forall2 (cellR H) (map (fun _ => ([], None, None)) (range w)) (map (fun _ => ([], None, None)) (range w)).
Proof. intros H w. generalize (range w). intro l. induction l; cbn; constructor; auto. repeat split. Qed.

Lemma line_R : forall w e wd h line line' i x y lst a b, Forall2 (spanR (vals w) e) line line' -> wsR w e a b ->
  wsR w e (fst (oplace_line (w_objs w) wd h line i x y lst a)) (fst (place_line e wd h line' i x y lst b)) /\
  snd (oplace_line (w_objs w) wd h line i x y lst a) = snd (place_line e wd h line' i x y lst b).
Proof.
  intros w e wd h line line' i x y lst a b F. revert i x y lst a b.
  induction F as [|o s line line' S F IH]; intros i x y lst a b [W1 W2 W3 W4 W5].
  - cbn. split; auto. constructor; auto.
  - cbn [oplace_line place_line].
    destruct (characters_R (w_objs w) e (ow_cache a) (ws_cache b) o s true true W5 S) as [EC CR].
    destruct (ocharacters (w_objs w) (ow_cache a) o true true) as [chars c1].
    destruct (cached_characters e (ws_cache b) s true true) as [chars' c2]. cbn [fst snd] in EC, CR. subst chars'.
    cbn [ow_off ow_wm ow_am ow_cells ow_cache ws_off ws_wm ws_am ws_cells ws_cache]. rewrite <- W4.
    assert (K : keyR (vals w) e (o, true, true) (s, true, true)) by (split; auto).
    destruct ((i =? lst) && (h - 1 <? y - ow_off a)).
    + destruct (append_nl chars) as [chars'|ex].
      * pose proof (cache_put_R (w_objs w) e _ _ chars' c1 c2 K CR) as CP.
        destruct W3 as [|r r' cells cells' Hr Hc].
        -- cbn. split; auto. constructor; cbn; auto. constructor.
        -- cbn [ow_off ow_wm ow_am ow_cells ow_cache ws_off ws_wm ws_am ws_cells ws_cache].
           pose proof (place_R w e o s wd h chars' 0 (zlen chars) x (y - (y - h + 1)) lst _ _ _ _ S W1 W2) as P.
           destruct (oplace _ _ _ _ _ _ _ _ _ _ _ _) as [[[[x1 y1] l1] wm1] am1].
           destruct (place _ _ _ _ _ _ _ _ _ _ _) as [[[[x2 y2] l2] wm2] am2].
           destruct P as [<- [<- [<- [P1 P2]]]]. apply IH. constructor; cbn; auto.
           apply Forall2_app; auto. constructor; [apply blank_row_R|constructor].
      * cbn. split; auto. constructor; cbn; auto.
    + cbn [ow_off ow_wm ow_am ow_cells ow_cache ws_off ws_wm ws_am ws_cells ws_cache].
      pose proof (place_R w e o s wd h chars 0 (zlen chars) x (y - ow_off a) lst _ _ _ _ S W1 W2) as P.
      destruct (oplace _ _ _ _ _ _ _ _ _ _ _ _) as [[[[x1 y1] l1] wm1] am1].
      destruct (place _ _ _ _ _ _ _ _ _ _ _) as [[[[x2 y2] l2] wm2] am2].
      destruct P as [<- [<- [<- [P1 P2]]]]. apply IH. constructor; cbn; auto.
Qed.
Definition dataR (H : list color) (e : env) : list (pos * list ospan) -> list (pos * list span) -> Prop :=
  Forall2 (fun a b => fst a = fst b /\ Forall2 (spanR H e) (snd a) (snd b)).
Lemma all_R : forall w e wd h d d' a b, dataR (vals w) e d d' -> wsR w e a b ->
  wsR w e (fst (oplace_all (w_objs w) wd h d a)) (fst (place_all e wd h d' b)) /\
  snd (oplace_all (w_objs w) wd h d a) = snd (place_all e wd h d' b).
Proof.
  intros w e wd h d d' a b F. revert a b. induction F as [|[p l] [p' l'] d d' [Ep Fl] F IH]; intros a b S.
  - cbn. auto.
  - cbn [fst snd] in *. subst p'. destruct p as [x y]. cbn [oplace_all place_all].
    assert (Z : zlen l = zlen l').
    { unfold zlen. f_equal. clear -Fl. induction Fl; cbn; auto. }
    rewrite Z. destruct (line_R w e wd h l l' 0 x y (zlen l' - 1) a b Fl S) as [P Q].
    destruct (oplace_line (w_objs w) wd h l 0 x y (zlen l' - 1) a) as [a1 [?|?]];
      destruct (place_line e wd h l' 0 x y (zlen l' - 1) b) as [b1 [?|?]]; cbn [fst snd] in P, Q; try discriminate.
    + now apply IH.
    + cbn. split; auto.
Qed.

(** * Finishing a cell *)
Lemma get_blended_agrees : forall e w a b av bv bg add, good e w -> optR (vals w) a av -> optR (vals w) b bv ->
  agrees e w (oget_blended a b bg add) (get_blended av bv bg add) optR.
Proof.
  intros e w a b av bv bg add G Ha Hb. unfold oget_blended, get_blended.
  destruct a as [i|], av as [va|]; cbn in Ha; try contradiction;
    destruct b as [j|], bv as [vb|]; cbn in Hb; try contradiction; try (apply agrees_ret; cbn; auto; fail).
  destruct (feqb (c_alpha vb) fone) eqn:E.
  - eapply agrees_fun with (m' := retW (Some j)); [now rewrite (R_val _ _ _ Hb), E|]. now apply agrees_ret.
  - eapply agrees_fun with (m' := bindW (oblend i j (fmin (fadd (c_alpha vb) add) fone) bg 2) (fun r => retW (Some r))).
    + now rewrite (R_val _ _ _ Hb), E.
    + eapply agrees_bind; [now apply blend_agrees|]. intros w' r c G' _ _ HR. now apply agrees_ret.
Qed.
Definition pairR (H : list color) (a : option ref * option ref) (b : option color * option color) : Prop :=
  optR H (fst a) (fst b) /\ optR H (snd a) (snd b).
Lemma stack_agrees : forall e st stv w lst lstv bl blv fg fgv bleed, good e w -> Forall2 (R (vals w)) st stv ->
  optR (vals w) lst lstv -> optR (vals w) bl blv -> optR (vals w) fg fgv ->
  agrees e w (oblend_stack st lst bl fg bleed) (blend_stack stv lstv blv fgv bleed) pairR.
Proof.
  intros e st. induction st as [|r st IH]; intros stv w lst lstv bl blv fg fgv bleed G F Hl Hb Hf; inversion F; subst.
  - cbn [oblend_stack blend_stack]. apply agrees_ret; auto. split; auto.
  - rename y into c. rename l' into stv. cbn [oblend_stack blend_stack].
    assert (T : (match lst with Some l => color_eqb (val w r) (val w l) | None => false end) =
                (match lstv with Some l => color_eqb c l | None => false end)).
    { destruct lst, lstv; cbn in Hl; try contradiction; auto. now rewrite (R_val _ _ _ Hl), (R_val _ _ _ H1). }
    destruct (match lstv with Some l => color_eqb c l | None => false end) eqn:E.
    + eapply agrees_fun with (m' := oblend_stack st lst bl fg bleed); [now rewrite T|]. now apply IH.
    + eapply agrees_fun; [rewrite T; reflexivity|].
      eapply agrees_bind; [apply get_blended_agrees; cbn; eauto|].
      intros w1 b1 bv1 G1 Gr1 _ HR1.
      eapply agrees_bind with (rel := optR).
      { destruct bleed; [|apply agrees_ret; auto; eapply optR_grows; eauto].
        apply get_blended_agrees; auto; eapply optR_grows; cbn; eauto. }
      intros w2 f2 fv2 G2 Gr2 _ HR2. assert (Gr : grows w w2) by (eapply grows_trans; eauto).
      apply IH; auto.
      * clear -Gr H3. destruct Gr as [l ->]. induction H3; constructor; auto. now apply R_app.
      * cbn. eapply R_grows; eauto.
      * exact (optR_grows _ _ _ _ Gr2 HR1).
Qed.
Definition cellbR (H : list color) (a : ocell * bool) (b : cell * bool) : Prop := cellR H (fst a) (fst b) /\ snd a = snd b.
Lemma has_alpha_R : forall w o c, optR (vals w) o c -> ohas_alpha w o = bg_has_alpha c.
Proof. intros w [r|] [c|] HR; cbn in *; try contradiction; auto. now rewrite (R_val _ _ _ HR). Qed.
Lemma finish_agrees : forall e w tb tbv c cv st stv, good e w -> R (vals w) tb tbv -> wcellR (vals w) c cv ->
  Forall2 (R (vals w)) st stv -> agrees e w (ofinish_cell tb c st) (finish_cell tbv cv stv) cellbR.
Proof.
  intros e w tb tbv [[[ch fg] bg] bl] [[[ch' fgv] bgv] blv] st stv G Ht [<- [Hf [Hb <-]]] F.
  unfold ofinish_cell, finish_cell.
  assert (Hf' : optR (vals w) (match fg with Some f => Some f | None => Some WHITE_REF end)
                  (match fgv with Some f => Some f | None => Some WHITE end)).
  { destruct fg, fgv; cbn in *; try contradiction; auto. apply G. }
  eapply agrees_bind; [apply stack_agrees; eauto|].
  intros w1 [b1 f1] [bv1 fv1] G1 Gr1 _ [P Q]. cbn [fst snd] in P, Q.
  eapply agrees_bind with (rel := optR).
  { destruct (bg_has_alpha bv1) eqn:E.
    - eapply agrees_fun; [rewrite (has_alpha_R _ _ _ P), E; reflexivity|]. apply get_blended_agrees; auto.
      cbn. eapply R_grows; eauto.
    - eapply agrees_fun with (m' := retW b1); [now rewrite (has_alpha_R _ _ _ P), E|]. now apply agrees_ret. }
  intros w2 b2 bv2 G2 Gr2 _ P2. pose proof (optR_grows _ _ _ _ Gr2 Q) as Q2.
  eapply agrees_bind with (rel := optR).
  { destruct (bg_has_alpha fv1) eqn:E.
    - eapply agrees_fun; [rewrite (has_alpha_R _ _ _ Q2), E; reflexivity|]. apply get_blended_agrees; auto.
    - eapply agrees_fun with (m' := retW f1); [now rewrite (has_alpha_R _ _ _ Q2), E|]. now apply agrees_ret. }
  intros w3 f3 fv3 G3 Gr3 _ P3. apply agrees_ret; auto. repeat split; cbn; auto. eapply optR_grows; eauto.
Qed.
Lemma entry_agrees : forall e w c cv nl, good e w -> cellR (vals w) c cv ->
  agrees e w (ocell_entry e c nl) (Ok (cell_entry e cv nl)) (fun _ a b => a = b).
Proof.
  intros e w [[ch f] g] [[ch' fv] gv] nl G [Ec [Hf Hg]]. cbn [fst snd] in *. subst ch'. unfold ocell_entry.
  pose proof (opt_ansi_agrees e w f fv G Hf) as A. unfold agrees, bindW in *.
  destruct (opt_ansi e f w) as [w1 [a|x]]; [|tauto]. destruct A as [G1 [Gr1 [C1 ->]]].
  pose proof (opt_ansi_agrees e w1 g gv G1 (optR_grows _ _ _ _ Gr1 Hg)) as B. unfold agrees in B.
  destruct (opt_ansi e g w1) as [w2 [b|x]]; [|tauto]. destruct B as [G2 [Gr2 [C2 ->]]].
  unfold retW. split; auto. split; [eapply grows_trans; eauto|]. split; [congruence|]. reflexivity.
Qed.
Lemma cell_eqb_R : forall w a b av bv, cellR (vals w) a av -> cellR (vals w) b bv -> ocell_eqb w a b = cell_eqb av bv.
Proof.
  intros w [[a f] g] [[b f2] g2] [[av fv] gv] [[bv fv2] gv2] [E1 [H1 H2]] [E2 [H3 H4]]. cbn [fst snd] in *. subst.
  unfold ocell_eqb, cell_eqb. now rewrite (optR_val _ _ _ H1), (optR_val _ _ _ H2), (optR_val _ _ _ H3), (optR_val _ _ _ H4).
Qed.
Lemma cellR_app : forall H l a b, cellR H a b -> cellR (H ++ l) a b.
Proof. intros H l a b [A [B C]]. split; auto. split; now apply optR_app. Qed.
Lemma cells_grow : forall w w' a b, grows w w' -> matR (cellR (vals w)) a b -> matR (cellR (vals w')) a b.
Proof. intros w w' a b [l ->] H. eapply matR_impl; [|exact H]. intros. now apply cellR_app. Qed.
Lemma wcellR_app : forall H l a b, wcellR H a b -> wcellR (H ++ l) a b.
Proof. intros H l [[[c f] g] k] [[[c' f'] g'] k'] [A [B [C D]]]. repeat split; auto; now apply optR_app. Qed.
Lemma wrow_grow : forall w w' a b, grows w w' -> Forall2 (owcellR (vals w)) a b -> Forall2 (owcellR (vals w')) a b.
Proof.
  intros w w' a b [l ->] H. induction H as [|x y a b Hx H IH]; constructor; auto.
  destruct x, y; cbn in *; try contradiction; auto. now apply wcellR_app.
Qed.
Lemma arow_grow : forall w w' a b, grows w w' -> Forall2 (Forall2 (R (vals w))) a b -> Forall2 (Forall2 (R (vals w'))) a b.
Proof.
  intros w w' a b [l ->] H. induction H as [|x y a b Hx H IH]; constructor; auto.
  clear -Hx. induction Hx; constructor; auto. now apply R_app.
Qed.

Lemma hd_R : forall A B (P : A -> B -> Prop) l l' a b, Forall2 P l l' -> P a b -> P (hd a l) (hd b l').
Proof. intros A B P l l' a b H Hd. destruct H; cbn; auto. Qed.
Lemma tl_R : forall A B (P : A -> B -> Prop) l l', Forall2 P l l' -> Forall2 P (tl l) (tl l').
Proof. intros A B P l l' H. destruct H; cbn; auto. Qed.

Definition commitR (w : world) (e : env) (x : list (list ocell) * buffer * Z * world * option exn)
    (y : list (list cell) * buffer * Z * option exn) : Prop :=
  let '(cells, buf, n, w', ex) := x in let '(cells', buf', n', ex') := y in
  good e w' /\ grows w w' /\ w_chars w' = w_chars w /\ matR (cellR (vals w')) cells cells' /\
  buf = buf' /\ n = n' /\ ex = ex'.
Lemma commitR_trans : forall w w1 e x y, grows w w1 -> w_chars w1 = w_chars w -> commitR w1 e x y -> commitR w e x y.
Proof.
  intros w w1 e [[[[c b] n] w'] ex] [[[c' b'] n'] ex'] Gr C [A [B [D E]]]. split; auto.
  split; [eapply grows_trans; eauto|]. split; [congruence|auto].
Qed.
Lemma row_R : forall e row rowv w tb tbv ar arv x y cells cellsv buf n, good e w -> R (vals w) tb tbv ->
  Forall2 (owcellR (vals w)) row rowv -> Forall2 (Forall2 (R (vals w))) ar arv -> matR (cellR (vals w)) cells cellsv ->
  commitR w e (ocommit_row e tb row ar x y cells buf n w) (commit_row e tbv rowv arv x y cellsv buf n).
Proof.
  intros e row. induction row as [|[c|] row IH]; intros rowv w tb tbv ar arv x y cells cellsv buf n G Ht F A M; inversion F; subst.
  - cbn. repeat split; auto; try apply G. apply grows_refl.
  - destruct y0 as [cv|]; [|contradiction]. rename l' into rowv. cbn [ocommit_row commit_row].
    pose proof (hd_R _ _ _ _ _ [] [] A (Forall2_nil _)) as Ahd. pose proof (tl_R _ _ _ _ _ A) as Atl.
    pose proof (finish_agrees e w tb tbv c cv _ _ G Ht H1 Ahd) as P. unfold agrees in P.
    destruct (ofinish_cell tb c (hd [] ar) w) as [w1 [[new nl]|ex]];
      destruct (finish_cell tbv cv (hd [] arv)) as [[newv nlv]|exv]; try tauto.
    + destruct P as [G1 [Gr1 [C1 [Pn Pl]]]]. cbn [fst snd] in Pn, Pl. subst nlv.
      pose proof (cells_grow _ _ _ _ Gr1 M) as M1. pose proof (matR_get _ _ _ _ _ x y M1) as N.
      destruct (mget cells x y) as [old|], (mget cellsv x y) as [oldv|]; try tauto.
      * rewrite (cell_eqb_R w1 _ _ _ _ Pn N). destruct (cell_eqb newv oldv).
        -- eapply commitR_trans; eauto. apply IH; auto; [eapply R_grows|eapply wrow_grow|eapply arow_grow]; eauto.
        -- pose proof (entry_agrees e w1 new newv nl G1 Pn) as Q. unfold agrees in Q.
           destruct (ocell_entry e new nl w1) as [w2 [en|ex]]; [|tauto]. destruct Q as [G2 [Gr2 [C2 ->]]].
           assert (Gr : grows w w2) by (eapply grows_trans; eauto).
           eapply commitR_trans with (w1 := w2); auto; [congruence|].
           apply IH; auto; [eapply R_grows|eapply wrow_grow|eapply arow_grow|]; eauto.
           apply matR_set; [eapply cells_grow; eauto|]. destruct Gr2 as [l ->]. now apply cellR_app.
      * cbn. repeat split; auto; try apply G1.
    + destruct P as [G1 [Gr1 [C1 ->]]]. cbn. repeat split; auto; try apply G1. eapply cells_grow; eauto.
  - destruct y0 as [cv|]; [contradiction|]. cbn [ocommit_row commit_row]. apply IH; auto. now apply tl_R.
Qed.
Lemma amat_grow : forall w w' a b, grows w w' -> matR (Forall2 (R (vals w))) a b -> matR (Forall2 (R (vals w'))) a b.
Proof.
  intros w w' a b [l E] H. rewrite E. eapply matR_impl; [|exact H]. intros x y F. induction F; constructor; auto. now apply R_app.
Qed.
Lemma wmat_grow : forall w w' a b, grows w w' -> matR (owcellR (vals w)) a b -> matR (owcellR (vals w')) a b.
Proof.
  intros w w' a b Gr H. induction H; constructor; auto. eapply wrow_grow; eauto.
Qed.
Lemma commit_R : forall e wm wmv w tb tbv am amv y cells cellsv buf n, good e w -> R (vals w) tb tbv ->
  matR (owcellR (vals w)) wm wmv -> matR (Forall2 (R (vals w))) am amv -> matR (cellR (vals w)) cells cellsv ->
  commitR w e (ocommit e tb wm am y cells buf n w) (commit e tbv wmv amv y cellsv buf n).
Proof.
  intros e wm. induction wm as [|row wm IH]; intros wmv w tb tbv am amv y cells cellsv buf n G Ht F A M; inversion F; subst.
  - cbn. repeat split; auto; try apply G. apply grows_refl.
  - cbn [ocommit commit].
    pose proof (hd_R _ _ (Forall2 (Forall2 (R (vals w)))) _ _ [] [] A (Forall2_nil _)) as Ahd. pose proof (tl_R _ _ _ _ _ A) as Atl.
    pose proof (row_R e row y0 w tb tbv _ _ 0 y cells cellsv buf n G Ht H1 Ahd M) as P.
    destruct (ocommit_row e tb row (hd [] am) 0 y cells buf n w) as [[[[c1 b1] n1] w1] ex1].
    destruct (commit_row e tbv y0 (hd [] amv) 0 y cellsv buf n) as [[[c2 b2] n2] ex2].
    destruct P as [G1 [Gr1 [C1 [M1 [<- [<- <-]]]]]]. destruct ex1 as [ex|].
    + cbn. repeat split; auto; try apply G1.
    + eapply commitR_trans; eauto. apply IH; auto; [eapply R_grows|eapply wmat_grow|eapply amat_grow]; eauto.
Qed.
