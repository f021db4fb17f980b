(** Equal spans are interchangeable in calls of a screen. *)
From Coq Require Import ZArith List Bool String Lia.
From Flocq Require Import IEEE754.BinarySingleNaN.
From Verif Require Import PyBase PyLemmas F64 SpaceModel ColorModel ColorSpec ColorProofs ColorProofs2 AnsiRe SpanModel Vt SpanSpec SpanProofs
  ScreenModel ScreenSpec ScreenProofs ScreenProofs2 ScreenProofs3 SpanValueModel SpanValueSpec SpanValueProofs SwapSpec.
Import ListNotations.
Open Scope list_scope.
Open Scope Z_scope.

(** * Colors *)
Definition asim (a b : f64) : Prop := a = b \/ exists s t, a = B754_zero s /\ b = B754_zero t.
Definition csim (e : env) (c d : color) : Prop :=
  c_rgb c = c_rgb d /\ asim (c_alpha c) (c_alpha d) /\ c_bg c = c_bg d /\ color_ansi e c = color_ansi e d.
Definition osim (e : env) (a b : option color) : Prop :=
  match a, b with None, None => True | Some c, Some d => csim e c d | _, _ => False end.

Lemma csim_refl : forall e c, csim e c c.
Proof. intros. unfold csim, asim. auto 6. Qed.
Lemma osim_refl : forall e o, osim e o o.
Proof. intros e [c|]; cbn; auto using csim_refl. Qed.
Lemma asim_feqb : forall a b, feqb a b = true -> asim a b.
Proof. intros a b H. apply feqb_iff in H. destruct H as [[H _]|H]; unfold asim; auto. Qed.
Lemma asim_eqb : forall a b x y, asim a b -> asim x y -> feqb a x = feqb b y.
Proof.
  intros a b x y [->|[s [t [-> ->]]]] [->|[u [v [-> ->]]]]; reflexivity.
Qed.
Lemma asim_one : forall a b, asim a b -> feqb a fone = feqb b fone.
Proof. intros. apply asim_eqb; auto. now left. Qed.
Lemma asim_add : forall a b x, asim a b -> feqb x fzero = false \/ x = fzero -> fadd a x = fadd b x.
Proof.
  intros a b x [->|[s [t [-> ->]]]] H; [reflexivity|]. destruct H as [H| ->].
  - destruct x as [u|u| |u m ex Hb]; try reflexivity. destruct u; discriminate H.
  - destruct s, t; reflexivity.
Qed.
Lemma csim_eqb : forall e a b x y, csim e a b -> csim e x y -> color_eqb a x = color_eqb b y.
Proof. intros e a b x y [H1 [H2 _]] [K1 [K2 _]]. unfold color_eqb. now rewrite H1, K1, (asim_eqb _ _ _ _ H2 K2). Qed.
Lemma osim_eqb : forall e a b x y, osim e a b -> osim e x y -> opt_color_eqb a x = opt_color_eqb b y.
Proof.
  intros e [a|] [b|] [x|] [y|] H K; cbn in *; try contradiction; try reflexivity. exact (csim_eqb e a b x y H K).
Qed.
Lemma osim_text : forall e a b, osim e a b -> map (color_ansi e) (opt_list a) = map (color_ansi e) (opt_list b).
Proof. intros e [c|] [d|] H; cbn in *; try contradiction; [|reflexivity]. destruct H as [_ [_ [_ ->]]]. reflexivity. Qed.
Lemma osim_alpha : forall e a b, osim e a b -> bg_has_alpha a = bg_has_alpha b.
Proof.
  intros e [c|] [d|] H; cbn in *; try contradiction; [|reflexivity]. unfold alpha_not_one. f_equal. apply asim_one. apply H.
Qed.

Definition rsim (e : env) (a b : res (option color)) : Prop :=
  match a, b with Ok x, Ok y => osim e x y | Err x, Err y => x = y | _, _ => False end.
Lemma blended_sim : forall e a b c d x, osim e a b -> osim e c d -> feqb x fzero = false \/ x = fzero ->
  rsim e (get_blended a c None x) (get_blended b d None x).
Proof.
  intros e [a|] [b|] [c|] [d|] x H K X; cbn [osim] in *; try contradiction; unfold get_blended, rsim; cbn [osim]; auto.
  destruct K as [K1 [K2 [K3 K4]]] eqn:EK. rewrite (asim_one _ _ K2). destruct (feqb (c_alpha d) fone); [cbn [osim]; exact K|].
  destruct H as [H1 [H2 [H3 H4]]]. rewrite (asim_add _ _ x K2 X).
  replace (blend a c (fmin (fadd (c_alpha d) x) fone) None) with (blend b d (fmin (fadd (c_alpha d) x) fone) None)
    by (unfold blend; now rewrite H1, H3, K1).
  destruct (blend b d _ None); cbn [bindr osim]; auto using csim_refl.
Qed.
Lemma tenth : feqb (flit 1 10) fzero = false \/ flit 1 10 = fzero.
Proof. left. reflexivity. Qed.
Lemma none : feqb fzero fzero = false \/ fzero = fzero.
Proof. right. reflexivity. Qed.

Definition psim (e : env) (a b : res (option color * option color)) : Prop :=
  match a, b with Ok x, Ok y => osim e (fst x) (fst y) /\ osim e (snd x) (snd y) | Err x, Err y => x = y | _, _ => False end.
Lemma stack_sim : forall e k k', Forall2 (csim e) k k' -> forall l l' b b' f f' bl, osim e l l' -> osim e b b' -> osim e f f' ->
  psim e (blend_stack k l b f bl) (blend_stack k' l' b' f' bl).
Proof.
  intros e k k' H. induction H as [|c d k k' Hc Hk IH]; intros l l' b b' f f' bl Hl Hb Hf; cbn [blend_stack].
  - cbn. auto.
  - replace (match l with Some l => color_eqb c l | None => false end) with (match l' with Some l => color_eqb d l | None => false end)
      by (destruct l, l'; cbn in Hl; try contradiction; [symmetry; now apply (csim_eqb e)|reflexivity]).
    destruct (match l' with Some l => color_eqb d l | None => false end); [now apply IH|].
    pose proof (blended_sim e b b' (Some c) (Some d) (flit 1 10) Hb Hc tenth) as B.
    destruct (get_blended b _ None _) as [x|x], (get_blended b' _ None _) as [y|y]; cbn [rsim] in B; try contradiction; cbn [bindr]; [|exact B].
    destruct bl.
    + pose proof (blended_sim e f f' (Some c) (Some d) (flit 1 10) Hf Hc tenth) as F.
      destruct (get_blended f _ None _) as [x2|x2], (get_blended f' _ None _) as [y2|y2]; cbn [rsim] in F; try contradiction; cbn [bindr]; [|exact F].
      now apply IH.
    + cbn [bindr]. now apply IH.
Qed.

(** * Cells *)
Definition cellsim (e : env) (a b : cell) : Prop :=
  let '(t, f, g) := a in let '(t', f', g') := b in t = t' /\ osim e f f' /\ osim e g g'.
Definition wsim (e : env) (a b : wcell) : Prop :=
  let '(t, f, g, l) := a in let '(t', f', g', l') := b in t = t' /\ osim e f f' /\ osim e g g' /\ l = l'.
Definition owsim (e : env) (a b : option wcell) : Prop :=
  match a, b with None, None => True | Some c, Some d => wsim e c d | _, _ => False end.
Lemma cellsim_refl : forall e c, cellsim e c c.
Proof. intros e [[t f] g]. cbn. auto using osim_refl. Qed.
Lemma cellsim_eqb : forall e a b x y, cellsim e a b -> cellsim e x y -> cell_eqb a x = cell_eqb b y.
Proof.
  intros e [[t f] g] [[t' f'] g'] [[u i] j] [[u' i'] j'] [-> [H1 H2]] [-> [K1 K2]]. unfold cell_eqb.
  now rewrite (osim_eqb e _ _ _ _ H1 K1), (osim_eqb e _ _ _ _ H2 K2).
Qed.
Lemma entry_sim : forall e a b nl, cellsim e a b -> cell_entry e a nl = cell_entry e b nl.
Proof. intros e [[t f] g] [[t' f'] g'] nl [-> [H1 H2]]. unfold cell_entry. now rewrite (osim_text e _ _ H1), (osim_text e _ _ H2). Qed.
Definition fsim (e : env) (a b : res (cell * bool)) : Prop :=
  match a, b with Ok x, Ok y => cellsim e (fst x) (fst y) /\ snd x = snd y | Err x, Err y => x = y | _, _ => False end.
Lemma finish_sim : forall e tb a b k k', wsim e a b -> Forall2 (csim e) k k' -> fsim e (finish_cell tb a k) (finish_cell tb b k').
Proof.
  intros e tb [[[t f] g] l] [[[t' f'] g'] l'] k k' [-> [Hf [Hg ->]]] Hk. unfold finish_cell.
  assert (F : osim e (match f with Some f => Some f | None => Some WHITE end) (match f' with Some f => Some f | None => Some WHITE end))
    by (destruct f, f'; cbn in *; try contradiction; auto using csim_refl).
  pose proof (stack_sim e k k' Hk g g' g g' _ _ l' Hg Hg F) as P.
  destruct (blend_stack k g g _ l') as [[x1 x2]|x], (blend_stack k' g' g' _ l') as [[y1 y2]|y]; cbn [psim] in P; try contradiction; cbn [bindr]; [|exact P].
  cbn [fst snd] in P. destruct P as [P1 P2]. rewrite (osim_alpha e _ _ P1).
  assert (B : rsim e (if bg_has_alpha y1 then get_blended (Some tb) x1 None (flit 1 10) else Ok x1)
                     (if bg_has_alpha y1 then get_blended (Some tb) y1 None (flit 1 10) else Ok y1)).
  { destruct (bg_has_alpha y1); [|exact P1]. apply blended_sim; auto using tenth, osim_refl. }
  destruct (if bg_has_alpha y1 then get_blended (Some tb) x1 None (flit 1 10) else Ok x1) as [z1|z1],
           (if bg_has_alpha y1 then get_blended (Some tb) y1 None (flit 1 10) else Ok y1) as [z2|z2]; cbn [rsim] in B; try contradiction; cbn [bindr]; [|exact B].
  rewrite (osim_alpha e _ _ P2).
  assert (C : rsim e (if bg_has_alpha y2 then get_blended x2 z1 None fzero else Ok x2) (if bg_has_alpha y2 then get_blended y2 z2 None fzero else Ok y2)).
  { destruct (bg_has_alpha y2); [|exact P2]. apply blended_sim; auto using none. }
  destruct (if bg_has_alpha y2 then get_blended x2 z1 None fzero else Ok x2) as [u1|u1],
           (if bg_has_alpha y2 then get_blended y2 z2 None fzero else Ok y2) as [u2|u2]; cbn [rsim] in C; try contradiction; cbn [bindr]; [|exact C].
  cbn. auto.
Qed.

(** * Matrices *)
Definition msim {A} (R : A -> A -> Prop) : list (list A) -> list (list A) -> Prop := Forall2 (Forall2 R).
Lemma nth_sim : forall A (R : A -> A -> Prop) l l', Forall2 R l l' -> forall n,
  match nth_error l n, nth_error l' n with Some a, Some b => R a b | None, None => True | _, _ => False end.
Proof. intros A R l l' H. induction H; intros [|n]; cbn; auto. apply IHForall2. Qed.
Lemma mget_sim : forall A (R : A -> A -> Prop) m m' x y, msim R m m' ->
  match mget m x y, mget m' x y with Some a, Some b => R a b | None, None => True | _, _ => False end.
Proof.
  intros A R m m' x y H. unfold mget. pose proof (nth_sim _ _ _ _ H (Z.to_nat y)) as K.
  destruct (nth_error m _), (nth_error m' _); try contradiction; auto. now apply nth_sim.
Qed.
Lemma upd_sim : forall A (R : A -> A -> Prop) f g l l', (forall a b, R a b -> R (f a) (g b)) -> Forall2 R l l' -> forall n, Forall2 R (upd_nth n f l) (upd_nth n g l').
Proof. intros A R f g l l' F H. induction H; intros [|n]; cbn; constructor; auto. Qed.
Lemma set_sim : forall A (R : A -> A -> Prop) a b l l', R a b -> Forall2 R l l' -> forall n, Forall2 R (set_nth n a l) (set_nth n b l').
Proof. intros A R a b l l' F H. induction H; intros [|n]; cbn; constructor; auto. Qed.
Lemma mset_sim : forall A (R : A -> A -> Prop) m m' x y a b, msim R m m' -> R a b -> msim R (mset m x y a) (mset m' x y b).
Proof. intros A R m m' x y a b H K. unfold mset, msim. apply upd_sim; auto. intros. now apply set_sim. Qed.
Lemma push_sim : forall e m m' x y a b, msim (Forall2 (csim e)) m m' -> osim e a b -> msim (Forall2 (csim e)) (am_push m x y a) (am_push m' x y b).
Proof.
  intros e m m' x y [a|] [b|] H K; cbn in *; try contradiction; auto. apply upd_sim; auto. intros. apply upd_sim; auto.
  intros. apply Forall2_app; auto.
Qed.
Lemma msim_refl : forall A (R : A -> A -> Prop) m, (forall a, R a a) -> msim R m m.
Proof. intros A R m H. unfold msim. induction m as [|r m IH]; constructor; auto. induction r; constructor; auto. Qed.

(** * Placing *)
Lemma regular_layer : forall e c d, regular e (Some c) -> regular e (Some d) -> color_ansi e c = color_ansi e d -> c_bg c = c_bg d.
Proof.
  intros e c d Rc Rd E. destruct (Rc c eq_refl) as [x [p [P1 E1]]]. destruct (Rd d eq_refl) as [y [q [P2 E2]]].
  destruct (params_facts _ _ _ P1) as [F1 N1]. destruct (params_facts _ _ _ P2) as [F2 N2].
  assert (p = q) as <- by (apply sgr_text_inj; auto; congruence). clear - P1 P2. unfold color_params in *.
  destruct x as [|n|r g b]; [destruct P1| |]; (destruct y as [|n'|r' g' b']; [destruct P2| |]);
  repeat match goal with
  | H : _ \/ _ |- _ => destruct H
  | H : _ /\ _ |- _ => destruct H
  end; subst; match goal with H : _ = _ |- _ => injection H; intros end; destruct (c_bg c), (c_bg d); try reflexivity; exfalso; lia.
Qed.
Lemma alike_osim : forall e a b, regular e a -> regular e b -> alike e a b -> osim e a b.
Proof.
  intros e [c|] [d|] Ra Rb H; cbn in *; try contradiction; auto. destruct H as [H1 [H2 H3]].
  pose proof (asim_feqb _ _ H2). pose proof (regular_layer e c d Ra Rb H3). unfold csim. tauto.
Qed.
(** a character and its span *)
Definition isim (e : env) (i j : str * span) : Prop :=
  fst i = fst j /\ osim e (s_fg (snd i)) (s_fg (snd j)) /\ osim e (s_bg (snd i)) (s_bg (snd j)) /\ s_flags (snd i) = s_flags (snd j).
Lemma over_sim : forall e t a b o o', isim e (t, a) (t, b) -> owsim e o o' ->
  wsim e (fst (over a t o)) (fst (over b t o')) /\ osim e (snd (over a t o)) (snd (over b t o')).
Proof.
  intros e t a b o o' [_ [F [B G]]] O. cbn [snd] in *. unfold over. rewrite G.
  destruct o as [[[[u f] g] l]|], o' as [[[[u' f'] g'] l']|]; cbn [owsim] in O; try contradiction.
  - destruct O as [-> [O1 [O2 ->]]]. destruct (s_bg a) as [c|], (s_bg b) as [d|]; cbn [osim] in B; try contradiction.
    + replace (alpha_not_one c) with (alpha_not_one d) by (symmetry; exact (osim_alpha e (Some c) (Some d) B)).
      destruct (alpha_not_one d); [|cbn; auto]. destruct (char_empty t && negb (fl_opaque (s_flags b))); cbn; auto.
    + cbn. auto.
  - cbn. auto.
Qed.
Definition itsim (e : env) (i j : pos * (str * span)) : Prop := fst i = fst j /\ isim e (snd i) (snd j).
Definition mm (e : env) (m n : wmatrix * amatrix) : Prop := msim (owsim e) (fst m) (fst n) /\ msim (Forall2 (csim e)) (snd m) (snd n).
Lemma put_sim : forall e m n i j, mm e m n -> itsim e i j -> mm e (put m i) (put n j).
Proof.
  intros e [wm am] [wm' am'] [[x y] [t a]] [[x' y'] [t' b]] [H1 H2] [E I]. cbn [fst snd] in *. injection E as <- <-. destruct I as [T I].
  cbn [fst snd] in T, I. subst t'. unfold put.
  assert (O : owsim e (match mget wm x y with Some o => o | None => None end) (match mget wm' x y with Some o => o | None => None end)).
  { pose proof (mget_sim _ _ _ _ x y H1) as K. destruct (mget wm x y), (mget wm' x y); try contradiction; auto. }
  destruct (over_sim e t a b _ _ (conj eq_refl I) O) as [W P].
  destruct (over a t _) as [c p], (over b t _) as [d q]. cbn [fst snd] in *. split; cbn [fst snd]; [now apply mset_sim|now apply push_sim].
Qed.
Lemma puts_sim : forall e l l', Forall2 (itsim e) l l' -> forall m n, mm e m n -> mm e (fold_left put l m) (fold_left put l' n).
Proof. intros e l l' H. induction H; intros m n K; cbn [fold_left]; auto. apply IHForall2. now apply put_sim. Qed.
Lemma pieces_sim : forall e l l', Forall2 (equal_spans e) l l' -> Forall2 (isim e) (pieces e l) (pieces e l').
Proof.
  intros e l l' H. induction H as [|a b l l' [Ra [Rb E]] H IH]; [constructor|]. unfold pieces. cbn [flat_map]. apply Forall2_app; [|exact IH].
  destruct (same_text e a b E) as [_ [_ C]]. rewrite (C true true).
  pose proof (proj1 (meaning e a b Ra Rb) E) as [_ [F [B [_ [G _]]]]].
  apply alike_osim in F; [|apply Ra|apply Rb]. apply alike_osim in B; [|apply Ra|apply Rb].
  induction (get_characters e b true true); cbn [map]; constructor; auto. unfold isim. cbn. auto.
Qed.
Lemma number_sim : forall A (R : A -> A -> Prop) w h l l', Forall2 R l l' -> forall p,
  Forall2 (fun i j => fst i = fst j /\ R (snd i) (snd j)) (number w h p l) (number w h p l').
Proof. intros A R w h l l' H. induction H; intro p; cbn [number]; [constructor|]. destruct (p <? w * h); constructor; auto. Qed.
Lemma laid_sim : forall e w h d d', Forall2 (equal_entry e) d d' -> Forall2 (itsim e) (laid_all e w h d) (laid_all e w h d').
Proof.
  intros e w h d d' H. induction H as [|[[x y] l] [[x' y'] l'] d d' [E S] H IH]; [constructor|]. cbn [fst snd] in *. injection E as <- <-.
  unfold laid_all. cbn [flat_map]. apply Forall2_app; [|exact IH]. unfold laid. destruct (_ && _); [|constructor].
  apply number_sim. now apply pieces_sim.
Qed.

(** * Committing *)
Definition csm (e : env) : list (list cell) -> list (list cell) -> Prop := msim (cellsim e).
Definition outs (e : env) (a b : list (list cell) * buffer * Z * option exn) : Prop :=
  let '(c, buf, n, x) := a in let '(c', buf', n', x') := b in csm e c c' /\ buf = buf' /\ n = n' /\ x = x'.
Lemma row_sim : forall e tb r r', Forall2 (owsim e) r r' -> forall k k' x y c c' buf n, Forall2 (Forall2 (csim e)) k k' -> csm e c c' ->
  outs e (commit_row e tb r k x y c buf n) (commit_row e tb r' k' x y c' buf n).
Proof.
  intros e tb r r' H. induction H as [|o o' r r' O H IH]; intros k k' x y c c' buf n K C; cbn [commit_row].
  - unfold outs. auto.
  - assert (T : Forall2 (Forall2 (csim e)) (tl k) (tl k')) by (inversion K; subst; [constructor|assumption]).
    assert (D : Forall2 (csim e) (hd [] k) (hd [] k')) by (inversion K; subst; [constructor|assumption]).
    destruct o as [a|], o' as [b|]; cbn [owsim] in O; try contradiction; [|now apply IH].
    pose proof (finish_sim e tb a b _ _ O D) as F.
    destruct (finish_cell tb a _) as [[v nl]|v], (finish_cell tb b _) as [[u nl']|u]; cbn [fsim fst snd] in F; try contradiction.
    + destruct F as [F <-]. pose proof (mget_sim _ _ _ _ x y C) as G.
      destruct (mget c x y) as [old|], (mget c' x y) as [old'|]; try contradiction.
      * rewrite (cellsim_eqb e _ _ _ _ F G). destruct (cell_eqb u old'); [now apply IH|]. rewrite (entry_sim e _ _ nl F). apply IH; auto.
        now apply mset_sim.
      * unfold outs. auto.
    + subst u. unfold outs. auto.
Qed.
Lemma commit_sim : forall e tb m m', msim (owsim e) m m' -> forall k k' y c c' buf n, msim (Forall2 (csim e)) k k' -> csm e c c' ->
  outs e (commit e tb m k y c buf n) (commit e tb m' k' y c' buf n).
Proof.
  intros e tb m m' H. induction H as [|r r' m m' R H IH]; intros k k' y c c' buf n K C; cbn [commit].
  - unfold outs. auto.
  - assert (T : msim (Forall2 (csim e)) (tl k) (tl k')) by (inversion K; subst; [constructor|assumption]).
    assert (D : Forall2 (Forall2 (csim e)) (hd [] k) (hd [] k')) by (inversion K; subst; [constructor|assumption]).
    pose proof (row_sim e tb r r' R _ _ 0 y c c' buf n D C) as O.
    destruct (commit_row e tb r _ 0 y c buf n) as [[[c1 b1] n1] x1], (commit_row e tb r' _ 0 y c' buf n) as [[[c2 b2] n2] x2].
    destruct O as [O1 [<- [<- <-]]]. destruct x1; [unfold outs; auto|]. now apply IH.
Qed.

(** * Calls *)
Definition ssim (e : env) (s t : screen) : Prop :=
  sc_w s = sc_w t /\ sc_h s = sc_h t /\ csm e (sc_cells s) (sc_cells t) /\ sc_buf s = sc_buf t /\ sc_cursor s = sc_cursor t /\ sc_off s = sc_off t.
Lemma ssim_refl : forall e s, ssim e s s.
Proof. intros e s. unfold ssim. repeat split; auto. apply msim_refl. apply cellsim_refl. Qed.
Lemma calm_equal : forall e w h d d', Forall2 (equal_entry e) d d' -> Forall (calm_entry w h) d -> Forall (calm_entry w h) d'.
Proof.
  intros e w h d d' H. induction H as [|[[x y] l] [[x' y'] l'] d d' [E S] H IH]; intro C; [constructor|]. inversion C as [|? ? C1 C2]; subst.
  constructor; [|now apply IH]. cbn [fst snd] in *. injection E as <- <-. unfold calm_entry in *. destruct C1 as [Y [N L]].
  assert (T : Forall2 (fun a b => s_text a = s_text b) l l').
  { clear - S. induction S as [|a b l l' [_ [_ E]] S IH]; constructor; auto. rewrite span_made in E. apply eqb_fields in E. tauto. }
  split; [exact Y|]. split.
  - clear - T N. induction T; constructor; inversion N; subst; auto. congruence.
  - destruct T as [|a b l l' T1 T2]; [exact Logic.I|]. destruct T2; [exact Logic.I|]. now rewrite <- T1.
Qed.
Lemma bulk_sim : forall e c c' s t d d' tb force, cache_ok e c -> cache_ok e c' -> ssim e s t -> calm_write s d -> Forall2 (equal_entry e) d d' ->
  snd (write_bulk e c s d tb force) = snd (write_bulk e c' t d' tb force) /\
  ssim e (fst (fst (write_bulk e c s d tb force))) (fst (fst (write_bulk e c' t d' tb force))) /\
  cache_ok e (snd (fst (write_bulk e c s d tb force))) /\ cache_ok e (snd (fst (write_bulk e c' t d' tb force))).
Proof.
  intros e c c' s t d d' tb force Hc Hc' [W [H [C [B [U O]]]]] [Z K] D. unfold write_bulk. rewrite <- W, <- H, <- O, <- B, <- U.
  pose proof (calm_equal e _ _ d d' D K) as K'.
  destruct (place_all_calm e (sc_w s) (sc_h s) d (mkW (blank_matrix (sc_w s) (sc_h s) None) (blank_matrix (sc_w s) (sc_h s) []) (sc_cells s) (sc_off s) c) Hc Z K)
    as [c1 [E1 C1]].
  destruct (place_all_calm e (sc_w s) (sc_h s) d' (mkW (blank_matrix (sc_w s) (sc_h s) None) (blank_matrix (sc_w s) (sc_h s) []) (sc_cells t) (sc_off s) c') Hc' Z K')
    as [c2 [E2 C2]].
  rewrite E1, E2. unfold after. cbn [ws_wm ws_am ws_cells ws_off ws_cache].
  set (M := (blank_matrix (sc_w s) (sc_h s) (@None wcell), blank_matrix (sc_w s) (sc_h s) (@nil color))).
  assert (S : mm e (fold_left put (laid_all e (sc_w s) (sc_h s) d) M) (fold_left put (laid_all e (sc_w s) (sc_h s) d') M)).
  { apply puts_sim; [now apply laid_sim|]. split; apply msim_refl; [exact (fun a => match a with Some w => match w with (t, f, g, l) => conj eq_refl (conj (osim_refl e f) (conj (osim_refl e g) eq_refl)) end | None => Logic.I end)|].
    intro l. induction l; constructor; auto using csim_refl. }
  destruct S as [S1 S2].
  pose proof (commit_sim e tb _ _ S1 _ _ 0 _ _ (sc_buf s) 0 S2 C) as P.
  destruct (commit e tb _ _ 0 (sc_cells s) (sc_buf s) 0) as [[[x1 x2] x3] x4], (commit e tb _ _ 0 (sc_cells t) (sc_buf s) 0) as [[[y1 y2] y3] y4].
  destruct P as [P1 [<- [<- <-]]]. cbn [fst snd]. unfold ssim. cbn. auto 10.
Qed.
Lemma overlay_row_sim : forall e (n : list cell) o o', Forall2 (cellsim e) o o' -> Forall2 (cellsim e) (overlay_row n o) (overlay_row n o').
Proof.
  intros e n o o' H. revert n. induction H; intros [|a n]; cbn; auto; try constructor; auto using cellsim_refl.
  clear. induction n; constructor; auto using cellsim_refl.
Qed.
Lemma overlay_sim : forall e n o o', csm e o o' -> csm e (overlay n o) (overlay n o').
Proof.
  intros e n o o' H. revert n. induction H; intros [|a n]; cbn; try (apply msim_refl; apply cellsim_refl). constructor; [now apply overlay_row_sim|apply IHForall2].
Qed.
Lemma resize_sim : forall e s t size fill keep, ssim e s t -> ssim e (resize s size fill keep) (resize t size fill keep).
Proof.
  intros e s t [w h] fill keep [W [H [C [B [U O]]]]]. unfold resize, ssim. cbn. rewrite B. repeat split; auto.
  destruct keep; [now apply overlay_sim|apply msim_refl; apply cellsim_refl].
Qed.
Lemma redraw_sim : forall e r r' x y, csm e r r' -> redraw_rows x y r = redraw_rows x y r'.
Proof.
  intros e r r' x y H. revert y. induction H as [|a b r r' R H IH]; intro y; cbn [redraw_rows]; [reflexivity|]. rewrite IH. do 2 f_equal.
  f_equal. clear - R. induction R as [|[[t f] g] [[t' f'] g'] a b [T _] R IH]; cbn [map fst]; [reflexivity|]. now rewrite T, IH.
Qed.
Lemma step_sim : forall e s t c c' o p, ssim e s t -> cache_ok e c -> cache_ok e c' -> equal_op e o p -> calm_op s o ->
  sees e (s, c) o = sees e (t, c') p /\ ssim e (fst (step e (s, c) o)) (fst (step e (t, c') p)) /\
  cache_ok e (snd (step e (s, c) o)) /\ cache_ok e (snd (step e (t, c') p)).
Proof.
  intros e s t c c' o p S C C' E K. destruct o, p; cbn [equal_op] in E; try discriminate E; cbn [sees step] in *.
  - destruct E as [L [<- [<- <-]]]. destruct cursor as [q|]; cbn [write calm_op] in *; [|cbn; auto].
    pose proof (bulk_sim e c c' s t [(q, spans)] [(q, spans0)] tb force C C' S K) as B.
    destruct B as [B1 B2]; [constructor; [split; auto|constructor]|]. now rewrite B1.
  - destruct E as [L [<- <-]]. pose proof (bulk_sim e c c' s t data data0 tb force C C' S K L) as [B1 B2]. now rewrite B1.
  - destruct E as [[Ra [Rb E]] [<- <-]]. destruct (cached_ok e c s0 exclude always C) as [c1 [E1 K1]]. destruct (cached_ok e c' s1 exclude always C') as [c2 [E2 K2]].
    rewrite E1, E2. cbn [fst snd]. destruct (same_text e _ _ E) as [_ [_ G]]. rewrite G. auto.
  - injection E as <-. cbn [fst snd]. split; [reflexivity|]. split; [|auto]. unfold clear. pose proof S as [W [H _]].
    pose proof (resize_sim e s t (sc_w s, sc_h s) fill false S) as R. rewrite <- W, <- H.
    destruct R as [R1 [R2 [R3 [R4 [R5 R6]]]]]. unfold ssim. cbn [sc_w sc_h sc_cells sc_buf sc_cursor sc_off]. auto 10.
  - injection E as <- <- <-. cbn [fst snd]. split; [reflexivity|]. split; [|auto]. now apply resize_sim.
  - injection E as <- <-. cbn [fst snd]. destruct S as [W [H [M [B [U O]]]]]. split; [|split; [|auto]].
    + f_equal. unfold render. destruct origin as [ox oy]. destruct redraw; cbn [fst]; [now apply (redraw_sim e)|now rewrite B].
    + unfold render. destruct origin as [ox oy]. destruct redraw; cbn [snd]; unfold ssim; cbn; auto 10.
Qed.
Lemma swap : forall e ops ops' s t c c', ssim e s t -> cache_ok e c -> cache_ok e c' -> Forall2 (equal_op e) ops ops' -> calm_run e (s, c) ops ->
  sights e (s, c) ops = sights e (t, c') ops'.
Proof.
  intros e ops ops' s t c c' S C C' H. revert s t c c' S C C'. induction H as [|o p ops ops' E H IH]; intros s t c c' S C C' K; [reflexivity|].
  cbn [sights]. destruct K as [K1 K2]. destruct (step_sim e s t c c' o p S C C' E K1) as [T [S' [D D']]]. rewrite T. f_equal.
  destruct (step e (s, c) o) as [s1 c1], (step e (t, c') p) as [t1 c2]. now apply IH.
Qed.
Lemma interchange : forall e ops ops' s c, cache_ok e c -> calm_run e (s, c) ops -> Forall2 (equal_op e) ops ops' -> sights e (s, c) ops = sights e (s, c) ops'.
Proof. intros e ops ops' s c C K H. now apply swap; auto using ssim_refl. Qed.

(** * After a scroll *)
Lemma key_refl : forall e a b x y, span_eqb e a b = true -> key_eqb e (a, x, y) (a, x, y) = true.
Proof.
  intros e a b x y E. rewrite span_made in E. pose proof E as E2. rewrite (proj1 (proj2 (equivalence e a e b e b))) in E2.
  pose proof (proj2 (proj2 (equivalence e a e b e a)) E E2) as R. pose proof R as R'. apply eqb_fields in R' as [_ [F [B _]]].
  assert (Z : forall o, opt_color_eqb o o = true -> opt_color_same o o = true).
  { intros [c|] H; [|reflexivity]. cbn in *. unfold color_same. rewrite H, eqb_reflx. unfold cs_eqb. rewrite str_eqb_refl.
    destruct (c_ctor c); cbn; auto. now rewrite str_eqb_refl. }
  unfold key_eqb. rewrite !eqb_reflx, span_made, R, (Z _ F), (Z _ B). reflexivity.
Qed.
Lemma cs_value_inj : forall a b, cs_eqb a b = true -> a = b.
Proof. intros [] []; intro H; try reflexivity; discriminate. Qed.
Lemma key_hash : forall e a b, key_eqb e (a, true, true) (b, true, true) = true -> span_hash e a = span_hash e b.
Proof.
  intros e a b H. unfold key_eqb in H. rewrite !andb_true_iff in H. destruct H as [[[_ E] F] B].
  assert (Z : forall o p, opt_color_same o p = true -> built_alike o p).
  { intros [c|] [d|] H; cbn in *; auto. unfold color_same in H. rewrite !andb_true_iff in H. destruct H as [[[_ H1] H2] H3].
    apply eqb_prop in H1. apply cs_value_inj in H2. destruct (c_ctor c), (c_ctor d); cbn in H3; try discriminate; auto. apply str_eqb_eq in H3. subst. auto. }
  apply same_hash; auto.
Qed.
Lemma scroll_cache : forall e c s a x y tb force, cache_ok e c -> s_text a <> [] -> sc_cells s <> [] -> sc_h s + sc_off s <= y ->
  exists c1 v, cache_ok e c1 /\ append_nl (get_characters e a true true) = Ok v /\
  snd (fst (write_bulk e c s [((x, y), [a])] tb force)) = cache_put e (a, true, true) v c1.
Proof.
  intros e c s a x y tb force C T R Y. destruct (cached_ok e c a true true C) as [c1 [E1 C1]].
  assert (L : length (get_characters e a true true) = length (s_text a)).
  { apply Nat2Z.inj. apply (characters_length e a true true). }
  destruct (append_nl (get_characters e a true true)) as [v|ex] eqn:AN.
  - exists c1, v. split; [exact C1|]. split; [reflexivity|]. unfold write_bulk. cbn [place_all place_line ws_cache ws_wm ws_am ws_cells ws_off].
    rewrite E1. cbn [ws_cache ws_wm ws_am ws_cells ws_off].
    replace ((0 =? zlen [a] - 1) && (sc_h s - 1 <? y - sc_off s)) with true
      by (symmetry; apply andb_true_intro; split; [reflexivity|apply Z.ltb_lt; lia]).
    rewrite AN. destruct (sc_cells s) as [|row cells]; [contradiction|].
    destruct (place _ _ _ _ _ _ _ _ _ _ _) as [[[[x1 y1] l1] w1] a1]. cbn [place_line ws_cache ws_wm ws_am ws_cells ws_off].
    destruct (commit _ _ _ _ _ _ _ _) as [[[z1 z2] z3] z4]. reflexivity.
  - exfalso. unfold append_nl in AN. destruct (rev (get_characters e a true true)) eqn:RV; [|discriminate].
    apply (f_equal (@length _)) in RV. rewrite rev_length, L in RV. destruct (s_text a); [contradiction|discriminate].
Qed.
Lemma append_differs : forall l v, append_nl l = Ok v -> v <> l.
Proof.
  intros l v H E. unfold append_nl in H. destruct (rev l) as [|u r] eqn:R; [discriminate|]. injection H as H. subst v.
  apply (f_equal (@rev str)) in E. rewrite R in E. cbn [rev] in E. rewrite rev_app_distr, rev_involutive in E. cbn [rev app] in E.
  injection E as E. apply (f_equal (@length _)) in E. rewrite app_length in E. cbn in E. lia.
Qed.
Lemma told_apart : forall e c s a b x y tb force, cache_ok e c -> equal_spans e a b -> span_hash e a <> span_hash e b -> s_text a <> [] ->
  sc_cells s <> [] -> sc_h s + sc_off s <= y ->
  sights e (s, c) [OWrite [a] (Some (x, y)) tb force; OChars a true true] <> sights e (s, c) [OWrite [a] (Some (x, y)) tb force; OChars b true true].
Proof.
  intros e c s a b x y tb force C [Ra [Rb E]] N T R Y H. cbn [sights sees step write] in H.
  destruct (scroll_cache e c s a x y tb force C T R Y) as [c1 [v [C1 [AN P]]]].
  assert (Z : forall st q, sees e st (OChars q true true) = Chars (fst (cached_characters e (snd st) q true true))) by (intros []; reflexivity).
  rewrite !Z in H.
  apply (f_equal (fun l => match l with [_; Chars u] => u | _ => [] end)) in H. cbv beta iota in H.
  assert (A : fst (cached_characters e (cache_put e (a, true, true) v c1) a true true) = v).
  { unfold cached_characters, cache_put. cbn [firstn cache_find]. now rewrite (key_refl e a b true true E). }
  assert (B : fst (cached_characters e (cache_put e (a, true, true) v c1) b true true) = get_characters e b true true).
  { unfold cached_characters, cache_put. cbn [firstn cache_find]. destruct (key_eqb e (a, true, true) (b, true, true)) eqn:K; [now apply key_hash in K|].
    match goal with |- context [cache_find e ?k ?l] => destruct (cache_find e k l) as [u|] eqn:F end; [|reflexivity]. cbn [fst].
    apply cache_find_ok in F; [exact F|]. change (cache_ok e (firstn 127 (cache_del e (a, true, true) c1))). apply Forall_firstn. now apply Forall_filter. }
  rewrite <- P in A, B. destruct (same_text e a b E) as [_ [_ G]]. apply (append_differs _ _ AN). rewrite G. rewrite <- A, <- B. exact H.
Qed.
