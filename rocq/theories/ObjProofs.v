(** Proofs that the caches of color and span objects cannot be told from the outside while the color
    space stays the same. *)
From Coq Require Import ZArith List Bool Lia.
From Flocq Require Import IEEE754.BinarySingleNaN.
From Verif Require Import PyBase PyLemmas F64 SpaceModel ColorModel ColorProofs2 SpanModel ScreenModel
  ScreenProofs ObjModel ObjSpec.
Open Scope Z_scope.

(** * Blending equal colors by equal alphas *)
Lemma blend_channel_zero : forall a b s t,
  blend_channel a b (B754_zero s) = blend_channel a b (B754_zero t).
Proof.
  intros a b s t. unfold blend_channel, fmul, fadd.
  destruct (fofZ (b - a)) as [s1|s1| |s1 m1 e1 B1]; destruct (fofZ a) as [s2|s2| |s2 m2 e2 B2]; try reflexivity.
  all: cbn; try reflexivity.
  all: destruct s1, s2, s, t; reflexivity.
Qed.
Lemma triple_eqb_eq : forall a b, triple_eqb a b = true -> a = b.
Proof.
  intros [[r g] b] [[r' g'] b'] H. unfold triple_eqb in H. apply andb_prop in H. destruct H as [H H3].
  apply andb_prop in H. destruct H as [H1 H2]. apply Z.eqb_eq in H1, H2, H3. now subst.
Qed.
Lemma color_same_fields : forall a b, color_same a b = true -> c_rgb a = c_rgb b /\ c_bg a = c_bg b.
Proof.
  intros a b H. unfold color_same, color_eqb in H. repeat (apply andb_prop in H; destruct H as [H ?]).
  split; [now apply triple_eqb_eq|]. now apply eqb_prop.
Qed.
Lemma bkey_blend : forall a b al bg sh a' b' al' bg' sh',
  bkey_eqb (a, b, al, bg, sh) (a', b', al', bg', sh') = true -> blend a b al bg = blend a' b' al' bg'.
Proof.
  intros a b al bg sh a' b' al' bg' sh' H. unfold bkey_eqb in H.
  apply andb_prop in H. destruct H as [H _]. apply andb_prop in H. destruct H as [H Hbg].
  apply andb_prop in H. destruct H as [H Hal]. apply andb_prop in H. destruct H as [Ha Hb].
  apply color_same_fields in Ha. apply color_same_fields in Hb. destruct Ha as [A1 A2]. destruct Hb as [B1 B2].
  assert (bg = bg') as <-.
  { destruct bg as [x|], bg' as [y|]; cbn in Hbg; try discriminate; auto. apply eqb_prop in Hbg. now subst. }
  unfold blend. rewrite A1, A2, B1. destruct (c_rgb a') as [[r g] u]. destruct (c_rgb b') as [[r' g'] u'].
  apply feqb_iff in Hal. destruct Hal as [[-> _]|[s [t [-> ->]]]]; [reflexivity|].
  now rewrite (blend_channel_zero r r' s t), (blend_channel_zero g g' s t), (blend_channel_zero u u' s t).
Qed.

(** * References and what they stand for *)
Definition vals (w : world) : list color := map ob_color (w_objs w).
Definition R (H : list color) (r : ref) (c : color) : Prop := nth_error H r = Some c.
Definition optR (H : list color) (o : option ref) (c : option color) : Prop :=
  match o, c with
  | Some r, Some c => R H r c
  | None, None => True
  | _, _ => False
  end.
Definition grows (w w' : world) : Prop := exists l, vals w' = vals w ++ l.

Lemma grows_refl : forall w, grows w w.
Proof. intro w. exists []. now rewrite app_nil_r. Qed.
Lemma grows_trans : forall a b c, grows a b -> grows b c -> grows a c.
Proof. intros a b c [l Hl] [m Hm]. exists (l ++ m). now rewrite Hm, Hl, app_assoc. Qed.
Lemma R_app : forall H l r c, R H r c -> R (H ++ l) r c.
Proof. intros H l r c HR. unfold R in *. rewrite nth_error_app1; auto. apply nth_error_Some. congruence. Qed.
Lemma Rs_app : forall H l rs cs, Forall2 (R H) rs cs -> Forall2 (R (H ++ l)) rs cs.
Proof. intros H l rs cs F. induction F; constructor; auto. now apply R_app. Qed.
Lemma R_grows : forall w w' r c, grows w w' -> R (vals w) r c -> R (vals w') r c.
Proof. intros w w' r c [l ->] HR. now apply R_app. Qed.
Lemma optR_app : forall H l o c, optR H o c -> optR (H ++ l) o c.
Proof. intros H l [r|] [c|] HR; cbn in *; auto. now apply R_app. Qed.
Lemma optR_grows : forall w w' o c, grows w w' -> optR (vals w) o c -> optR (vals w') o c.
Proof. intros w w' o c [l ->] HR. now apply optR_app. Qed.
Lemma R_val : forall w r c, R (vals w) r c -> val w r = c.
Proof.
  intros w r c HR. unfold R, vals in HR. rewrite nth_error_map in HR. unfold val, obj.
  destruct (nth_error (w_objs w) r) as [o|] eqn:E; [|discriminate]. cbn in HR. injection HR as <-.
  now rewrite (nth_error_nth _ _ _ E).
Qed.
Lemma R_nth : forall w r c, R (vals w) r c -> ob_color (nth r (w_objs w) (fresh_obj WHITE)) = c.
Proof. intros. now apply R_val. Qed.
Lemma R_obj : forall w r c, R (vals w) r c -> nth_error (w_objs w) r = Some (obj w r) /\ ob_color (obj w r) = c.
Proof.
  intros w r c HR. split; [|now apply R_val]. unfold R, vals in HR. rewrite nth_error_map in HR. unfold obj.
  destruct (nth_error (w_objs w) r) as [o|] eqn:E; [|discriminate]. now rewrite (nth_error_nth _ _ _ E).
Qed.
Lemma optR_val : forall w o c, optR (vals w) o c -> opt_val (w_objs w) o = c.
Proof. intros w [r|] [c|] HR; cbn in *; try contradiction; auto. f_equal. now apply R_nth. Qed.

(** * The invariant of a world in which only one color space was in force *)
Definition obj_ok (e : env) (H : list color) (o : cobj) : Prop :=
  (forall a, ob_ansi o = Some a -> a = color_ansi e (ob_color o)) /\
  (forall k, ob_complement o = Some k -> exists c, complement (ob_color o) = Ok c /\ R H k c) /\
  (forall k, ob_contrast o = Some k -> exists c, contrast e (ob_color o) = Ok c /\ R H k c) /\
  (forall g ks, In (g, ks) (ob_groups o) -> exists cs, group_of g (ob_color o) = Ok cs /\ Forall2 (R H) ks cs).
Definition blend_ok (H : list color) (kr : bkey * ref) : Prop :=
  let '((a, b, al, bg, _), r) := kr in exists c, blend a b al bg = Ok c /\ R H r c.
Record good (e : env) (w : world) : Prop := {
  g_objs : Forall (obj_ok e (vals w)) (w_objs w);
  g_blends : Forall (blend_ok (vals w)) (w_blends w);
  g_white : R (vals w) WHITE_REF WHITE;
  g_black : R (vals w) BLACK_REF BLACK;
  g_dwhite : R (vals w) DEFAULT_WHITE_REF DEFAULT_WHITE;
  g_dblack : R (vals w) DEFAULT_BLACK_REF DEFAULT_BLACK
}.

Lemma obj_ok_app : forall e H l o, obj_ok e H o -> obj_ok e (H ++ l) o.
Proof.
  intros e H l o [A [B [C D]]]. split; [exact A|]. split; [|split].
  - intros k E. destruct (B k E) as [c [E1 E2]]. exists c. split; auto. now apply R_app.
  - intros k E. destruct (C k E) as [c [E1 E2]]. exists c. split; auto. now apply R_app.
  - intros g ks E. destruct (D g ks E) as [cs [E1 E2]]. exists cs. split; auto. now apply Rs_app.
Qed.
Lemma blend_ok_app : forall H l kr, blend_ok H kr -> blend_ok (H ++ l) kr.
Proof. intros H l [[[[[a b] al] bg] sh] r] [c [E1 E2]]. exists c. split; auto. now apply R_app. Qed.

(** A computation on the world agrees with a computation on values *)
Definition agrees {A B} (e : env) (w : world) (m : W A) (r : res B) (rel : list color -> A -> B -> Prop) : Prop :=
  let '(w', x) := m w in
  good e w' /\ grows w w' /\ w_chars w' = w_chars w /\
  match x, r with
  | Ok a, Ok b => rel (vals w') a b
  | Err x, Err y => x = y
  | _, _ => False
  end.

Lemma agrees_bind : forall A B A' B' e w (m : W A) (r : res B) rel (k : A -> W A') (k' : B -> res B') rel',
  agrees e w m r rel ->
  (forall w' a b, good e w' -> grows w w' -> w_chars w' = w_chars w -> rel (vals w') a b -> agrees e w' (k a) (k' b) rel') ->
  agrees e w (bindW m k) (bindr r k') rel'.
Proof.
  intros A B A' B' e w m r rel k k' rel' H K. unfold agrees in *. unfold bindW.
  destruct (m w) as [w1 [a|x]] eqn:E.
  - destruct r as [b|y]; [|tauto]. cbn [bindr]. destruct H as [G [Gr [C Hr]]].
    specialize (K w1 a b G Gr C Hr). destruct (k a w1) as [w2 x2]. destruct K as [K1 [K2 [K3 K4]]].
    split; auto. split; [eapply grows_trans; eauto|]. split; [congruence|auto].
  - destruct r as [b|y]; [tauto|]. exact H.
Qed.
Lemma agrees_ret : forall A B e w (a : A) (b : B) (rel : list color -> A -> B -> Prop), good e w -> rel (vals w) a b ->
  agrees e w (retW a) (Ok b) rel.
Proof. intros. unfold agrees, retW. split; auto. split; [apply grows_refl|]. auto. Qed.
Lemma agrees_lift : forall A B e w (r : res A) (r' : res B) (rel : list color -> A -> B -> Prop), good e w ->
  match r, r' with Ok a, Ok b => rel (vals w) a b | Err x, Err y => x = y | _, _ => False end ->
  agrees e w (liftW r) r' rel.
Proof. intros. unfold agrees, liftW. split; auto. split; [apply grows_refl|]. auto. Qed.
(** Weakening along an equation for the computation *)
Lemma agrees_fun : forall A B e w (m m' : W A) (r : res B) rel, m w = m' w -> agrees e w m' r rel -> agrees e w m r rel.
Proof. intros. unfold agrees in *. now rewrite H. Qed.

Lemma vals_set_objs : forall l w, vals (set_objs l w) = map ob_color l.
Proof. reflexivity. Qed.

Lemma alloc_agrees : forall e w c, good e w -> agrees e w (alloc c) c R.
Proof.
  intros e w [c|x] G; unfold agrees, alloc.
  - split.
    + destruct G as [G1 G2 G3 G4 G5 G6]. assert (V : vals (set_objs (w_objs w ++ [fresh_obj c]) w) = vals w ++ [c]).
      { unfold vals. cbn. now rewrite map_app. }
      constructor; rewrite ?V; try (now apply R_app).
      * cbn. apply Forall_app. split.
        -- eapply Forall_impl; [|exact G1]. intros o Ho. now apply obj_ok_app.
        -- constructor; [|constructor]. split; [discriminate|]. split; [discriminate|]. split; [discriminate|]. intros g ks [].
      * cbn. eapply Forall_impl; [|exact G2]. intros o Ho. now apply blend_ok_app.
    + split; [exists [c]; unfold vals; cbn; now rewrite map_app|]. split; [reflexivity|].
      unfold R, vals. cbn. rewrite map_app, nth_error_app2; rewrite map_length; [|auto]. now rewrite Nat.sub_diag.
  - split; auto. split; [apply grows_refl|]. auto.
Qed.

(** Remembering something about an object *)
Lemma set_nth_vals : forall w r o, ob_color o = val w r -> map ob_color (set_nth r o (w_objs w)) = vals w.
Proof.
  intros w r o H. unfold vals, val, obj in *. revert r H. induction (w_objs w) as [|a l IH]; intros [|r] H; cbn in *; auto.
  - now rewrite H.
  - f_equal. apply IH. exact H.
Qed.
Lemma set_nth_Forall : forall A (P : A -> Prop) n v l, Forall P l -> P v -> Forall P (set_nth n v l).
Proof. intros A P n v l H Hv. revert n. induction H; intros [|n]; cbn; auto. Qed.
Lemma remember_good : forall e w r o, good e w -> ob_color o = val w r -> obj_ok e (vals w) o ->
  good e (set_objs (set_nth r o (w_objs w)) w) /\ vals (set_objs (set_nth r o (w_objs w)) w) = vals w.
Proof.
  intros e w r o G Ho Hk. assert (V : vals (set_objs (set_nth r o (w_objs w)) w) = vals w).
  { rewrite vals_set_objs. now apply set_nth_vals. }
  split; auto. destruct G as [G1 G2 G3 G4 G5 G6]. constructor; rewrite ?V; auto.
  cbn. apply set_nth_Forall; auto.
Qed.
Lemma good_obj : forall e w r c, good e w -> R (vals w) r c -> obj_ok e (vals w) (obj w r).
Proof.
  intros e w r c G HR. destruct (R_obj _ _ _ HR) as [E _]. eapply Forall_forall; [apply (g_objs _ _ G)|].
  eapply nth_error_In; eauto.
Qed.

Lemma ansi_agrees : forall e w r c, good e w -> R (vals w) r c ->
  agrees e w (oansi e r) (Ok (color_ansi e c)) (fun _ a b => a = b).
Proof.
  intros e w r c G HR. pose proof (good_obj _ _ _ _ G HR) as [A [B [C D]]]. unfold agrees, oansi.
  destruct (ob_ansi (obj w r)) as [a|] eqn:E.
  - split; auto. split; [apply grows_refl|]. split; auto. rewrite (A a eq_refl).
    now rewrite (proj2 (R_obj _ _ _ HR)).
  - rewrite (R_val _ _ _ HR).
    destruct (remember_good e w r (mkCobj c (Some (color_ansi e c)) (ob_complement (obj w r)) (ob_contrast (obj w r))
      (ob_groups (obj w r))) G)
      as [G' V].
    + cbn. symmetry. now apply R_val.
    + rewrite (proj2 (R_obj _ _ _ HR)) in *. split; [|split; [|split]]; auto. cbn. intros a Ea. now injection Ea as <-.
    + split; [exact G'|]. split; [exists []; now rewrite V, app_nil_r|]. auto.
Qed.

Lemma remember_agrees : forall A B (rel : list color -> A -> B -> Prop) e w r c (m : W A) (f : A -> W A) (v : res B),
  good e w -> R (vals w) r c -> agrees e w m v rel ->
  (forall w' k d, v = Ok d -> good e w' -> R (vals w') r c -> rel (vals w') k d ->
    exists o, f k w' = (set_objs (set_nth r o (w_objs w')) w', Ok k) /\ ob_color o = c /\ obj_ok e (vals w') o) ->
  agrees e w (bindW m f) v rel.
Proof.
  intros A B rel e w r c m f v G HR M F. unfold agrees in *. unfold bindW. destruct (m w) as [w1 [k|x]]; [|exact M].
  destruct v as [d|x]; [|tauto]. destruct M as [G1 [Gr [C Hk]]].
  destruct (F w1 k d eq_refl G1 (R_grows _ _ _ _ Gr HR) Hk) as [o [-> [Ho Hk']]].
  destruct (remember_good e w1 r o G1) as [G2 V]; auto.
  - rewrite Ho. symmetry. apply R_val. eapply R_grows; eauto.
  - split; auto. split; [|split; [exact C|now rewrite V]].
    destruct Gr as [l Hl]. exists l. now rewrite V.
Qed.

Lemma complement_agrees : forall e w r c, good e w -> R (vals w) r c -> agrees e w (ocomplement r) (complement c) R.
Proof.
  intros e w r c G HR. pose proof (good_obj _ _ _ _ G HR) as [A [B [C D]]]. destruct (R_obj _ _ _ HR) as [_ EC].
  rewrite EC in *. destruct (ob_complement (obj w r)) as [k|] eqn:E.
  - eapply agrees_fun with (m' := fun w => (w, Ok k)); [unfold ocomplement; now rewrite E|].
    destruct (B k eq_refl) as [d [-> Hd]]. unfold agrees. split; auto. split; [apply grows_refl|]. auto.
  - eapply agrees_fun with (m' := bindW (alloc (complement c)) (fun k w =>
      (set_objs (set_nth r (mkCobj (val w r) (ob_ansi (obj w r)) (Some k) (ob_contrast (obj w r)) (ob_groups (obj w r))) (w_objs w)) w, Ok k))).
    + unfold ocomplement. rewrite E. now rewrite (R_val _ _ _ HR).
    + eapply remember_agrees; eauto; [now apply alloc_agrees|].
      intros w' k d Ed G' HR' Hk. eexists. split; [reflexivity|]. split; [cbn; now apply R_val|].
      pose proof (good_obj _ _ _ _ G' HR') as [A' [B' [C' D']]]. rewrite (R_val _ _ _ HR').
      rewrite (proj2 (R_obj _ _ _ HR')) in *. split; [exact A'|]. split; [|split; [exact C'|exact D']].
      cbn. intros k' Ek. injection Ek as <-. exists d. auto.
Qed.

Lemma as_background_agrees : forall e w r c b a, good e w -> R (vals w) r c ->
  agrees e w (oas_background r b a) (as_background c b a) R.
Proof.
  intros e w r c b a G HR. destruct (Bool.eqb (c_bg c) b) eqn:E.
  - eapply agrees_fun with (m' := retW r).
    + unfold oas_background. now rewrite (R_val _ _ _ HR), E.
    + unfold as_background. rewrite E. now apply agrees_ret.
  - eapply agrees_fun with (m' := alloc (as_background c b a)).
    + unfold oas_background. now rewrite (R_val _ _ _ HR), E.
    + now apply alloc_agrees.
Qed.

Lemma contrast_agrees : forall e w r c, good e w -> R (vals w) r c -> agrees e w (ocontrast e r) (contrast e c) R.
Proof.
  intros e w r c G HR. pose proof (good_obj _ _ _ _ G HR) as [A [B [C D]]]. destruct (R_obj _ _ _ HR) as [_ EC].
  rewrite EC in *. destruct (ob_contrast (obj w r)) as [k|] eqn:E.
  - eapply agrees_fun with (m' := fun w => (w, Ok k)); [unfold ocontrast; now rewrite E|].
    destruct (C k eq_refl) as [d [-> Hd]]. unfold agrees. split; auto. split; [apply grows_refl|]. auto.
  - eapply agrees_fun with (m' := bindW (oas_background
      (if fltb (flit 179 1000) (luminance e (c_rgb c)) then DEFAULT_BLACK_REF else DEFAULT_WHITE_REF) (c_bg c) None)
      (fun k w =>
      (set_objs (set_nth r (mkCobj (val w r) (ob_ansi (obj w r)) (ob_complement (obj w r)) (Some k) (ob_groups (obj w r))) (w_objs w)) w, Ok k))).
    + unfold ocontrast. rewrite E. now rewrite (R_val _ _ _ HR).
    + eapply remember_agrees; eauto.
      * unfold contrast. destruct (fltb (flit 179 1000) (luminance e (c_rgb c))); apply as_background_agrees; auto; apply G.
      * intros w' k d Ed G' HR' Hk. eexists. split; [reflexivity|]. split; [cbn; now apply R_val|].
        pose proof (good_obj _ _ _ _ G' HR') as [A' [B' [C' D']]]. rewrite (R_val _ _ _ HR').
        rewrite (proj2 (R_obj _ _ _ HR')) in *. split; [exact A'|]. split; [exact B'|]. split; [|exact D'].
        cbn. intros k' Ek. injection Ek as <-. exists d. auto.
Qed.

(** * The groups *)
Lemma hue_shift_agrees : forall e w r c a, good e w -> R (vals w) r c -> agrees e w (ohue_shift r a) (hue_shift c a) R.
Proof.
  intros e w r c a G HR. eapply agrees_fun with (m' := alloc (hue_shift c a)).
  - unfold ohue_shift. now rewrite (R_val _ _ _ HR).
  - now apply alloc_agrees.
Qed.
Definition Rs (H : list color) : list ref -> list color -> Prop := Forall2 (R H).
Lemma make_group_agrees : forall e w g r c, good e w -> R (vals w) r c ->
  agrees e w (omake_group g r) (group_of g c) Rs.
Proof.
  intros e w [] r c G HR; cbn [omake_group group_of].
  - eapply agrees_bind; [now apply hue_shift_agrees|]. intros w1 a1 c1 G1 S1 _ R1.
    pose proof (R_grows _ _ _ _ S1 HR) as H1. eapply agrees_bind; [now apply hue_shift_agrees|].
    intros w2 a2 c2 G2 S2 _ R2. apply agrees_ret; auto.
    constructor; [eapply R_grows; eauto|]. constructor; [eapply R_grows; eauto|]. constructor; [auto|constructor].
  - eapply agrees_bind; [now apply hue_shift_agrees|]. intros w1 a1 c1 G1 S1 _ R1.
    pose proof (R_grows _ _ _ _ S1 HR) as H1. eapply agrees_bind; [now apply hue_shift_agrees|].
    intros w2 a2 c2 G2 S2 _ R2. apply agrees_ret; auto.
    constructor; [eapply R_grows; eauto|]. constructor; [eapply R_grows; eauto|]. constructor; [auto|constructor].
  - eapply agrees_bind; [now apply hue_shift_agrees|]. intros w1 a1 c1 G1 S1 _ R1.
    pose proof (R_grows _ _ _ _ S1 HR) as H1. eapply agrees_bind; [now apply complement_agrees|].
    intros w2 a2 c2 G2 S2 _ R2. pose proof (R_grows _ _ _ _ S2 H1) as H2.
    eapply agrees_bind; [now apply hue_shift_agrees|]. intros w3 a3 c3 G3 S3 _ R3. apply agrees_ret; auto.
    constructor; [eapply R_grows; eauto|]. constructor; [eapply R_grows; [exact S3|]; eapply R_grows; eauto|].
    constructor; [eapply R_grows; eauto|]. constructor; [auto|constructor].
Qed.
Lemma gkind_eqb_eq : forall a b, gkind_eqb a b = true -> a = b.
Proof. intros [] []; cbn; congruence. Qed.
Lemma group_find_in : forall g l ks, group_find g l = Some ks -> In (g, ks) l.
Proof.
  intros g l ks. induction l as [|[g' k'] l IH]; cbn; [discriminate|]. destruct (gkind_eqb g' g) eqn:E; [|auto].
  apply gkind_eqb_eq in E. subst. intro H. injection H as <-. auto.
Qed.
Lemma group_agrees : forall e w g r c, good e w -> R (vals w) r c -> agrees e w (ogroup g r) (group_of g c) Rs.
Proof.
  intros e w g r c G HR. pose proof (good_obj _ _ _ _ G HR) as [A [B [C D]]]. destruct (R_obj _ _ _ HR) as [_ EC].
  rewrite EC in *. destruct (group_find g (ob_groups (obj w r))) as [ks|] eqn:E.
  - eapply agrees_fun with (m' := fun w => (w, Ok ks)); [unfold ogroup; now rewrite E|].
    apply group_find_in in E. destruct (D g ks E) as [cs [-> Hd]]. unfold agrees. split; auto.
    split; [apply grows_refl|]. auto.
  - eapply agrees_fun with (m' := bindW (omake_group g r) (fun ks w =>
      (set_objs (set_nth r (mkCobj (val w r) (ob_ansi (obj w r)) (ob_complement (obj w r)) (ob_contrast (obj w r))
        ((g, ks) :: ob_groups (obj w r))) (w_objs w)) w, Ok ks))).
    + unfold ogroup. now rewrite E.
    + eapply remember_agrees; eauto; [now apply make_group_agrees|].
      intros w' ks cs Ed G' HR' Hk. eexists. split; [reflexivity|]. split; [cbn; now apply R_val|].
      pose proof (good_obj _ _ _ _ G' HR') as [A' [B' [C' D']]]. rewrite (R_val _ _ _ HR').
      rewrite (proj2 (R_obj _ _ _ HR')) in *. split; [exact A'|]. split; [exact B'|]. split; [exact C'|].
      cbn. intros g' ks' [Ek|Ek]; [|now apply D']. injection Ek as <- <-. exists cs. auto.
Qed.

(** * blend behind its cache *)
Lemma blend_find_ok : forall H k l r, Forall (blend_ok H) l -> blend_find k l = Some r -> blend_ok H (k, r).
Proof.
  intros H k l r F. induction F as [|[k' r'] l Hk F IH]; cbn [blend_find]; [discriminate|].
  destruct (bkey_eqb k' k) eqn:E; [|exact IH]. intro Er. injection Er as <-.
  destruct k as [[[[a b] al] bg] sh]. destruct k' as [[[[a' b'] al'] bg'] sh']. cbn in Hk. destruct Hk as [c [E1 E2]].
  exists c. split; auto. now rewrite <- (bkey_blend _ _ _ _ _ _ _ _ _ _ E).
Qed.
Lemma Forall_firstn' : forall A (P : A -> Prop) n l, Forall P l -> Forall P (firstn n l).
Proof. intros A P n l H. revert n. induction H; intros [|n]; cbn; auto. Qed.
Lemma Forall_filter' : forall A (P : A -> Prop) f l, Forall P l -> Forall P (filter f l).
Proof. intros A P f l H. induction H; cbn; auto. destruct (f x); auto. Qed.
Lemma blend_put_ok : forall H k r l, Forall (blend_ok H) l -> blend_ok H (k, r) -> Forall (blend_ok H) (blend_put k r l).
Proof. intros. unfold blend_put. apply Forall_firstn'. constructor; auto. now apply Forall_filter'. Qed.
Lemma set_blends_good : forall e w l, good e w -> Forall (blend_ok (vals w)) l -> good e (set_blends l w).
Proof. intros e w l [G1 G2 G3 G4 G5 G6] H. constructor; auto. Qed.

Lemma blend_agrees : forall e w i j a b al bg sh, good e w -> R (vals w) i a -> R (vals w) j b ->
  agrees e w (oblend i j al bg sh) (blend a b al bg) R.
Proof.
  intros e w i j a b al bg sh G Ha Hb. unfold agrees, oblend. rewrite (R_val _ _ _ Ha), (R_val _ _ _ Hb).
  destruct (blend_find (a, b, al, bg, sh) (w_blends w)) as [r|] eqn:F.
  - pose proof (blend_find_ok _ _ _ _ (g_blends _ _ G) F) as B. pose proof B as [c [-> HR]].
    split; [apply set_blends_good; auto; apply blend_put_ok; auto; apply G|].
    split; [exists []; now rewrite app_nil_r|]. split; [reflexivity|exact HR].
  - pose proof (alloc_agrees e w (blend a b al bg) G) as P. unfold agrees in P. unfold bindW.
    destruct (alloc (blend a b al bg) w) as [w1 [r|x]]; [|exact P].
    destruct (blend a b al bg) as [c|x] eqn:E; [|tauto]. destruct P as [G1 [Gr [C HR]]].
    assert (B : blend_ok (vals w1) ((a, b, al, bg, sh), r)) by (exists c; auto).
    split; [apply set_blends_good; auto; apply blend_put_ok; auto; apply G1|].
    split; [exact Gr|]. split; [exact C|exact HR].
Qed.

Lemma lighten_agrees : forall e w r c n st, good e w -> R (vals w) r c -> agrees e w (olighten r n st) (lighten c n st) R.
Proof.
  intros e w r c n st G HR. unfold olighten, lighten. eapply agrees_bind with (rel := fun _ a b => a = b).
  - apply agrees_lift; auto. destruct (shade_alpha n st); auto.
  - intros w' a b G' Gr _ ->. apply blend_agrees; auto; [eapply R_grows; eauto|apply G'].
Qed.
Lemma darken_agrees : forall e w r c n st, good e w -> R (vals w) r c -> agrees e w (odarken r n st) (darken c n st) R.
Proof.
  intros e w r c n st G HR. unfold odarken, darken. eapply agrees_bind with (rel := fun _ a b => a = b).
  - apply agrees_lift; auto. destruct (shade_alpha n st); auto.
  - intros w' a b G' Gr _ ->. apply blend_agrees; auto; [eapply R_grows; eauto|apply G'].
Qed.
Lemma blend_complement_agrees : forall e w r c a, good e w -> R (vals w) r c ->
  agrees e w (oblend_complement r a) (blend_complement c a) R.
Proof.
  intros e w r c a G HR. unfold oblend_complement, blend_complement. eapply agrees_bind; [now apply complement_agrees|].
  intros w' k d G' Gr _ Hd. apply blend_agrees; auto. eapply R_grows; eauto.
Qed.
Lemma white_agrees : forall e w b, good e w -> agrees e w (owhite b) (color_white b) R.
Proof.
  intros e w [] G; unfold owhite, color_white; [apply as_background_agrees|apply agrees_ret]; auto; apply G.
Qed.
Lemma black_agrees : forall e w b, good e w -> agrees e w (oblack b) (color_black b) R.
Proof.
  intros e w [] G; unfold oblack, color_black; [apply as_background_agrees|apply agrees_ret]; auto; apply G.
Qed.

(** * Registers *)
Lemma Forall2_nth : forall A B (P : A -> B -> Prop) l l' i, Forall2 P l l' ->
  match nth_error l i, nth_error l' i with Some a, Some b => P a b | None, None => True | _, _ => False end.
Proof. intros A B P l l' i H. revert i. induction H; intros [|i]; cbn; auto. apply IHForall2. Qed.
Definition resR {A B} (P : A -> B -> Prop) (x : res A) (y : res B) : Prop :=
  match x, y with Ok a, Ok b => P a b | Err x, Err y => x = y | _, _ => False end.
Lemma getc_R : forall A B (P : A -> B -> Prop) l l' i, Forall2 P l l' -> resR P (getc l i) (getc l' i).
Proof.
  intros A B P l l' i H. pose proof (Forall2_nth _ _ _ _ _ i H) as N. unfold getc.
  destruct (nth_error l i), (nth_error l' i); cbn; tauto.
Qed.
Lemma getopt_R : forall H l l' i, Forall2 (R H) l l' -> resR (optR H) (getopt l i) (getopt l' i).
Proof.
  intros H l l' [i|] F; cbn; auto. pose proof (getc_R _ _ _ _ _ i F) as N.
  destruct (getc l i), (getc l' i); cbn in *; auto.
Qed.
Lemma getall_R : forall A B (P : A -> B -> Prop) l l' is, Forall2 P l l' -> resR (Forall2 P) (getall l is) (getall l' is).
Proof.
  intros A B P l l' is H. induction is as [|i is IH]; cbn; [constructor|].
  pose proof (getc_R _ _ _ _ _ i H) as N. destruct (getc l i), (getc l' i); cbn in *; try tauto.
  destruct (getall l is), (getall l' is); cbn in *; auto.
Qed.
Lemma getdata_R : forall A B (P : A -> B -> Prop) l l' d, Forall2 P l l' ->
  resR (Forall2 (fun a b => fst a = fst b /\ Forall2 P (snd a) (snd b))) (getdata l d) (getdata l' d).
Proof.
  intros A B P l l' d H. induction d as [|[p is] d IH]; cbn; [constructor|].
  pose proof (getall_R _ _ _ _ _ is H) as N. destruct (getall l is), (getall l' is); cbn in *; try tauto.
  destruct (getdata l d), (getdata l' d); cbn in *; auto.
Qed.

Lemma lift_getc : forall e w colors vs i (k : ref -> W ref) (k' : color -> res color), good e w ->
  Forall2 (R (vals w)) colors vs ->
  (forall r c, R (vals w) r c -> agrees e w (k r) (k' c) R) ->
  agrees e w (bindW (liftW (getc colors i)) k) (bindr (getc vs i) k') R.
Proof.
  intros e w colors vs i k k' G F K. unfold agrees, bindW, liftW. pose proof (getc_R _ _ _ _ _ i F) as N.
  destruct (getc colors i) as [r|x], (getc vs i) as [c|y]; cbn in N; try tauto.
  - exact (K r c N).
  - cbn [bindr]. split; auto. split; [apply grows_refl|]. auto.
Qed.

Lemma cop_agrees : forall e w colors vs c, good e w -> Forall2 (R (vals w)) colors vs ->
  agrees e w (run_cop e colors c) (plain_cop e vs c) R.
Proof.
  intros e w colors vs c G F. destruct c; cbn [run_cop plain_cop].
  - now apply alloc_agrees.
  - apply lift_getc; auto. intros r c HR. eapply agrees_fun with (m' := alloc (as_alpha c a)).
    + now rewrite (R_val _ _ _ HR).
    + now apply alloc_agrees.
  - apply lift_getc; auto. intros r c HR. eapply agrees_fun with (m' := alloc (hue_shift c a)).
    + now rewrite (R_val _ _ _ HR).
    + now apply alloc_agrees.
  - apply lift_getc; auto. intros r c HR. now apply as_background_agrees.
  - apply lift_getc; auto. intros r c HR. apply lift_getc; auto. intros q d HQ. now apply blend_agrees.
  - apply lift_getc; auto. intros r c HR. now apply lighten_agrees.
  - apply lift_getc; auto. intros r c HR. now apply darken_agrees.
  - apply lift_getc; auto. intros r c HR. now apply complement_agrees.
  - apply lift_getc; auto. intros r c HR. now apply contrast_agrees.
  - apply lift_getc; auto. intros r c HR. now apply blend_complement_agrees.
  - now apply white_agrees.
  - now apply black_agrees.
  - apply lift_getc; auto. intros r c HR. eapply agrees_bind; [now apply group_agrees|].
    intros w' ks cs G' Gr _ HK. apply agrees_lift; auto. exact (getc_R _ _ _ _ _ k HK).
Qed.
