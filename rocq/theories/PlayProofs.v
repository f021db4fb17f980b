(** Lemmas about the mouse example. *)
From Coq Require Import ZArith List Bool String Lia.
From Verif Require Import PyBase PyLemmas SplitLemmas F64 SpaceModel ColorModel ColorSpec ColorProofs2 AnsiRe SpanModel Vt SpanSpec ScreenModel ScreenSpec ScreenProofs
  DrawSpec RedrawSpec CoreModel KeyTab KeySpec KeyProofs TermModel TermSpec KeyUseModel KeyUseSpec KeyUseProofs SessionSpec SessionProofs PlayModel PlaySpec.
Import ListNotations.
Open Scope Z_scope.
Open Scope list_scope.

(** * Coordinates *)
Lemma less_one_dec : forall x y, less_one [dec x; dec y] = Ok [x - 1; y - 1].
Proof. intros x y. cbn [less_one]. rewrite !py_int_dec_all. reflexivity. Qed.
Lemma event_names_plain : forallb (fun n => forallb (fun b => match mouse_event n b with
   Some ev => negb (existsb (fun c => (c =? 64) || (c =? 59)) ev) && forallb (fun c => (32 <=? c) && (c <? 127)) ev | None => true end) [true; false]) (range 128) = true.
Proof. vm_compute. reflexivity. Qed.
Lemma event_name : forall n b ev, mouse_event n b = Some ev -> ~ In 64 ev /\ ~ In 59 ev /\ Forall (fun c => 32 <= c < 127) ev.
Proof.
  intros n b ev H.
  assert (R : 0 <= n < 128).
  { unfold mouse_event in H. destruct ((0 <=? n) && (n <? 128)) eqn:E; [|discriminate]. apply andb_true_iff in E. rewrite Z.leb_le, Z.ltb_lt in E. lia. }
  pose proof event_names_plain as T. rewrite forallb_forall in T. specialize (T n (proj2 (in_range 128 n) R)).
  rewrite forallb_forall in T. specialize (T b ltac:(destruct b; cbn; auto)). rewrite H in T.
  rewrite andb_true_iff, negb_true_iff in T. destruct T as [T1 T2]. rewrite forallb_forall in T2.
  assert (N : forall c, In c ev -> c <> 64 /\ c <> 59).
  { intros c I. split; intros ->; rewrite <- not_true_iff_false in T1; apply T1; apply existsb_exists; eexists; (split; [exact I|reflexivity]). }
  split; [intro I; destruct (N _ I); congruence|]. split; [intro I; destruct (N _ I); congruence|].
  apply Forall_forall. intros c I. specialize (T2 c I). rewrite andb_true_iff, Z.leb_le, Z.ltb_lt in T2. exact T2.
Qed.
Lemma event_coords : forall n b ev x y, mouse_event n b = Some ev -> 0 <= x -> 0 <= y ->
  coords (event_text ev (dec x) (dec y)) = Ok [x - 1; y - 1].
Proof.
  intros n b ev x y H Hx Hy. destruct (event_name n b ev H) as [N64 [N59 _]]. unfold coords, event_text.
  change (lit "@") with [64]. change (lit ";") with [59].
  assert (P : ~ In 64 (lit "mouse:" ++ ev)).
  { rewrite in_app_iff. intros [I|I]; [cbn in I; intuition discriminate|auto]. }
  assert (Q : ~ In 64 (dec x ++ [59] ++ dec y)).
  { rewrite !in_app_iff. intros [I|[[I|[]]|I]]; [exact (dec_no_char x 64 Hx ltac:(lia) I)|discriminate|exact (dec_no_char y 64 Hy ltac:(lia) I)]. }
  replace (lit "mouse:" ++ ev ++ [64] ++ dec x ++ [59] ++ dec y) with ((lit "mouse:" ++ ev) ++ 64 :: (dec x ++ [59] ++ dec y)) by (rewrite <- app_assoc; reflexivity).
  rewrite split_on_app by exact P. rewrite (split_on_single 64 _ Q). cbn [last_of last].
  change (dec x ++ [59] ++ dec y) with (dec x ++ 59 :: dec y).
  rewrite split_on_app by (apply dec_no_char; lia). rewrite split_on_single by (apply dec_no_char; lia). apply less_one_dec.
Qed.

(** * One turn as requests *)
Section Play.
Variables (pr : Z -> bool) (w h : Z).
Hypothesis Hpr : forall x, 128 <= x <= 159 -> pr x = false.

Definition key_of (i : input) : str :=
  match i with
  | Typed t => t
  | Mouse n b x y => match mouse_event n b with Some ev => event_text ev (dec x) (dec y) | None => [] end
  end.
Definition label (i : input) : str :=
  (match i with Typed _ => lit " Keyboard: " | _ => lit " Mouse: " end) ++ repr_str pr (key_of i) ++ lit " ".
Definition reqs (i : input) : list request :=
  match i with
  | Typed t => (if str_eqb t (lit "c") then [RClear 32; RRedraw] else []) ++ [RWrite (PStr (label i)) (0, 0) false]
  | Mouse n b x y => [RWrite (PStr (label i)) (0, 1) false; RWrite (PStr (lit "X")) (x - 1, y - 1) false]
  end.
Definition said (t : str) : span := mkSpan t None None [] no_flags true.
Definition sts (tb : color) (i : input) : list step :=
  match i with
  | Typed t => (if str_eqb t (lit "c") then [SAct (AClear 32); SRedraw] else []) ++ [SAct (AWrite [((0, 0), [said (label i)])] tb false)]
  | Mouse n b x y => [SAct (AWrite [((0, 1), [said (label i)])] tb false); SAct (AWrite [((x - 1, y - 1), [said (lit "X")])] tb false)]
  end.

Lemma received_key : forall i, sensible w h i -> (let* k := decode_key false (received i) in key_str k) = Ok (key_of i).
Proof.
  intros [t|n b x y] S; cbn [sensible received key_of] in *.
  - destruct S as [K [N _]]. rewrite decode_plain by assumption. reflexivity.
  - destruct S as [Hn [He [Hx Hy]]]. pose proof (decode_report [] n (dec x) (dec y) (if b then 77 else 109) Hn) as D. cbn [app] in D.
    rewrite D; try (apply dec_no_char; unfold ESC; lia); try (destruct b; discriminate).
    replace ((if b then 77 else 109) =? 77) with b by (destruct b; reflexivity).
    destruct (mouse_event n b); [reflexivity|congruence].
Qed.
Lemma key_characters : forall i, sensible w h i -> Forall character (key_of i).
Proof.
  intros [t|n b x y] S; cbn [sensible key_of] in *; [apply S|]. destruct S as [Hn [He [Hx Hy]]].
  destruct (mouse_event n b) as [ev|] eqn:E; [|congruence]. destruct (event_name n b ev E) as [_ [_ P]].
  assert (D : forall z, 0 <= z -> Forall character (dec z)).
  { intros z Hz. apply Forall_forall. intros c I. unfold character. pose proof (dec_digits z Hz) as DD. rewrite forallb_forall in DD. specialize (DD c I).
    unfold is_digit in DD. rewrite andb_true_iff, !Z.leb_le in DD. lia. }
  unfold event_text. rewrite !Forall_app.
  split; [repeat constructor; unfold character; lia|]. split; [revert P; apply Forall_impl; intros c Hc; unfold character; lia|].
  split; [repeat constructor; unfold character; lia|]. split; [apply D; lia|]. split; [repeat constructor; unfold character; lia|apply D; lia].
Qed.
Lemma label_plain : forall i, sensible w h i -> Forall (fun c => is_ctl c = false) (label i).
Proof.
  intros i S. unfold label. apply Forall_app. split; [destruct i; repeat constructor|]. apply Forall_app. split; [|repeat constructor].
  apply repr_plain; [exact Hpr|now apply key_characters].
Qed.
Lemma plain_no : forall t c, Forall (fun c => is_ctl c = false) t -> is_ctl c = true -> ~ In c t.
Proof. intros t c F C I. rewrite Forall_forall in F. specialize (F c I). congruence. Qed.
Lemma label_string : forall i, sensible w h i -> parse_line (label i) = Ok [said (label i)].
Proof.
  intros i S. apply plain_string; [|destruct i; discriminate]. apply plain_no; [now apply label_plain|reflexivity].
Qed.

Lemma turn : forall i v s, sensible w h i ->
  play_turn pr (key_of i) v s = (ask_all (reqs i ++ [RDraw]) ;; retM true) v s.
Proof.
  intros [t|n b x y] v s S.
  - destruct S as [_ [_ [Nn [_ [Ncc Nm]]]]]. unfold play_turn. cbn [key_of].
    rewrite (proj2 (str_eqb_neq _ _) Nn), (proj2 (str_eqb_neq _ _) Ncc), Nm. cbn [negb].
    change (lit " Keyboard: " ++ repr_str pr t ++ lit " ") with (label (Typed t)). cbn [reqs].
    destruct (str_eqb t (lit "c")); cbn [app ask_all fold_right ask]; unfold seqM, bindM, retM, pos.
    { change (lit " ") with [32]. destruct (tclear [32] v s) as [s1 [[]|x]]; [|reflexivity]. destruct (draw true v s1) as [s2 [[]|x]]; [|reflexivity].
      destruct (twrite (PStr (label (Typed t))) (Some (0, 0)) false v s2) as [s3 [r|x]]; [|reflexivity].
      destruct (draw false v s3) as [s4 [r2|x]]; reflexivity. }
    destruct (twrite (PStr (label (Typed t))) (Some (0, 0)) false v s) as [s1 [r|x]]; [|reflexivity].
    destruct (draw false v s1) as [s2 [r2|x]]; reflexivity.
  - destruct S as [Hn [He [Hx Hy]]]. unfold play_turn.
    assert (L : label (Mouse n b x y) = lit " Mouse: " ++ repr_str pr (key_of (Mouse n b x y)) ++ lit " ") by reflexivity.
    cbn [key_of] in L |- *. destruct (mouse_event n b) as [ev|] eqn:E; [|congruence].
    assert (St : startswith (lit "mouse:") (event_text ev (dec x) (dec y)) = true) by apply event_is_mouse.
    assert (N : forall t, startswith (lit "mouse:") t = false -> str_eqb (event_text ev (dec x) (dec y)) t = false).
    { intros t Ht. apply str_eqb_neq. intros Eq. rewrite Eq in St. congruence. }
    rewrite !N by reflexivity. rewrite St. cbn [negb]. unfold mark. rewrite (event_coords n b ev x y E) by lia. rewrite <- L.
    cbn [reqs app ask_all fold_right ask]. unfold seqM, bindM, retM, pos.
    destruct (twrite (PStr (label (Mouse n b x y))) (Some (0, 1)) false v s) as [s1 [r|ex]]; [|reflexivity].
    destruct (twrite (PStr (lit "X")) (Some (x - 1, y - 1)) false v s1) as [s2 [r2|ex]]; [|reflexivity].
    destruct (draw false v s2) as [s3 [r3|ex]]; reflexivity.
Qed.
Lemma ask_app : forall a b v s, ask_all (a ++ b) v s = (ask_all a ;; ask_all b) v s.
Proof.
  induction a as [|r a IH]; intros b v s; [reflexivity|]. cbn [app ask_all fold_right]. unfold seqM, bindM.
  destruct (ask r v s) as [s1 [[]|x]]; [|reflexivity]. apply IH.
Qed.
Lemma turns : forall l v s, Forall (sensible w h) l ->
  play pr (map received l) v s = ask_all (flat_map (fun i => reqs i ++ [RDraw]) l) v s.
Proof.
  induction l as [|i l IH]; intros v s F; [reflexivity|]. inversion F as [|? ? S F']; subst.
  cbn [map play flat_map]. rewrite (received_key i S). rewrite ask_app. unfold bindM, seqM at 1, bindM. rewrite (turn i v s S).
  unfold seqM, bindM, retM. destruct (ask_all (reqs i ++ [RDraw]) v s) as [s1 [[]|x]]; [|reflexivity]. now apply IH.
Qed.

(** * As acts *)
Lemma said_drawable : forall t, Forall (fun c => is_ctl c = false) t -> drawable (said t).
Proof.
  intros t F. split; [exact F|]. split; [discriminate|]. split; intros c H; discriminate.
Qed.
Lemma sts_ok : forall tb i, fine tb -> 2 <= h -> sensible w h i -> Forall (step_ok w h) (sts tb i).
Proof.
  intros tb i Ht Hh S.
  assert (A : forall x y t, y < h -> Forall (fun c => is_ctl c = false) t -> step_ok w h (SAct (AWrite [((x, y), [said t])] tb false))).
  { intros x y t Hy F. split; [split; [|split; [exact Ht|]]|].
    - constructor; [|constructor]. split; [exact Hy|]. split; [|exact I]. constructor; [|constructor]. now apply plain_no.
    - constructor; [|constructor]. constructor; [|constructor]. now apply said_drawable.
    - repeat constructor. }
  pose proof (label_plain i S) as L. destruct i as [t|n b x y]; cbn [sts].
  - apply Forall_app. split; [destruct (str_eqb t (lit "c")); repeat constructor|]. constructor; [|constructor]. apply A; [lia|exact L].
  - destruct S as [_ [_ [Hx Hy]]]. constructor; [apply A; [lia|exact L]|]. constructor; [apply A; [lia|repeat constructor]|constructor].
Qed.
Lemma sts_stand : forall tb i, sensible w h i -> Forall2 (stands_for tb) (reqs i) (sts tb i).
Proof.
  intros tb i S. pose proof (label_string i S) as L. destruct i as [t|n b x y]; cbn [sts reqs].
  - apply Forall2_app; [destruct (str_eqb t (lit "c")); repeat constructor|]. constructor; [|constructor]. eexists. split; [exact L|reflexivity].
  - constructor; [eexists; split; [exact L|reflexivity]|]. constructor; [|constructor]. eexists. split; [|reflexivity].
    apply plain_string; [cbn; intuition discriminate|discriminate].
Qed.
(** the program redraws a screen it has just cleared only *)
Definition cleared (l : list step) : Prop := forall b a, l = b ++ SRedraw :: a -> exists b', b = b' ++ [SAct (AClear 32)].
Lemma cleared_app : forall l1 l2, cleared l1 -> cleared l2 -> cleared (l1 ++ l2).
Proof.
  intros l1 l2 H1 H2 b a E. destruct (app_eq_app _ _ _ _ E) as [l [[E1 E2]|[E1 E2]]].
  - destruct l as [|x l]; cbn [app] in E2.
    + destruct (H2 [] a) as [b' Eb]; [now rewrite <- E2|]. destruct b'; discriminate.
    + injection E2 as <- _. exact (H1 b l E1).
  - destruct (H2 l a E2) as [b' ->]. exists (l1 ++ b'). now rewrite E1, app_assoc.
Qed.
Lemma cleared_acts : forall l, cleared (map SAct l).
Proof.
  intros l b a E. exfalso. assert (J : In SRedraw (map SAct l)) by (rewrite E; apply in_or_app; right; now left).
  apply in_map_iff in J. destruct J as [x [J _]]. discriminate.
Qed.
Lemma cleared_one : cleared [SAct (AClear 32); SRedraw].
Proof.
  intros b a E. destruct b as [|x [|y [|z b]]]; cbn [app] in E; try discriminate.
  injection E as <- _. now exists [].
Qed.
Lemma sts_cleared : forall tb i, cleared (sts tb i).
Proof.
  intros tb [t|n b x y]; cbn [sts].
  - apply cleared_app; [destruct (str_eqb t (lit "c")); [apply cleared_one|exact (cleared_acts [])]|].
    exact (cleared_acts [AWrite [((0, 0), [said (label (Typed t))])] tb false]).
  - exact (cleared_acts [AWrite [((0, 1), [said (label (Mouse n b x y))])] tb false; AWrite [((x - 1, y - 1), [said (lit "X")])] tb false]).
Qed.
End Play.

Lemma paint_one : forall sh w h p x y t tb f k c, 0 <= x < w -> 0 <= y < h -> nth_error t k = Some c -> y * w + x + Z.of_nat k < w * h ->
  let a := y * w + x + Z.of_nat k in
  paint_act sh w h p (AWrite [((x, y), [said t])] tb f) (a mod w, a / w) = (c, white_text sh).
Proof.
  intros sh w h p x y t tb f k c Hx Hy Hn Ha a. cbn [paint_act flat_map]. rewrite app_nil_r. unfold spots.
  rewrite (proj2 (Z.leb_le 0 x)), (proj2 (Z.ltb_lt x w)), (proj2 (Z.leb_le 0 y)), (proj2 (Z.ltb_lt y h)) by lia. cbn [andb].
  unfold glyphs. cbn [flat_map]. rewrite app_nil_r. cbn [said s_text].
  assert (G : forall (l : list Z) b k, nth_error l k = Some c -> 0 <= b -> b + Z.of_nat k < w * h ->
     rev (covering ((b + Z.of_nat k) mod w, (b + Z.of_nat k) / w) (number w h b (map (fun c => (c, said t)) l))) = [(c, said t)]).
  { assert (Z0 : forall (l : list Z) b q, q < b -> 0 <= q -> covering (q mod w, q / w) (number w h b (map (fun c => (c, said t)) l)) = []).
    { intro l. induction l as [|d l IH]; intros b q Hq Hq0; [reflexivity|]. cbn [map number]. destruct (b <? w * h); [|reflexivity].
      unfold covering. cbn [filter map fst snd]. 
      destruct (pos_eqb (b mod w, b / w) (q mod w, q / w)) eqn:E.
      - exfalso. apply pos_eqb_iff in E. injection E as E1 E2. pose proof (Z.div_mod b w ltac:(lia)). pose proof (Z.div_mod q w ltac:(lia)). rewrite E1, E2 in *. lia.
      - apply (IH (b + 1) q); lia. }
    intro l. induction l as [|d l IH]; intros b [|k'] Hn' Hb Hlt; try discriminate.
    - cbn [nth_error] in Hn'. injection Hn' as ->. change (Z.of_nat 0) with 0 in *. rewrite Z.add_0_r in *. cbn [map number].
      rewrite (proj2 (Z.ltb_lt b (w * h)) Hlt). unfold covering. cbn [filter map fst snd].
      rewrite (proj2 (pos_eqb_iff _ _) eq_refl). cbn [map snd].
      pose proof (Z0 l (b + 1) b ltac:(lia) Hb) as N. unfold covering in N. rewrite N. reflexivity.
    - cbn [nth_error] in Hn'. cbn [map number]. rewrite (proj2 (Z.ltb_lt b (w * h))) by lia.
      specialize (IH (b + 1) k' Hn' ltac:(lia) ltac:(lia)). replace (b + 1 + Z.of_nat k') with (b + Z.of_nat (S k')) in IH by lia.
      unfold covering in *. cbn [filter map fst snd].
      destruct (pos_eqb (b mod w, b / w) ((b + Z.of_nat (S k')) mod w, (b + Z.of_nat (S k')) / w)) eqn:E; [|exact IH].
      exfalso. apply pos_eqb_iff in E. injection E as E1 E2. pose proof (Z.div_mod b w ltac:(lia)) as D1.
      pose proof (Z.div_mod (b + Z.of_nat (S k')) w ltac:(lia)) as D2. rewrite <- E1, <- E2 in D2. lia. }
  unfold a. rewrite (G t (y * w + x) k Hn); [reflexivity| |lia]. nia.
Qed.

(** * The program *)
Lemma playing : forall pr v e bg tb sh m before i, (forall x, 128 <= x <= 159 -> pr x = false) ->
  peaceful v -> color_env v (new_terminal v bg) = Ok e -> as_background bg true None = Ok tb -> fine tb -> shades e sh -> at_rest m ->
  fits (fst (te_size v)) (snd (te_size v)) (1, 1) m -> 2 <= snd (te_size v) ->
  Forall (sensible (fst (te_size v)) (snd (te_size v))) before -> sensible (fst (te_size v)) (snd (te_size v)) i ->
  exists s, play pr (map received (before ++ [i])) v (new_terminal v bg) = (s, Ok tt) /\
    match i with
    | Mouse _ _ x y => e_grid (vt (t_out s) m) (x - 1) (y - 1) = (88, white_text sh, [])
    | Typed t => forall k c, nth_error (lit " Keyboard: " ++ repr_str pr t ++ lit " ") k = Some c ->
        Z.of_nat k < fst (te_size v) * snd (te_size v) ->
        e_grid (vt (t_out s) m) (Z.of_nat k mod fst (te_size v)) (Z.of_nat k / fst (te_size v)) = (c, white_text sh, [])
    end.
Proof.
  intros pr v e bg tb sh m before i Hpr Hv He Htb Hfine Hsh Hm Hf Hh Fb Si.
  set (w := fst (te_size v)) in *. set (h := snd (te_size v)) in *.
  assert (Fl : Forall (sensible w h) (before ++ [i])) by (apply Forall_app; split; [exact Fb|constructor; [exact Si|constructor]]).
  set (R := flat_map (fun i => reqs pr i ++ [RDraw]) before ++ reqs pr i).
  set (A := flat_map (fun i => sts pr tb i ++ [SAct ADraw]) before ++ sts pr tb i).
  assert (F2 : Forall2 (stands_for tb) R A).
  { apply Forall2_app; [|apply (sts_stand pr w h Hpr tb i Si)]. clear -Fb Hpr. induction Fb as [|j l S F IH]; [constructor|]. cbn [flat_map].
    apply Forall2_app; [|exact IH]. apply Forall2_app; [apply (sts_stand pr w h Hpr tb j S)|]. constructor; [reflexivity|constructor]. }
  assert (F1 : Forall (step_ok w h) A).
  { apply Forall_app. split; [|apply sts_ok; assumption]. clear -Fb Hpr Hfine Hh. induction Fb as [|j l S F IH]; [constructor|]. cbn [flat_map].
    apply Forall_app. split; [|exact IH]. apply Forall_app. split; [apply sts_ok; assumption|]. constructor; [split; exact I|constructor]. }
  assert (F3 : cleared A).
  { apply cleared_app; [|apply sts_cleared]. clear. induction before as [|j l IH]; [exact (cleared_acts [])|]. cbn [flat_map].
    apply cleared_app; [|exact IH]. apply cleared_app; [apply sts_cleared|exact (cleared_acts [ADraw])]. }
  destruct (session_redraws v e bg tb sh m R A Hv He Htb Hsh Hm Hf F2 F1) as [s [E [P0 _]]]. cbv zeta in P0. fold w h in P0.
  (* redrawn cells are blank *)
  assert (P : forall x y, 0 <= x < w -> 0 <= y < h ->
     e_grid (vt (t_out s) m) x y = (fst (fold_left (paint_step sh w h) A (blank 32) (x, y)), snd (fold_left (paint_step sh w h) A (blank 32) (x, y)), [])).
  { intros x y Hx Hy. destruct (P0 x y Hx Hy) as [P1|[[b [a [E1 E2]]] P1]]; [exact P1|]. rewrite P1.
    destruct (F3 b a E1) as [b' Eb]. specialize (E2 [] a eq_refl). rewrite <- E2, app_nil_r, Eb, fold_left_app. reflexivity. }
  clear P0. exists s. split.
  - rewrite (turns pr w h) by assumption. rewrite flat_map_app. cbn [flat_map]. rewrite app_nil_r, app_assoc. exact E.
  - destruct i as [t|n b x y].
    + intros k c Hn Hk. unfold A in P. cbn [sts] in P. rewrite app_assoc, fold_left_app in P. cbn [fold_left paint_step] in P.
      set (p0 := fold_left (paint_step sh w h) (_ ++ _) (blank 32)) in P. clearbody p0.
      assert (W : 0 < w).
      { destruct (Z_lt_le_dec 0 w); [assumption|]. exfalso. assert (w * h <= 0) by (apply Z.mul_nonpos_nonneg; lia). lia. }
      pose proof (paint_one sh w h p0 0 0 (label pr (Typed t)) tb false k c ltac:(lia) ltac:(lia) Hn ltac:(lia)) as G. cbv zeta in G.
      replace (0 * w + 0 + Z.of_nat k) with (Z.of_nat k) in G by lia.
      rewrite P; [rewrite G; reflexivity|apply Z.mod_pos_bound; exact W|].
      split; [apply Z.div_pos; lia|apply Z.div_lt_upper_bound; lia].
    + destruct Si as [_ [_ [Hx Hy]]]. unfold A in P. cbn [sts] in P. rewrite fold_left_app in P. cbn [fold_left paint_step] in P.
      match type of P with context [paint_act sh w h ?p (AWrite [((x - 1, y - 1), _)] _ _)] => set (p1 := p) in P end. clearbody p1.
      assert (NL : (y - 1) * w + (x - 1) + Z.of_nat 0 < w * h) by nia.
      pose proof (paint_one sh w h p1 (x - 1) (y - 1) (lit "X") tb false 0 88 ltac:(lia) ltac:(lia) eq_refl NL) as G. cbv zeta in G.
      change (Z.of_nat 0) with 0 in G. rewrite Z.add_0_r in G.
      rewrite (Z.add_comm ((y - 1) * w)), Z_mod_plus_full, Z_div_plus_full, Z.mod_small, Z.div_small in G by lia. rewrite Z.add_0_l in G.
      rewrite P by lia. rewrite G. reflexivity.
Qed.

(** ... with what is shown as a literal *)
Lemma playing_literal : forall pr v e bg tb sh m before i, (forall x, 128 <= x <= 159 -> pr x = false) ->
  peaceful v -> color_env v (new_terminal v bg) = Ok e -> as_background bg true None = Ok tb -> fine tb -> shades e sh -> at_rest m ->
  fits (fst (te_size v)) (snd (te_size v)) (1, 1) m -> 2 <= snd (te_size v) ->
  Forall (sensible (fst (te_size v)) (snd (te_size v))) before -> sensible (fst (te_size v)) (snd (te_size v)) i ->
  exists s, play pr (map received (before ++ [i])) v (new_terminal v bg) = (s, Ok tt) /\
    match i with
    | Mouse _ _ x y => e_grid (vt (t_out s) m) (x - 1) (y - 1) = (88, white_text sh, [])
    | Typed t => exists l, literal l = Some t /\ forall k c, nth_error (lit " Keyboard: " ++ l ++ lit " ") k = Some c ->
        Z.of_nat k < fst (te_size v) * snd (te_size v) ->
        e_grid (vt (t_out s) m) (Z.of_nat k mod fst (te_size v)) (Z.of_nat k / fst (te_size v)) = (c, white_text sh, [])
    end.
Proof.
  intros pr v e bg tb sh m before i Hpr Hv He Htb Hfine Hsh Hm Hf Hh Fb Si.
  destruct (playing pr v e bg tb sh m before i Hpr Hv He Htb Hfine Hsh Hm Hf Hh Fb Si) as [s [E P]].
  exists s. split; [exact E|]. destruct i as [t|n b x y]; [|exact P]. exists (repr_str pr t). split; [|exact P].
  apply repr_literal. apply Si.
Qed.
