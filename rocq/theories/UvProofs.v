(** Lemmas: experiments/resize.py. *)
From Coq Require Import ZArith Reals List Bool Lia Lra String.
From Flocq Require Import Core IEEE754.BinarySingleNaN.
From Verif Require Import PyBase PyLemmas F64 SpaceModel ColorModel ColorSpec AnsiRe SpanModel Vt SpanSpec FloatLemmas HueProofs
  ScreenModel ScreenSpec DrawSpec RedrawSpec TileSpec PenSpec
  CoreModel TermModel TermSpec SessionSpec ReadmeModel ReshapeSpec ReshapeModel PainterSpec PainterProofs PainterProofs2.
Import ListNotations.
Open Scope list_scope.

Section Channel.
Open Scope R_scope.
Lemma normalize_channel : forall val a limit, fin val a -> (1 <= limit <= 65535)%Z -> 0 <= a <= IZR limit - / 2 ->
  exists n, normalize val limit = Ok n /\ (0 <= n <= 255)%Z.
Proof.
  intros val a limit Hv Hl Ha. assert (HL : 1 <= IZR limit <= 65535) by (split; apply IZR_le; lia).
  assert (Q : 0 <= a / IZR limit <= IZR 131071 / IZR (2 ^ 17)).
  { split; [apply Rmult_le_pos; [lra|left; apply Rinv_0_lt_compat; lra]|].
    change (2 ^ 17)%Z with 131072%Z. apply (Rmult_le_reg_r (IZR limit)); [lra|]. replace (a / IZR limit * IZR limit) with a by (field; lra).
    unfold Rdiv. lra. }
  assert (B1 : forall x, Rabs x <= 65536 -> Rabs x <= big).
  { intros x Hx. apply Rle_trans with 65536; [exact Hx|]. unfold big. change 65536 with (bpow radix2 16). apply bpow_le. lia. }
  assert (Q' : Rabs (a / IZR limit) <= big) by (apply B1, Rabs_le; change (2 ^ 17)%Z with 131072%Z in Q; lra).
  pose proof (fdiv_spec val (fofZ limit) a (IZR limit) Hv (fofZ_spec limit ltac:(lia)) ltac:(lra) Q') as D.
  assert (D1 : 0 <= rnd (a / IZR limit) <= IZR 131071 / IZR (2 ^ 17)).
  { split; [apply rnd_ge; [apply fmt_0|apply Q]|apply rnd_le_fmt; [apply fmt_dyad; lia|apply Q]]. }
  set (d := rnd (a / IZR limit)) in *.
  assert (M0 : 0 <= d * 256 <= IZR 131071 / IZR (2 ^ 9)) by (change (2 ^ 17)%Z with 131072%Z in D1; change (2 ^ 9)%Z with 512%Z; lra).
  assert (M' : Rabs (d * 256) <= big) by (apply B1, Rabs_le; change (2 ^ 9)%Z with 512%Z in M0; lra).
  pose proof (fmul_spec _ (fofZ 256) d 256 D (fofZ_spec 256 ltac:(lia)) M') as M.
  assert (M1 : 0 <= rnd (d * 256) <= IZR 131071 / IZR (2 ^ 9)).
  { split; [apply rnd_ge; [apply fmt_0|apply M0]|apply rnd_le_fmt; [apply fmt_dyad; lia|apply M0]]. }
  exists (Ztrunc (rnd (d * 256))). split; [exact (py_int_spec _ _ M)|]. rewrite Ztrunc_floor by apply M1. split.
  - apply Zfloor_lub. apply M1.
  - assert (L : IZR (Zfloor (rnd (d * 256))) < 256) by (apply Rle_lt_trans with (rnd (d * 256)); [apply Zfloor_lb|change (2 ^ 9)%Z with 512%Z in M1; lra]).
    apply lt_IZR in L. lia.
Qed.
Lemma normalize_int : forall k limit, (0 <= k < limit)%Z -> (limit <= 65535)%Z -> exists n, normalize (fofZ k) limit = Ok n /\ (0 <= n <= 255)%Z.
Proof.
  intros k limit Hk Hl. apply (normalize_channel _ (IZR k)); [apply fofZ_spec; lia|lia|].
  split; [apply IZR_le; lia|]. assert (IZR k <= IZR limit - 1) by (rewrite <- minus_IZR; apply IZR_le; lia). lra.
Qed.
Lemma normalize_half : forall k limit, (0 <= k < limit)%Z -> (limit <= 65535)%Z ->
  exists n, normalize (fadd (fofZ k) (flit 1 2)) limit = Ok n /\ (0 <= n <= 255)%Z.
Proof.
  intros k limit Hk Hl. assert (K0 : 0 <= IZR k <= IZR limit - 1) by (split; [apply IZR_le; lia|rewrite <- minus_IZR; apply IZR_le; lia]).
  assert (KL : IZR limit <= 65535) by (apply IZR_le; lia).
  assert (E : rnd (IZR k + / 2) = IZR k + / 2).
  { apply rnd_id. replace (IZR k + / 2) with (IZR (2 * k + 1) / IZR (2 ^ 1)); [apply fmt_dyad; lia|]. rewrite plus_IZR, mult_IZR. change (2 ^ 1)%Z with 2%Z. lra. }
  pose proof (fadd_spec (fofZ k) (flit 1 2) (IZR k) (/ 2) (fofZ_spec k ltac:(lia)) half_exact) as A. rewrite E in A.
  apply (normalize_channel _ (IZR k + / 2)); [apply A|lia|lra].
  apply Rle_trans with 65536; [apply Rabs_le; lra|]. unfold big. change 65536 with (bpow radix2 16). apply bpow_le. lia.
Qed.
End Channel.

Open Scope Z_scope.
(** a window's size is two 16-bit numbers *)
Definition is_small (sz : Z * Z) : bool := (fst sz <=? 65535) && (snd sz <=? 65535).
Definition half_block : span := mkSpan [9604] None None [] no_flags true.
Lemma uv_drawable : forall w h x y, is_small (w, h) = true -> 0 <= x < w -> 0 <= y < h ->
  exists sp, uv_span w h x y = Ok sp /\ s_text sp = [9604] /\ drawable sp /\ span_iter sp = [sp] /\ s_flags sp = no_flags.
Proof.
  intros w h x y S Hx Hy. unfold is_small in S. cbn [fst snd] in S. apply andb_true_iff in S. destruct S as [S1 S2]. apply Z.leb_le in S1, S2.
  destruct (normalize_int x w Hx S1) as [r [Er Hr]]. destruct (normalize_int y h Hy S2) as [g [Eg Hg]]. destruct (normalize_half y h Hy S2) as [g2 [Eg2 Hg2]].
  unfold uv_span. rewrite Er. cbn [bindr]. rewrite Eg. cbn [bindr]. rewrite Eg2.
  assert (V : forall a b, 0 <= a <= 255 -> 0 <= b <= 255 -> valid_rgb (a, b, 0) = true).
  { intros a b A B. unfold valid_rgb, in_channel. rewrite !andb_true_iff, !Z.leb_le. lia. }
  assert (C : forall a b bg, 0 <= a <= 255 -> 0 <= b <= 255 -> by_value (mkColor (a, b, 0) bg fone TRUE_COLOR None)).
  { intros a b bg A B. split; [|split; [reflexivity|exact Logic.I]]. unfold color_ok, channel_ok, red, green, blue. cbn. lia. }
  unfold color_of, plain_color, new_color. rewrite (V r g) by assumption. cbn [bindr]. unfold as_background. cbn [c_bg Bool.eqb c_rgb c_alpha].
  unfold plain_color, new_color. rewrite (V r g) by assumption. cbn [bindr]. rewrite (V r g2) by assumption. cbn [bindr].
  eexists. split; [reflexivity|]. split; [reflexivity|]. split; [|split; reflexivity].
  split; [constructor; [reflexivity|constructor]|]. split; [discriminate|]. cbn [s_fg s_bg].
  split; intros c E; injection E as <-; (split; [now apply C|reflexivity]).
Qed.
Definition uv_sp (w h : Z) (q : Z * Z) : span :=
  if is_small (w, h) then match uv_span w h (fst q) (snd q) with Ok sp => sp | Err _ => half_block end else half_block.
Definition uv_places (w h : Z) : list (Z * Z) := flat_map (fun x => map (fun y => (x, y)) (range h)) (range w).
Lemma in_range : forall n k, In k (range n) <-> 0 <= k < n.
Proof.
  intros n k. unfold range. rewrite in_map_iff. split.
  - intros [j [<- H]]. apply in_seq in H. lia.
  - intro H. exists (Z.to_nat k). split; [lia|]. apply in_seq. lia.
Qed.
Lemma in_places : forall w h q, In q (uv_places w h) <-> on_screen w h q.
Proof.
  intros w h [x y]. unfold uv_places, on_screen. rewrite in_flat_map. cbn [fst snd]. split.
  - intros [a [A B]]. apply in_map_iff in B. destruct B as [b [E B]]. injection E as -> ->. apply in_range in A, B. lia.
  - intros H. exists x. split; [apply in_range; lia|]. apply in_map, in_range. lia.
Qed.
Lemma uv_sp_ok : forall w h q, on_screen w h q -> s_text (uv_sp w h q) = [9604] /\ drawable (uv_sp w h q) /\ s_flags (uv_sp w h q) = no_flags.
Proof.
  intros w h [x y] H. unfold uv_sp. cbn [fst snd]. destruct (is_small (w, h)) eqn:S.
  - destruct (uv_drawable w h x y S) as [sp [E [E1 [E2 [_ E3]]]]]; [apply H|apply H|]. rewrite E. auto.
  - split; [reflexivity|]. split; [|reflexivity]. split; [constructor; [reflexivity|constructor]|]. split; [discriminate|]. split; discriminate.
Qed.
Definition uv_reqs (sz : Z * Z) : list request :=
  map (fun q => RWrite (PSpans [uv_sp (fst sz) (snd sz) q]) q false) (uv_places (fst sz) (snd sz)) ++ [RRedraw].
Definition uv_acts (tb : color) (sz : Z * Z) : list act :=
  map (fun q => AWrite [(q, [uv_sp (fst sz) (snd sz) q])] tb false) (uv_places (fst sz) (snd sz)).
Lemma uv_stands : forall tb sz, Forall2 (stands_for tb) (uv_reqs sz) (map SAct (uv_acts tb sz) ++ [SRedraw]).
Proof.
  intros tb sz. unfold uv_reqs, uv_acts. apply Forall2_app; [|constructor; [reflexivity|constructor]].
  rewrite map_map. induction (uv_places (fst sz) (snd sz)) as [|q l IH]; [constructor|]. constructor; [reflexivity|exact IH].
Qed.
Lemma uv_acts_ok : forall tb w h, fine tb -> Forall (act_ok w h) (uv_acts tb (w, h)).
Proof.
  intros tb w h Ht. unfold uv_acts. apply Forall_map. apply Forall_forall. cbn [fst snd]. intros q Hq. apply in_places in Hq.
  destruct (uv_sp_ok w h q Hq) as [E1 [E2 _]]. destruct q as [x y]. split; [|split; [exact Ht|]].
  - constructor; [|constructor]. split; [apply Hq|]. split; [|exact Logic.I]. constructor; [|constructor]. rewrite E1. intros [X|[]]. discriminate.
  - constructor; [|constructor]. constructor; [exact E2|constructor].
Qed.
Lemma uv_one : forall sh w h q0 tb P q, on_screen w h q0 ->
  paint_act sh w h P (AWrite [(q0, [uv_sp w h q0])] tb false) q = if pos_eqb q0 q then painted sh (9604, uv_sp w h q0) else P q.
Proof.
  intros sh w h [x y] tb P q H. destruct (uv_sp_ok w h (x, y) H) as [E1 _]. unfold on_screen in H. cbn [fst snd] in H.
  cbn [paint_act flat_map spots app]. rewrite app_nil_r.
  assert (C : (0 <=? x) && (x <? w) && (0 <=? y) && (y <? h) = true) by (rewrite !andb_true_iff, !Z.leb_le, !Z.ltb_lt; lia).
  rewrite C. unfold glyphs. cbn [flat_map]. rewrite E1. cbn [map app number].
  assert (L : (y * w + x <? w * h) = true) by (apply Z.ltb_lt; nia). rewrite L.
  rewrite (Z.add_comm (y * w)), Z_mod_plus_full, Z_div_plus by lia. rewrite Z.mod_small, Z.div_small by lia. rewrite Z.add_0_l.
  unfold covering. cbn [filter fst]. destruct (pos_eqb (x, y) q); reflexivity.
Qed.
Lemma uv_covers : forall sh tb w h, covers sh w h (uv_acts tb (w, h)) (fun _ => 9604).
Proof.
  intros sh tb w h P q Hq. cbv zeta. unfold uv_acts. cbn [fst snd].
  set (ok := fun c : Z * rend => fst c = 9604 /\ Forall (eq false) (attributes (snd c))).
  assert (G : forall l P, (forall q, In q l -> on_screen w h q) -> (In q l \/ ok (P q)) ->
    ok (fold_left (paint_act sh w h) (map (fun q => AWrite [(q, [uv_sp w h q])] tb false) l) P q)).
  { intro l. induction l as [|q0 l IH]; intros P0 Hl HP; [destruct HP as [[]|HP]; exact HP|]. cbn [map fold_left].
    apply IH; [intros; apply Hl; now right|]. pose proof (Hl q0 (or_introl eq_refl)) as H0. refine (eq_ind_r (fun c => In q l \/ ok c) _ (uv_one sh w h q0 tb P0 q H0)).
    destruct (pos_eqb q0 q) eqn:E.
    - right. destruct (uv_sp_ok w h q0 H0) as [_ [_ F]]. unfold ok, painted. rewrite F. split; [reflexivity|]. cbn [snd].
      rewrite attributes_colorless. unfold styled, attributes. cbn. repeat constructor.
    - destruct HP as [[->|HP]|HP]; [|now left|now right]. exfalso. unfold pos_eqb in E. rewrite !Z.eqb_refl in E. discriminate. }
  apply G; [intros q0; apply in_places|]. left. now apply in_places.
Qed.

(** * The listener *)
Lemma print_uv_asks : forall sz v s, is_small sz = true -> print_uv sz v s = ask_all (uv_reqs sz) v s.
Proof.
  intros [w h] v s S. unfold print_uv, uv_reqs. cbn [fst snd]. rewrite ask_all_app. fold (uv_places w h).
  assert (G : forall l, (forall q, In q l -> on_screen w h q) -> forall s,
    fold_right (fun q k => uv_cell w h q ;; k) (retM tt) l v s = ask_all (map (fun q => RWrite (PSpans [uv_sp w h q]) q false) l) v s).
  { intro l. induction l as [|q l IH]; intros Hl s0; [reflexivity|]. cbn [fold_right map ask_all]. fold (ask_all (map (fun q => RWrite (PSpans [uv_sp w h q]) q false) l)).
    pose proof (Hl q (or_introl eq_refl)) as Hq. destruct (uv_drawable w h (fst q) (snd q) S) as [sp [E [_ [_ [E2 _]]]]]; [apply Hq|apply Hq|].
    assert (X : uv_cell w h q v s0 = ask (RWrite (PSpans [uv_sp w h q]) q false) v s0).
    { unfold uv_cell, uv_sp. rewrite S, E. unfold bindM at 1. unfold ReadmeModel.liftM. rewrite E2. reflexivity. }
    unfold seqM, bindM at 1 3. rewrite X. destruct (ask _ v s0) as [s1 [u|u]]; [|reflexivity]. apply IH. intros; apply Hl; now right. }
  unfold seqM, bindM. rewrite G by (intros q; apply in_places). destruct (ask_all _ v s) as [s1 [u|u]]; [|reflexivity].
  cbn [ask_all fold_right ask]. unfold seqM, bindM. destruct (draw true v s1) as [s2 [[]|x]]; reflexivity.
Qed.
Lemma turn_uv : forall t k, is_small (te_size (tn_env t)) = true -> take_turn [print_uv] t k = take_turn (asking [uv_reqs]) t k.
Proof.
  intros t [s m] S. unfold take_turn. assert (E : size_with [print_uv] (tn_env t) (heard s) = size_with (asking [uv_reqs]) (tn_env t) (heard s)).
  { unfold size_with. destruct (t_prev (heard s)) as [p|]; [|reflexivity]. destruct (size_eqb (te_size (tn_env t)) p); [reflexivity|].
    unfold seqM, bindM. cbn [asking map tell]. unfold seqM, bindM. now rewrite print_uv_asks. }
  unfold seqM, bindM. now rewrite E.
Qed.
Lemma turns_uv : forall ts k, Forall (fun t => is_small (te_size (tn_env t)) = true) ts -> take_turns [print_uv] ts k = take_turns (asking [uv_reqs]) ts k.
Proof.
  intros ts. induction ts as [|t ts IH]; intros k F; [reflexivity|]. inversion F; subst. cbn [take_turns]. rewrite turn_uv by assumption.
  destruct (take_turn _ t k); [|reflexivity]. cbn [bindr]. now apply IH.
Qed.
Lemma uv_shown : forall v0 bg e tb sh m l, shades e sh -> as_background bg true None = Ok tb -> fine tb ->
  window_of v0 m -> polls (te_size v0) l ->
  Forall (fun v => peaceful v /\ color_env v (new_terminal v0 bg) = Ok e /\ fst (te_size v) <= 65535 /\ snd (te_size v) <= 65535) (v0 :: map fst l) ->
  exists s1 s m',
    print_uv (te_size v0) v0 (new_terminal v0 bg) = (s1, Ok tt) /\
    take_turns [print_uv] (map (fun t => mkTurn (fst t) (snd t) [RDraw]) l) (s1, vt (t_out s1) m) = Ok (s, m') /\
    let '(w, h) := last_size (te_size v0) l in
    (forall x y, 0 <= x < w -> 0 <= y < h -> e_grid m' x y = (9604, rend0, [])) /\ at_rest m'.
Proof.
  intros v0 bg e tb sh m l Hsh Hbg Ht Hm Hl Hv.
  destruct (redrawing_loop v0 bg e tb sh (uv_acts tb) (fun _ _ => 9604) uv_reqs m l Hsh Hbg (uv_stands tb)) as [s [m' [E S]]]; auto.
  - intros w h _ _. split; [now apply uv_acts_ok|apply uv_covers].
  - revert Hv. apply Forall_impl. intros v [A [B _]]. auto.
  - assert (SM : Forall (fun v => is_small (te_size v) = true) (v0 :: map fst l)).
    { revert Hv. apply Forall_impl. intros v [_ [_ [A B]]]. unfold is_small. rewrite andb_true_iff, !Z.leb_le. auto. }
    inversion SM as [|? ? S0 S1]; subst. unfold looping in E. cbn [take_turns] in E.
    assert (T1 : take_turn (asking [uv_reqs]) (mkTurn v0 None (uv_reqs (te_size v0))) (new_terminal v0 bg, m) =
      match ask_all (uv_reqs (te_size v0)) v0 (new_terminal v0 bg) with (s', Ok _) => Ok (s', vt (t_out s') m) | (_, Err x) => Err x end).
    { unfold take_turn. cbn [tn_env tn_reqs tn_window]. unfold seqM, bindM, size_with. 
      replace (t_prev (heard (new_terminal v0 bg))) with (Some (te_size v0)) by reflexivity.
      assert (R : size_eqb (te_size v0) (te_size v0) = true) by now apply size_eqb_iff. rewrite R. cbn [retM].
      replace (set_prev (Some (te_size v0)) (heard (new_terminal v0 bg))) with (new_terminal v0 bg) by reflexivity. reflexivity. }
    rewrite T1 in E. rewrite <- print_uv_asks in E by exact S0. destruct (print_uv (te_size v0) v0 (new_terminal v0 bg)) as [s1 [[]|x]] eqn:EP; [|discriminate].
    cbn [bindr] in E. exists s1, s, m'. split; [reflexivity|]. split.
    + rewrite turns_uv; [exact E|]. apply Forall_map. apply Forall_map in S1. revert S1. apply Forall_impl. intros [v w] A. exact A.
    + destruct (last_size (te_size v0) l) as [w h]. destruct S as [A [B C]]. auto.
Qed.
