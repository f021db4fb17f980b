(** Drawing: the colors of the terminal, full redraws, draws after a resize. *)
From Coq Require Import ZArith Reals List Bool Lia Lra String Permutation Sorting.Sorted.
From Verif Require Import PyBase PyLemmas F64 SpaceModel ColorModel ColorSpec ColorProofs PaletteSpec PaletteProofs AnsiRe SpanModel Vt SpanSpec
  SpanProofs SpanProofs2 ScreenModel ScreenSpec ScreenProofs ScreenProofs2 ScreenProofs3 ScreenProofs4 ScreenProofs5 ScreenProofs6 ScreenProofs7 ScreenProofs8 DrawSpec DrawProofs DrawProofs2 GreySpec SpanProofs3.
Import ListNotations.
Open Scope Z_scope.

(** * Colors *)
Lemma approximates_unique : forall e c c' x x', c_rgb c = c_rgb c' -> approx_as e c x -> approx_as e c' x' -> x = x'.
Proof.
  intros e c c' x x' E A A'. unfold approx_as, approximates, red, green, blue in *. rewrite E in A. destruct (env_cs e).
  - congruence.
  - destruct A as [i [[R [M F]] ->]]. destruct A' as [i' [[R' [M' F']] ->]]. f_equal.
    assert (D : (i < i' \/ i = i' \/ i' < i)%Z) by lia. destruct D as [D|[D|D]]; auto; exfalso.
    + specialize (F' i ltac:(lia)). specialize (M i' ltac:(lia)). lra.
    + specialize (F i' ltac:(lia)). specialize (M' i ltac:(lia)). lra.
  - destruct A as [i [j [k [N1 [N2 [N3 ->]]]]]]. destruct A' as [i' [j' [k' [N1' [N2' [N3' ->]]]]]].
    unfold nearest_sixth in *. f_equal. unfold cube_index. lia.
  - congruence.
Qed.
Definition shade (e : env) (t : triple) : ecolor := r_fg (sgr (params (color_ansi e (mkColor t false fone TRUE_COLOR None))) rend0).
Lemma shade_exists : forall e, (env_cs e = NO_COLOR -> pow_accurate (env_pow e)) ->
  exists sh, shades e sh /\ forall c, by_value c -> approximates e c (sh (c_rgb c)).
Proof.
  intros e Hp. exists (shade e).
  assert (Hg : env_cs e = NO_COLOR -> forall c, color_ok c -> 0 <= grey_index e (c_rgb c) < 256)
    by (intros E c OK; apply grey_in_range; auto).
  assert (G : forall c, by_value c -> approx_as e c (shade e (c_rgb c)) /\ emits e c (shade e (c_rgb c))).
  { intros c [H1 [H2 H3]].
    destruct (free_color_emits e c H1 H3 (fun E => Hg E c H1)) as [x [A Em]].
    destruct (free_color_emits e (mkColor (c_rgb c) false fone TRUE_COLOR None) H1 I (fun E => Hg E c H1)) as [x0 [A0 [N0 [P0 S0]]]].
    assert (E0 : shade e (c_rgb c) = x0).
    { unfold shade. specialize (S0 [] rend0). rewrite app_nil_r in S0. rewrite S0. reflexivity. }
    assert (Ex : x = x0) by (eapply approximates_unique; [|exact A|exact A0]; reflexivity).
    rewrite E0, <- Ex. auto. }
  split; intros c Hc; [|apply approx_as_spec; [apply Hc|exact Hp|]]; now apply G.
Qed.
Lemma shade_true : forall e, env_cs e = TRUE_COLOR -> shades e (fun t => let '(r, g, b) := t in ERgb r g b).
Proof.
  intros e E c Hc. destruct (shade_exists e) as [sh [H1 H2]]; [congruence|].
  specialize (H1 c Hc). specialize (H2 c Hc). unfold approximates, red, green, blue in H2. rewrite E in H2. rewrite H2 in H1.
  destruct (c_rgb c) as [[r g] b]. exact H1.
Qed.

(** * A full redraw *)
Definition uncolored (r : rend) : Prop := r_fg r = EDefault /\ r_bg r = EDefault.
Section Typed.
(** values that may be shown, pens, and how a value is shown by a pen *)
Variables (ok : rend -> Prop) (Pen : rend -> Prop) (V : rend -> rend -> Prop).
Hypothesis Pen0 : Pen rend0.
Hypothesis Pen1 : forall f fg bg pen, Pen pen -> ok (styled f fg bg rend0) ->
  Pen (styled f None None pen) /\ V (styled f fg bg rend0) (styled f None None pen).
Definition calm_term (m : emu) : Prop := e_parse m = PGround /\ e_link m = [] /\ Pen (e_rend m).

Lemma typed_cell : forall sh c v m, shows sh c v -> ok (snd v) -> calm_term m -> e_wrap m = false ->
  let m' := vt (fst (fst c)) m in
  calm_term m' /\ e_w m' = e_w m /\ e_h m' = e_h m /\ e_y m' = e_y m /\
  (e_x m < e_w m - 1 -> e_x m' = e_x m + 1 /\ e_wrap m' = false) /\
  (exists rd, V (snd v) rd /\ forall X Y, e_grid m' X Y = if (X =? e_x m) && (Y =? e_y m) then (fst v, rd, []) else e_grid m X Y).
Proof.
  intros sh [[t fg] bg] [g rd] m [_ [_ [Hg [f [r [Et [Hr [Erd _]]]]]]]] Hok [C1 [C2 C3]] Hw. cbn [fst snd] in *. cbv zeta. subst t.
  rewrite vt_glyph by auto. cbv zeta. set (pen := styled f None None (e_rend m)).
  cbn [snd] in Hok. rewrite Erd in Hok. destruct (Pen1 f _ _ (e_rend m) C3 Hok) as [U U']. rewrite <- Erd in U'. fold pen in U, U'.
  destruct (put_here g (set_rend pen m) Hw) as [A1 [A2 [A3 [A4 A5]]]]. cbn [set_rend e_x e_y e_w e_h e_rend e_link e_grid] in A1, A2, A3, A4, A5.
  rewrite C2 in A1. fold (set_rend pen m) in *.
  set (m1 := put_char g (set_rend pen m)) in *.
  assert (Q1 : e_parse m1 = PGround) by (unfold m1; rewrite put_char_parse; exact C1).
  assert (Q2 : e_link m1 = []) by (unfold m1; rewrite put_char_link; exact C2).
  assert (Q3 : e_rend m1 = pen) by (unfold m1; rewrite put_char_rend; reflexivity).
  destruct Hr as [-> | ->].
  - split; [unfold calm_term; rewrite Q1, Q2, Q3; auto|]. repeat match goal with |- _ /\ _ => split end; auto. exists pen. auto.
  - split; [unfold calm_term; cbn; rewrite Q1, Q2; repeat split; auto|]. cbn [RESET]. repeat match goal with |- _ /\ _ => split end; auto. exists pen. auto.
Qed.

Lemma typed_row : forall sh row X Y m (G : Z -> Z * rend),
  (forall k c, nth_error row k = Some c -> shows sh c (G (X + Z.of_nat k)) /\ ok (snd (G (X + Z.of_nat k)))) -> calm_term m -> 0 <= X -> X + zlen row <= e_w m ->
  (row <> [] -> e_x m = X /\ e_y m = Y /\ e_wrap m = false) ->
  let m' := vt (List.concat (map (fun c => fst (fst c)) row)) m in
  calm_term m' /\ e_w m' = e_w m /\ e_h m' = e_h m /\
  (forall X', X <= X' < X + zlen row -> exists rd, V (snd (G X')) rd /\ e_grid m' X' Y = (fst (G X'), rd, [])) /\
  (forall X' Y', ~ (Y' = Y /\ X <= X' < X + zlen row) -> e_grid m' X' Y' = e_grid m X' Y').
Proof.
  intros sh row. induction row as [|c row IH]; intros X Y m G Hs Hc HX Hw Hp.
  - cbn. rewrite zlen_nil. repeat match goal with |- _ /\ _ => split end; auto; try apply Hc. intros X' H. lia.
  - destruct Hp as [P1 [P2 P3]]; [discriminate|]. rewrite zlen_cons in *. cbn [map List.concat]. rewrite vt_app.
    assert (Hc0 : shows sh c (G X) /\ ok (snd (G X))) by (pose proof (Hs O c eq_refl) as S; rewrite Z.add_0_r in S; exact S).
    destruct Hc0 as [Hc0 Hok0].
    destruct (typed_cell sh c (G X) m Hc0 Hok0 Hc P3) as [A1 [A2 [A3 [A4 [A5 [rd [A6 A7]]]]]]].
    set (m1 := vt (fst (fst c)) m) in *.
    assert (Z0 : 0 <= zlen row) by (unfold zlen; lia).
    destruct (IH (X + 1) Y m1 G) as [B1 [B2 [B3 [B4 B5]]]]; auto; try lia.
    { intros k c' E. replace (X + 1 + Z.of_nat k) with (X + Z.of_nat (S k)) by lia. exact (Hs (S k) c' E). }
    { intro Hne. destruct row as [|c' row]; [congruence|]. rewrite zlen_cons in *. assert (0 <= zlen row) by (unfold zlen; lia).
      destruct A5 as [A5 A5']; [lia|]. rewrite A4, A5. repeat match goal with |- _ /\ _ => split end; auto; lia. }
    cbv zeta. split; [exact B1|]. split; [congruence|]. split; [congruence|]. split.
    + intros X' HX'. destruct (Z.eq_dec X' X) as [->|Hne].
      * exists rd. split; auto. rewrite B5 by lia. rewrite A7, P1, P2, !Z.eqb_refl. reflexivity.
      * apply B4. lia.
    + intros X' Y' Hno. rewrite B5 by lia. rewrite A7, P1, P2. destruct (Z.eqb_spec X' X), (Z.eqb_spec Y' Y); cbn [andb]; auto. lia.
Qed.

Lemma typed_rows : forall sh w ox rows y m (G : Z -> Z -> Z * rend), 0 < ox -> 0 < y ->
  (forall j row, nth_error rows j = Some row -> zlen row = w) ->
  (forall j k row c, nth_error rows j = Some row -> nth_error row k = Some c -> shows sh c (G (ox - 1 + Z.of_nat k) (y - 1 + Z.of_nat j)) /\ ok (snd (G (ox - 1 + Z.of_nat k) (y - 1 + Z.of_nat j)))) ->
  calm_term m -> ox - 1 + w <= e_w m -> y - 1 + zlen rows <= e_h m ->
  let m' := vt (redraw_rows ox y rows) m in
  calm_term m' /\ e_w m' = e_w m /\ e_h m' = e_h m /\
  (forall X Y, ox - 1 <= X < ox - 1 + w -> y - 1 <= Y < y - 1 + zlen rows -> exists rd, V (snd (G X Y)) rd /\ e_grid m' X Y = (fst (G X Y), rd, [])) /\
  (forall X Y, ~ (ox - 1 <= X < ox - 1 + w /\ y - 1 <= Y < y - 1 + zlen rows) -> e_grid m' X Y = e_grid m X Y).
Proof.
  intros sh w ox rows. induction rows as [|row rows IH]; intros y m G Hox Hy Hrow Hs Hc Hw Hh.
  - cbn. rewrite zlen_nil. repeat match goal with |- _ /\ _ => split end; auto; try apply Hc. intros X Y H1 H2. lia.
  - rewrite zlen_cons in *. assert (Z0 : 0 <= zlen rows) by (unfold zlen; lia). cbn [redraw_rows]. rewrite !vt_app.
    change (cup ox y) with (move_to ox y). destruct Hc as [C1 [C2 C3]]. rewrite vt_move by (auto; lia).
    set (m0 := cup_to [y; ox] m).
    assert (Hc0 : calm_term m0) by (split; [exact C1|split; [exact C2|exact C3]]).
    assert (Lw : zlen row = w) by exact (Hrow O row eq_refl). assert (Z1 : 0 <= w) by (rewrite <- Lw; unfold zlen; lia).
    destruct (typed_row sh row (ox - 1) (y - 1) m0 (fun X => G X (y - 1))) as [A1 [A2 [A3 [A4 A5]]]]; auto; try lia.
    { intros k c E. specialize (Hs O k row c eq_refl E). rewrite Z.add_0_r in Hs. exact Hs. }
    { rewrite Lw. exact Hw. }
    { intro Hne. assert (0 < zlen row) by (destruct row; [congruence|rewrite zlen_cons; unfold zlen; lia]).
      unfold m0, cup_to, clampZ. cbn [nth set_pos e_x e_y e_wrap]. repeat match goal with |- _ /\ _ => split end; auto; lia. }
    set (m1 := vt _ m0) in *. rewrite Lw in A4, A5.
    destruct (IH (y + 1) m1 G) as [B1 [B2 [B3 [B4 B5]]]]; auto; try lia.
    { intros j r E. exact (Hrow (S j) r E). }
    { intros j k r c E1 E2. replace (y + 1 - 1 + Z.of_nat j) with (y - 1 + Z.of_nat (S j)) by lia. exact (Hs (S j) k r c E1 E2). }
    { rewrite A2. exact Hw. }
    { rewrite A3. change (e_h m0) with (e_h m). lia. }
    cbv zeta. split; [exact B1|]. split; [rewrite B2, A2; reflexivity|]. split; [rewrite B3, A3; reflexivity|]. split.
    + intros X Y HX HY. destruct (Z.eq_dec Y (y - 1)) as [->|Hne].
      * rewrite B5 by lia. apply A4. lia.
      * apply B4; lia.
    + intros X Y Hno. rewrite B5 by lia. rewrite A5 by lia. reflexivity.
Qed.

Lemma inv_typed : forall e sh w h ox oy g0 W0 H0 st s c m1 P, inv e sh w h (ox, oy) g0 W0 H0 st (s, c, m1) P ->
  1 <= ox -> 1 <= oy -> ox - 1 + w <= W0 -> oy - 1 + h <= H0 -> Pen (e_rend m1) ->
  (forall q, on_screen w h q -> ok (snd (P q))) ->
  let m' := vt (redraw_rows ox oy (sc_cells s)) m1 in
  calm_term m' /\ e_w m' = W0 /\ e_h m' = H0 /\
  (forall q, on_screen w h q -> exists rd, V (snd (P q)) rd /\ seen (ox, oy) m' q = (fst (P q), rd, [])) /\
  (forall X Y, ~ on_screen w h (X - ox + 1, Y - oy + 1) -> e_grid m' X Y = g0 X Y).
Proof.
  intros e sh w h ox oy g0 W0 H0 st s c m1 P I F1 F2 F3 F4 Hpen Hok. cbv zeta.
  destruct I as [I1 I2 I3 I4 I5 I6 I7 I8 I9 I10 I11 I12]. cbn [fst snd] in *. destruct I8 as [E1 E2].
  destruct I3 as [L1 L2]. rewrite I1, I2 in *.
  assert (C1 : calm_term m1) by (destruct I7 as [A [B C]]; split; [exact A|]; split; [exact C|exact Hpen]).
  assert (D : w <= 0 \/ 0 < w) by lia. destruct D as [D|D].
  { (* no columns: nothing but cursor moves *)
    assert (Vm : forall rows y m0, calm_term m0 -> 0 <= y -> Forall (fun row : list cell => zlen row = Z.max 0 w) rows ->
       let m' := vt (redraw_rows ox y rows) m0 in calm_term m' /\ e_w m' = e_w m0 /\ e_h m' = e_h m0 /\ e_grid m' = e_grid m0).
    { intro rows. induction rows as [|row rows IH]; intros y m0 H1 H2 H3; [cbn; auto|]. inversion H3 as [|? ? R1 R2]; subst.
      assert (row = []) as -> by (destruct row; [reflexivity|rewrite zlen_cons in R1; unfold zlen in R1; lia]).
      cbn [redraw_rows map List.concat app]. rewrite vt_app. change (cup ox y) with (move_to ox y). destruct H1 as [A [B C]]. rewrite vt_move by (auto; lia).
      destruct (IH (y + 1) (cup_to [y; ox] m0)) as [J1 [J2 [J3 J4]]]; auto; try lia; try (split; [exact A|split; [exact B|exact C]]).
      }
    destruct (Vm (sc_cells s) oy m1 C1) as [J1 [J2 [J3 J4]]]; auto; try lia.
    split; [exact J1|]. split; [congruence|]. split; [congruence|].
    split; [intros q [Q1 Q2]; lia|]. intros X Y Ho. rewrite J4. apply I12. exact Ho. }
  assert (D2 : h <= 0 \/ 0 < h) by lia. destruct D2 as [D2|D2].
  { assert (En : sc_cells s = []) by (destruct (sc_cells s); [reflexivity|rewrite zlen_cons in L1; unfold zlen in L1; lia]).
    rewrite En. cbn [redraw_rows]. change (vt [] m1) with m1. split; [exact C1|]. split; [exact E1|]. split; [exact E2|].
    split; [intros q [Q1 Q2]; lia|]. intros X Y Ho. apply I12. exact Ho. }
  assert (G : forall q, on_screen w h q -> exists c0, cell_at s q = Some c0 /\ shows sh c0 (P q)) by exact I9.
  assert (Z0 : 0 <= zlen (sc_cells s)) by (unfold zlen; lia).
  assert (Lrow : forall j row, nth_error (sc_cells s) j = Some row -> zlen row = w).
  { intros j row E. apply nth_error_In in E. rewrite Forall_forall in L2. rewrite (L2 row E). lia. }
  destruct (typed_rows sh w ox (sc_cells s) oy m1 (fun X Y => P (X - ox + 1, Y - oy + 1))) as [R1 [R2 [R3 [R4 R5]]]]; try lia; auto.
  { intros j k row c0 Er Ec. assert (Hk : (k < List.length row)%nat) by (apply nth_error_Some; congruence).
    assert (Hj : (j < List.length (sc_cells s))%nat) by (apply nth_error_Some; congruence).
    pose proof (Lrow _ _ Er) as Lr. unfold zlen in Lr, L1.
    assert (Hq : on_screen w h (Z.of_nat k, Z.of_nat j)) by (unfold on_screen; cbn; lia).
    destruct (G _ Hq) as [c1 [Ec1 Hc1]]. unfold cell_at in Ec1. cbn [fst snd] in Ec1.
    rewrite (proj2 (Z.leb_le 0 (Z.of_nat k))), (proj2 (Z.leb_le 0 (Z.of_nat j))) in Ec1 by lia. cbn [andb] in Ec1. unfold mget in Ec1.
    rewrite !Nat2Z.id, Er in Ec1. unfold cell in *. rewrite Ec in Ec1. injection Ec1 as <-.
    replace (ox - 1 + Z.of_nat k - ox + 1) with (Z.of_nat k) by lia. replace (oy - 1 + Z.of_nat j - oy + 1) with (Z.of_nat j) by lia.
    split; [exact Hc1|exact (Hok _ Hq)]. }
  split; [exact R1|]. split; [congruence|]. split; [congruence|]. split.
  - intros q [Q1 Q2]. destruct (R4 (fst q + ox - 1) (snd q + oy - 1)) as [rd [U E]]; try lia.
    replace (fst q + ox - 1 - ox + 1, snd q + oy - 1 - oy + 1) with q in U, E by (destruct q; cbn; f_equal; lia).
    exists rd. split; [exact U|]. unfold seen. cbn [fst snd]. exact E.
  - intros X Y Ho. rewrite R5; [apply I12; exact Ho|]. intro H. apply Ho. unfold on_screen. cbn [fst snd]. lia.
Qed.
End Typed.

(** attributes of [a] are attributes of [b] *)
Lemma at_least_styled : forall f fg bg pen, at_least (styled f fg bg rend0) (styled f None None pen).
Proof.
  intros f fg bg pen. unfold at_least, attributes, styled, rend0. cbn [r_bold r_dim r_italic r_underline r_blink r_rapid r_inverse r_conceal r_strike].
  rewrite !orb_false_r. repeat constructor; intros ->; reflexivity.
Qed.
Lemma unattributed_styled : forall f fg bg pen, Forall (eq false) (attributes (styled f fg bg rend0)) -> styled f None None pen = pen.
Proof.
  intros f fg bg pen H. unfold attributes, styled, rend0 in *. cbn [r_fg r_bg r_bold r_dim r_italic r_underline r_blink r_rapid r_inverse r_conceal r_strike] in *.
  rewrite !orb_false_r in H. repeat match goal with H : Forall _ (_ :: _) |- _ => inversion H; subst; clear H end.
  repeat match goal with H : false = _ |- _ => rewrite <- H; clear H end. destruct pen. reflexivity.
Qed.

Lemma redrawing : forall e sh w h cursor fill origin m acts, shades e sh -> is_ctl fill = false ->
  at_rest m -> fits w h origin m -> Forall (act_ok w h) acts ->
  let '(s, _, m1) := fold_left (perform e origin) acts (new_screen w h cursor [fill], [], m) in
  let p := fold_left (paint_act sh w h) acts (blank fill) in
  let m' := vt (fst (render s origin true)) m1 in
  (forall q, on_screen w h q -> exists rd, seen origin m' q = (fst (p q), rd, []) /\ r_fg rd = EDefault /\ r_bg rd = EDefault /\ at_least (snd (p q)) rd) /\
  (forall X Y, ~ on_screen w h (X - fst origin + 1, Y - snd origin + 1) -> e_grid m' X Y = e_grid m X Y).
Proof.
  intros e sh w h cursor fill origin m acts Hsh Hfill Hm Hf Ha.
  assert (I0 : inv e sh w h origin (e_grid m) (e_w m) (e_h m) never (new_screen w h cursor [fill], [], m) (blank fill)) by (apply inv_start; auto).
  pose proof (inv_run e sh w h origin (e_grid m) (e_w m) (e_h m) Hsh Hf acts _ _ I0 Ha) as I1.
  set (P := fold_left (paint_act sh w h) acts (blank fill)) in *.
  destruct (fold_left (perform e origin) acts _) as [[s c] m1]. cbv zeta.
  destruct origin as [ox oy]. destruct Hf as [F1 [F2 [F3 F4]]]. cbn [fst snd] in *.
  assert (R : e_rend m1 = rend0) by (destruct I1 as [_ _ _ _ _ _ [_ [R _]] _ _ _ _ _]; exact R).
  destruct (inv_typed (fun _ => True) uncolored (fun a b => uncolored b /\ at_least a b) (conj eq_refl eq_refl)) with (2 := I1) as [_ [_ [_ [A B]]]]; auto.
  { intros f fg bg pen [U1 U2] _. split; [split; [exact U1|exact U2]|]. split; [split; [exact U1|exact U2]|apply at_least_styled]. }
  { rewrite R. split; reflexivity. }
  split; [|exact B]. intros q Hq. destruct (A q Hq) as [rd [[[U1 U2] L] E]]. exists rd. auto.
Qed.
(** Nothing has attributes: everything is shown plainly *)
Lemma redrawing_plain : forall e sh w h cursor fill origin m acts, shades e sh -> is_ctl fill = false ->
  at_rest m -> fits w h origin m -> Forall (act_ok w h) acts ->
  let '(s, _, m1) := fold_left (perform e origin) acts (new_screen w h cursor [fill], [], m) in
  let p := fold_left (paint_act sh w h) acts (blank fill) in
  let m' := vt (fst (render s origin true)) m1 in
  (forall q, on_screen w h q -> Forall (eq false) (attributes (snd (p q)))) ->
  (forall q, on_screen w h q -> seen origin m' q = (fst (p q), rend0, [])) /\ at_rest m'.
Proof.
  intros e sh w h cursor fill origin m acts Hsh Hfill Hm Hf Ha.
  assert (I0 : inv e sh w h origin (e_grid m) (e_w m) (e_h m) never (new_screen w h cursor [fill], [], m) (blank fill)) by (apply inv_start; auto).
  pose proof (inv_run e sh w h origin (e_grid m) (e_w m) (e_h m) Hsh Hf acts _ _ I0 Ha) as I1.
  set (P := fold_left (paint_act sh w h) acts (blank fill)) in *.
  destruct (fold_left (perform e origin) acts _) as [[s c] m1]. cbv zeta. intro N.
  destruct origin as [ox oy]. destruct Hf as [F1 [F2 [F3 F4]]]. cbn [fst snd] in *.
  assert (R : e_rend m1 = rend0) by (destruct I1 as [_ _ _ _ _ _ [_ [R _]] _ _ _ _ _]; exact R).
  destruct (inv_typed (fun r => Forall (eq false) (attributes r)) (eq rend0) (fun _ b => rend0 = b) eq_refl) with (2 := I1) as [[C1 [C2 C3]] [_ [_ [A B]]]]; auto.
  { intros f fg bg pen U H. rewrite (unattributed_styled f fg bg pen H). auto. }
  split; [|split; [exact C1|split; [exact (eq_sym C3)|exact C2]]].
  intros q Hq. destruct (A q Hq) as [rd [<- E]]. exact E.
Qed.

(** * A draw after a resize *)
Lemma resized : forall e sh w h cursor fill origin m acts w' h' fill', shades e sh -> is_ctl fill = false -> is_ctl fill' = false ->
  at_rest m -> fits w h origin m -> fits w' h' origin m -> Forall (act_ok w h) acts ->
  let '(s, _, m1) := fold_left (perform e origin) (acts ++ [ADraw]) (new_screen w h cursor [fill], [], m) in
  let m' := vt (fst (render (resize s (w', h') [fill'] true) origin false)) m1 in
  (forall q, on_screen w' h' q -> seen origin m' q = (fill', rend0, [])) /\
  (forall X Y, ~ on_screen w' h' (X - fst origin + 1, Y - snd origin + 1) -> e_grid m' X Y = e_grid m1 X Y).
Proof.
  intros e sh w h cursor fill origin m acts w' h' fill' Hsh Hfill Hfill' Hm Hf Hf' Ha.
  assert (I0 : inv e sh w h origin (e_grid m) (e_w m) (e_h m) never (new_screen w h cursor [fill], [], m) (blank fill)) by (apply inv_start; auto).
  assert (Ha' : Forall (act_ok w h) (acts ++ [ADraw])) by (apply Forall_app; split; [exact Ha|repeat constructor]).
  pose proof (inv_run e sh w h origin (e_grid m) (e_w m) (e_h m) Hsh Hf _ _ _ I0 Ha') as I1.
  assert (B : sc_buf (fst (fst (fold_left (perform e origin) (acts ++ [ADraw]) (new_screen w h cursor [fill], [], m)))) = []).
  { rewrite fold_left_app. cbn [fold_left]. destruct (fold_left (perform e origin) acts _) as [[s0 c0] m0]. cbn [perform].
    unfold render. destruct origin. reflexivity. }
  destruct (fold_left (perform e origin) (acts ++ [ADraw]) _) as [[s c] m1]. cbv zeta. cbn [fst snd] in B.
  destruct I1 as [I1 I2 I3 I4 I5 I6 I7 I8 I9 I10 I11 I12]. cbn [fst snd] in *.
  set (s1 := resize s (w', h') [fill'] true).
  assert (K : keyed s1) by (apply resize_keyed; exact I5).
  assert (Pn : forall q, pending s1 q = if (0 <=? fst q) && (fst q <? w') && (0 <=? snd q) && (snd q <? h') then Some [fill'] else None).
  { intro q. unfold s1. rewrite resize_pending. unfold pending. rewrite B. reflexivity. }
  destruct (render_spec s1 origin K) as [items [Perm [Sorted R]]].
  destruct (render s1 origin false) as [out s'] eqn:Er. destruct R as [_ [Hout _]]. cbn [fst].
  assert (Nd : NoDup (map fst items)).
  { apply (Permutation_NoDup (l := map fst (sc_buf s1))); [apply Permutation_map, Permutation_sym, Perm|exact K]. }
  assert (Hin : forall q t, In (q, t) items -> t = [fill'] /\ on_screen w' h' q).
  { intros q t Hi. assert (Ep : pending s1 q = Some t) by (unfold pending; apply (in_buf_get w h origin (e_grid m) (e_w m) (e_h m) Hf); [exact K|eapply Permutation_in; eauto]).
    rewrite Pn in Ep. destruct (_ && _) eqn:E; [|discriminate]. injection Ep as <-. rewrite !andb_true_iff, !Z.leb_le, !Z.ltb_lt in E.
    split; [reflexivity|]. unfold on_screen. lia. }
  assert (Hin' : forall q, on_screen w' h' q -> In q (map fst items)).
  { intros q [Q1 Q2]. assert (Ep : pending s1 q = Some [fill']).
    { rewrite Pn. now rewrite (proj2 (Z.leb_le 0 (fst q))), (proj2 (Z.leb_le 0 (snd q))), (proj2 (Z.ltb_lt (fst q) w')), (proj2 (Z.ltb_lt (snd q) h')) by lia. }
    apply buf_get_in in Ep. apply in_map_iff. exists (q, [fill']). split; auto. eapply Permutation_in; [apply Permutation_sym|]; eauto. }
  assert (Hi : Forall (shows_item e sh w' h' (blank fill')) items).
  { apply Forall_forall. intros [q t] Hi. destruct (Hin q t Hi) as [-> Hq]. split; [exact Hq|]. exists ([fill'], None, None).
    split; [reflexivity|now apply fill_shows]. }
  assert (Hfm : fits w' h' (fst origin, snd origin) m1).
  { unfold fits in *. cbn [fst snd]. destruct I8 as [-> ->]. exact Hf'. }
  destruct (draw_items e sh w' h' (fst origin) (snd origin) Hsh (blank fill') items None m1 Hi Nd I7 Hfm) as [R1 [R2 [R3 [_ [R4 R5]]]]].
  { intros p Hp. discriminate. }
  assert (Em : emit (fst origin) (snd origin) None items = emitted origin items) by reflexivity.
  rewrite Em in *. set (m2 := vt (emitted origin items) m1) in *.
  assert (V : vt out m1 = m2).
  { destruct Hout as [-> | ->]; [reflexivity|]. rewrite vt_app. fold m2. change [27; 91; 48; 109] with RESET.
    destruct R1 as [Q1 [Q2 Q3]]. rewrite vt_reset by exact Q1. rewrite <- Q2. apply set_rend_id. }
  rewrite V. split.
  - intros q Hq. destruct origin. exact (R4 q (Hin' q Hq)).
  - intros X Y Ho. apply R5. intro Hx. apply Ho. apply in_map_iff in Hx. destruct Hx as [[q t] [E Hi']]. cbn in E. subst q. now apply (Hin _ t).
Qed.
