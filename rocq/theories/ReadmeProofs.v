(** Lemmas about the README's animation. *)
From Coq Require Import ZArith List Bool String Lia.
From Verif Require Import PyBase PyLemmas SplitLemmas F64 SpaceModel ColorModel ColorSpec AnsiRe SpanModel Vt SpanSpec ScreenModel ScreenSpec ScreenProofs
  ScreenProofs2 ScreenProofs4 ScreenProofs5 ScreenProofs7 ScrollProofs DrawSpec DrawProofs DrawProofs2 RedrawSpec RedrawProofs ParseProofs ParseProofs3 CoreModel TermModel TermSpec
  SessionSpec SessionProofs PlayModel PlaySpec PlayProofs CommandSpec CommandProofs3 AltSpec AltProofs TermProofs2 ReadmeModel ReadmeSpec.
Import ListNotations.
Open Scope Z_scope.
Open Scope list_scope.

(** * The lines *)
Definition gray : color := mkColor (51, 51, 51) false fone TRUE_COLOR None.
Definition on_gray : color := mkColor (25, 25, 25) true fone TRUE_COLOR None.
Definition gray_line (w : Z) : span := mkSpan (repeat 88 (Z.to_nat w)) (Some gray) (Some on_gray) [] bold_only true.
Lemma lighter : forall bg n r, (let* a := shade_alpha n default_step in blend_channel 0 255 a) = Ok r -> valid_rgb (r, r, r) = true ->
  lighten (mkColor (0, 0, 0) bg fone TRUE_COLOR None) n default_step = Ok (mkColor (r, r, r) bg fone TRUE_COLOR None).
Proof.
  intros bg n r H V. unfold lighten. destruct (shade_alpha n default_step) as [a|x]; [|discriminate]. cbn [bindr] in *.
  unfold blend, WHITE. cbn [c_rgb c_bg]. rewrite !H. cbn [bindr]. unfold plain_color, new_color. rewrite V. reflexivity.
Qed.
Lemma line_eq : forall w, readme_line w = Ok (gray_line w).
Proof.
  intro w. unfold readme_line, color_black, as_background. cbn [bindr]. unfold BLACK at 1.
  rewrite (lighter false 2 51) by (vm_compute; reflexivity). cbn [bindr].
  change (Bool.eqb (c_bg BLACK) true) with false. cbv iota. unfold plain_color at 1, new_color at 1. change (valid_rgb (c_rgb BLACK)) with true. cbv iota. cbn [bindr].
  change (mkColor (c_rgb BLACK) true (c_alpha BLACK) TRUE_COLOR None) with (mkColor (0, 0, 0) true fone TRUE_COLOR None).
  rewrite (lighter true 1 25) by (vm_compute; reflexivity). reflexivity.
Qed.
Lemma line_drawable : forall w, drawable (gray_line w).
Proof.
  intro w. unfold drawable, gray_line. cbn [s_text s_reset s_flags s_fg s_bg]. split; [|split; [discriminate|]].
  - unfold printable. apply Forall_forall. intros c Hc. apply repeat_spec in Hc. subst c. reflexivity.
  - split; intros c Hc; injection Hc as <-; (split; [|reflexivity]); (split; [|split; [reflexivity|exact I]]); unfold color_ok, channel_ok; cbn; lia.
Qed.

(** * One character *)
Definition zero : cell := (lit "0", Some WHITE, None).
Lemma buf_none : forall b, (forall q, buf_get q b = None) -> b = [].
Proof. intros [|[q t] b] H; [reflexivity|]. specialize (H q). cbn [buf_get] in H. rewrite pos_eqb_refl in H. discriminate. Qed.
Lemma buf_one : forall b p t, NoDup (map fst b) -> (forall q, q <> p -> buf_get q b = None) -> buf_get p b = Some t -> b = [(p, t)].
Proof.
  intros [|[q t0] b] p t N H E; [discriminate|]. cbn [map fst] in N. inversion N as [|? ? N1 N2]; subst.
  assert (X : buf_get q ((q, t0) :: b) = Some t0) by (cbn [buf_get]; now rewrite pos_eqb_refl).
  assert (Q : q = p).
  { destruct (pos_eqb q p) eqn:Eq; [now apply pos_eqb_iff|]. rewrite H in X; [discriminate|]. intros ->. rewrite pos_eqb_refl in Eq. discriminate. }
  subst q. rewrite X in E. injection E as ->. f_equal. apply buf_none. intro q.
  destruct (pos_eqb q p) eqn:Eq.
  - apply pos_eqb_iff in Eq. subst q. destruct (buf_get p b) as [t'|] eqn:Eb; [|reflexivity]. exfalso. apply N1.
    apply buf_get_in in Eb. apply in_map_iff. now exists (p, t').
  - assert (q <> p) by (intros ->; rewrite pos_eqb_refl in Eq; discriminate). specialize (H q H0). cbn [buf_get] in H.
    destruct (pos_eqb p q) eqn:E2; [discriminate|exact H].
Qed.
Lemma laid_char : forall e w h p ch, on_screen w h p -> laid_all e w h [(p, [plain_span [ch]])] = [(p, ([ch], plain_span [ch]))].
Proof.
  intros e w h [x y] ch [Hx Hy]. cbn [fst snd] in *. unfold laid_all. cbn [flat_map laid]. rewrite app_nil_r.
  rewrite (proj2 (Z.leb_le 0 x)), (proj2 (Z.ltb_lt x w)), (proj2 (Z.leb_le 0 y)), (proj2 (Z.ltb_lt y h)) by lia. cbn [andb].
  unfold pieces. cbn [flat_map]. rewrite app_nil_r, plain_chars. cbn [map number].
  rewrite (proj2 (Z.ltb_lt (y * w + x) (w * h))) by nia. destruct (cell_number w x y ltac:(lia)) as [-> ->]. reflexivity.
Qed.
Lemma zero_fine : forall p, fine_data [(p, [plain_span (lit "0")])].
Proof. intro p. unfold fine_data. apply Forall_cons; [|apply Forall_nil]. apply Forall_cons; [|apply Forall_nil]. intros c [H|H]; discriminate. Qed.
Lemma put_zero : forall e c s p tb, cache_ok e c -> shaped s -> sc_off s = 0 -> sc_buf s = [] -> fine tb -> on_screen (sc_w s) (sc_h s) p ->
  exists s' c' n, write_bulk e c s [(p, [plain_span (lit "0")])] tb false = (s', c', Ok n) /\ n <= 1 /\ cache_ok e c' /\
    shaped s' /\ sc_w s' = sc_w s /\ sc_h s' = sc_h s /\ sc_off s' = 0 /\
    (forall q, on_screen (sc_w s) (sc_h s) q -> q <> p -> cell_at s' q = cell_at s q) /\
    forall old, cell_at s p = Some old -> 
      (same_cell zero old -> cell_at s' p = Some old /\ sc_buf s' = []) /\
      (~ same_cell zero old -> cell_at s' p = Some zero /\ sc_buf s' = [(p, drawn e zero)]).
Proof.
  intros e c s p tb Hc Hs Ho Hb Ht Hp.
  assert (Hcalm : calm_write s [(p, [plain_span (lit "0")])]).
  { split; [exact Ho|]. constructor; [|constructor]. destruct p as [x y]. unfold calm_entry. split; [apply Hp|]. split; [|exact I].
    constructor; [|constructor]. cbn. intros [H|[]]. discriminate. }
  destruct (write_bulk_effect e c s _ tb false Hc Hs Hcalm Ht (zero_fine p)) as [s' [c' [n [E [Hc' W]]]]].
  exists s', c', n. destruct W as [W1 [W2 [W3 [_ W4]]] W5 W6 W7 W8 W9]. change (lit "0") with [48] in *.
  rewrite (laid_char e _ _ p 48 Hp) in W5, W7.
  assert (O1 : okf (ScreenProofs2.outcome tb [(p, ([48], plain_span [48]))] p) = Some (zero, false)).
  { unfold ScreenProofs2.outcome, covering. cbn [filter map fst snd]. rewrite pos_eqb_refl. cbn [map snd fold_left]. reflexivity. }
  assert (O2 : forall q, q <> p -> okf (ScreenProofs2.outcome tb [(p, ([48], plain_span [48]))] q) = None).
  { intros q Hq. unfold ScreenProofs2.outcome, covering. cbn [filter fst]. destruct (pos_eqb p q) eqn:Ep; [|reflexivity]. apply pos_eqb_iff in Ep. congruence. }
  assert (K : keyed s') by (apply W8; unfold keyed; rewrite Hb; constructor).
  assert (P0 : forall q, pending s q = None) by (intro q; unfold pending; now rewrite Hb).
  assert (PO : forall q, q <> p -> pending s' q = None).
  { intros q Hq. assert (Dec : on_screen (sc_w s) (sc_h s) q \/ ~ on_screen (sc_w s) (sc_h s) q) by (unfold on_screen; lia).
    destruct Dec as [Hs1|Hs1]; [|rewrite W6 by exact Hs1; apply P0].
    destruct (cell_at_some s q Hs Hs1) as [old Eo]. specialize (W5 q old Hs1 Eo). rewrite O2 in W5 by exact Hq. destruct W5 as [_ ->]. apply P0. }
  split; [exact E|]. split; [|split; [exact Hc'|split; [exact W1|split; [exact W2|split; [exact W3|split; [exact W4|split]]]]]].
  - destruct W7 as [l [N [L <-]]]. assert (A : forall q, In q l -> q = p).
    { intros q Hq. apply L in Hq. destruct Hq as [_ [old [new [nl [_ [Eq _]]]]]]. destruct (pos_eqb q p) eqn:Ep; [now apply pos_eqb_iff|].
      rewrite O2 in Eq; [discriminate|]. intros ->. rewrite pos_eqb_refl in Ep. discriminate. }
    destruct l as [|a [|b l]]; [unfold zlen; cbn [List.length]; lia|unfold zlen; cbn [List.length]; lia|]. exfalso. inversion N as [|? ? N1 _]; subst. apply N1. left.
    rewrite (A a), (A b); cbn; auto.
  - intros q Hq Hn. destruct (cell_at_some s q Hs Hq) as [old Eo]. specialize (W5 q old Hq Eo). rewrite O2 in W5 by exact Hn. destruct W5 as [-> _]. auto.
  - intros old Eo. specialize (W5 p old Hp Eo). rewrite O1 in W5. destruct W5 as [A B]. split; intro S.
    + destruct (A S) as [A1 A2]. split; [exact A1|]. apply buf_none. intro q. destruct (pos_eqb q p) eqn:Ep.
      * apply pos_eqb_iff in Ep. subst q. change (pending s' p = None). rewrite A2. apply P0.
      * apply PO. intros ->. rewrite pos_eqb_refl in Ep. discriminate.
    + destruct (B S) as [B1 B2]. split; [exact B1|]. rewrite drawn_entry in B2. apply buf_one; [exact K|exact PO|exact B2].
Qed.

(** * One turn *)
Lemma endswith_app : forall p t, endswith p (t ++ p) = true.
Proof. intros p t. apply endswith_iff. now exists t. Qed.
Lemma turn_sent : forall e s p, sc_buf s = [(p, drawn e zero)] -> fst (render s (1, 1) false) = turn_text e p.
Proof.
  intros e s [x y] E. unfold render. rewrite E. change (gather [((x, y), drawn e zero)]) with [((x, y), drawn e zero)]. cbn [render_items].
  rewrite app_nil_r. unfold turn_text, drawn, zero. cbn [fst snd].
  change ([27; 91] ++ dec (y + 1) ++ lit ";" ++ dec (x + 1) ++ lit "H") with (cup (x + 1) (y + 1)). change RESET with [27; 91; 48; 109].
  destruct (color_ansi e WHITE) as [|a l] eqn:Ea.
  - cbn [str_eqb app]. destruct (endswith _ _) eqn:Ee.
    + exfalso. apply endswith_iff in Ee. destruct Ee as [t Et]. apply (f_equal (fun z => last z 0)) in Et. cbv beta in Et. change (lit "0") with [48] in Et.
      change [27; 91; 48; 109] with ([27; 91; 48] ++ [109]) in Et. rewrite app_assoc, !last_last in Et. discriminate.
    + now rewrite <- app_assoc.
  - change (str_eqb (a :: l) []) with false. cbv iota.
    assert (X : cup (x + 1) (y + 1) ++ [27; 91] ++ (a :: l) ++ [109] ++ lit "0" ++ [27; 91; 48; 109] =
      (cup (x + 1) (y + 1) ++ ([27; 91] ++ (a :: l) ++ [109]) ++ lit "0") ++ [27; 91; 48; 109]) by (rewrite <- !app_assoc; reflexivity).
    rewrite X, endswith_app. rewrite <- !app_assoc. reflexivity.
Qed.
Lemma idle_sent : forall s, sc_buf s = [] -> fst (render s (1, 1) false) = [27; 91; 48; 109].
Proof. intros s E. unfold render. rewrite E. reflexivity. Qed.
Lemma zero_same : same_cell zero zero.
Proof. apply (plain_refl (lit "0") (plain_span (lit "0"))). intros c [H|H]; discriminate. Qed.

Section Frames.
Variables (v : tenv) (e : env) (tb : color) (w h : Z).
Hypothesis Hv : peaceful v.
Hypothesis Htb : fine tb.
Hypothesis Hsize : te_size v = (w, h).
Hypothesis Hw : 1 <= w.
Hypothesis Hh : 1 <= h.

(** between two turns, [ks] having been chosen *)
Record still (ks : list (Z * Z)) (s : tstate) : Prop := {
  st_work : at_work v e tb (1, 1) s;
  st_prev : t_prev s = Some (w, h);
  st_size : sc_w (t_screen s) = w /\ sc_h (t_screen s) = h /\ sc_off (t_screen s) = 0;
  st_shaped : shaped (t_screen s);
  st_buf : sc_buf (t_screen s) = [];
  st_cache : cache_ok e (t_cache s);
  st_cells : forall q, on_screen w h q -> exists c, cell_at (t_screen s) q = Some c /\
    (marked w h ks q -> c = zero) /\ (~ marked w h ks q -> fst (fst c) <> lit "0")
}.
Lemma size_still : forall fuel s, t_prev s = Some (w, h) -> size fuel v s = (s, Ok (w, h)).
Proof.
  intros fuel s E. destruct s. cbn in E. subst. destruct fuel; cbn; rewrite Hsize; unfold size_eqb; cbn [fst snd]; rewrite !Z.eqb_refl; reflexivity.
Qed.
Definition turn_reqs (k : Z * Z) : list request := [RWrite (PStr (lit "0")) (chosen w h k) false; RDraw].
Lemma chosen_on : forall k, on_screen w h (chosen w h k).
Proof. intro k. unfold on_screen, chosen. cbn [fst snd]. split; apply Z.mod_pos_bound; lia. Qed.
Lemma marked_dec : forall ks q, marked w h ks q \/ ~ marked w h ks q.
Proof.
  intros ks q. unfold marked. induction (map (chosen w h) ks) as [|a l IH]; [right; intros []|]. destruct (pos_eqb a q) eqn:E.
  - apply pos_eqb_iff in E. left. now left.
  - destruct IH as [IH|IH]; [left; now right|]. right. intros [->|H]; [rewrite pos_eqb_refl in E; discriminate|auto].
Qed.
Lemma frame_done : forall fuel ks k s, still ks s -> exists s' t, readme_frame fuel k v s = (s', Ok tt) /\ ask_all (turn_reqs k) v s = (s', Ok tt) /\
  still (ks ++ [k]) s' /\ t_out s' = t_out s ++ t /\
  (marked w h ks (chosen w h k) -> t = [27; 91; 48; 109]) /\ (~ marked w h ks (chosen w h k) -> t = turn_text e (chosen w h k)).
Proof.
  intros fuel ks k s S. destruct S as [[S1 S2 S3] S4 [S5 [S6 S7]] S8 S9 S10 S11]. destruct Hv as [Hc Hfile].
  pose proof (chosen_on k) as Hp. set (p := chosen w h k) in *.
  destruct (put_zero e (t_cache s) (t_screen s) p tb S10 S8 S7 S9 Htb ltac:(rewrite S5, S6; exact Hp)) as [sc [c' [n [E [Hn [C' [P1 [P2 [P3 [P4 [P5 P6]]]]]]]]]]].
  rewrite S5, S6 in *. destruct (S11 p Hp) as [old [Eo [Om On]]]. specialize (P6 old Eo).
  assert (TW : twrite (PStr (lit "0")) (Some p) false v s = (set_screen sc c' s, Ok n)).
  { unfold twrite. rewrite S1, S2. rewrite (plain_string (lit "0")); [|cbn; intros [H|[]]; discriminate|discriminate].
    change (mkSpan (lit "0") None None [] no_flags true) with (plain_span (lit "0")). unfold write. rewrite E. reflexivity. }
  destruct (render sc (1, 1) false) as [t sc'] eqn:Er.
  assert (DR : draw false v (set_screen sc c' s) = (set_out (t_out s ++ t) (Datatypes.S (t_writes s)) (set_screen sc' c' s), Ok tt)).
  { unfold draw. cbn [set_screen t_screen t_origin t_cache]. rewrite S3, Er, Hfile. unfold stream_write. cbn [set_screen t_writes t_out]. rewrite Hc. reflexivity. }
  assert (Esc : sc' = mkScreen (sc_w sc) (sc_h sc) (sc_cells sc) [] (sc_cursor sc) (sc_off sc)).
  { unfold render in Er. injection Er as _ <-. reflexivity. }
  eexists. exists t. split; [|split; [|split; [|split; [|split]]]].
  - unfold readme_frame, bindM, twidth, theight, bindM, liftM, retM. rewrite !size_still by exact S4. cbn [fst snd]. unfold randint.
    rewrite (proj2 (Z.leb_gt w 0)), (proj2 (Z.leb_gt h 0)) by lia.
    match goal with |- context [twrite ?a ?b ?c v s] => change (twrite a b c v s) with (twrite (PStr (lit "0")) (Some p) false v s) end. rewrite TW.
    rewrite (proj2 (Z.leb_le n 1) Hn). exact DR.
  - unfold ask_all, turn_reqs. cbn [fold_right ask]. unfold seqM, bindM, retM. fold p. rewrite TW, DR. reflexivity.
  - split; cbn [set_out set_screen t_screen t_prev t_cache t_bgcol t_origin].
    + split; [exact S1|exact S2|exact S3].
    + exact S4.
    + subst sc'. cbn [sc_w sc_h sc_off]. auto.
    + subst sc'. exact P1.
    + subst sc'. reflexivity.
    + exact C'.
    + intros q Hq. assert (X : cell_at sc' q = cell_at sc q) by (subst sc'; reflexivity). rewrite X.
      assert (MA : marked w h (ks ++ [k]) q <-> marked w h ks q \/ q = p).
      { unfold marked. rewrite map_app, in_app_iff. cbn [map In]. fold p. split; [intros [H|[H|[]]]; auto|intros [H| ->]; auto]. }
      destruct (pos_eqb q p) eqn:Eq.
      * apply pos_eqb_iff in Eq. subst q. destruct (marked_dec ks p) as [M|M].
        -- specialize (Om M). subst old. destruct P6 as [A _]. destruct (A zero_same) as [A1 _]. exists zero. split; [exact A1|]. split; [auto|].
           intros N. exfalso. apply N. apply MA. auto.
        -- destruct P6 as [_ B]. destruct B as [B1 _].
           { intro Sm. apply (On M). destruct old as [[to fo] bo]. destruct Sm as [<- _]. reflexivity. }
           exists zero. split; [exact B1|]. split; [auto|]. intros N. exfalso. apply N. apply MA. auto.
      * assert (Hne : q <> p) by (intros ->; rewrite pos_eqb_refl in Eq; discriminate). rewrite P5 by auto.
        destruct (S11 q Hq) as [c [Ec [Cm Cn]]]. exists c. split; [exact Ec|]. split; intro M.
        -- apply Cm. apply MA in M. tauto.
        -- apply Cn. intro M'. apply M. apply MA. auto.
  - reflexivity.
  - intro M. specialize (Om M). subst old. destruct P6 as [A _]. destruct (A zero_same) as [_ A2]. rewrite <- (idle_sent sc A2), Er. reflexivity.
  - intro M. destruct P6 as [_ B]. destruct B as [_ B2].
    { intro Sm. apply (On M). destruct old as [[to fo] bo]. destruct Sm as [<- _]. reflexivity. }
    rewrite <- (turn_sent e sc p B2), Er. reflexivity.
Qed.
Lemma frames_done : forall fuel ks before s, still before s -> exists s', readme_frames fuel ks v s = (s', Ok tt) /\
  ask_all (flat_map turn_reqs ks) v s = (s', Ok tt) /\ still (before ++ ks) s' /\ exists t, t_out s' = t_out s ++ t.
Proof.
  intros fuel ks. induction ks as [|k ks IH]; intros before s S.
  - exists s. rewrite app_nil_r. split; [reflexivity|]. split; [reflexivity|]. split; [exact S|]. exists []. now rewrite app_nil_r.
  - destruct (frame_done fuel before k s S) as [s1 [t [E1 [E2 [S1 [O _]]]]]]. destruct (IH _ _ S1) as [s2 [F1 [F2 [S2 [t2 O2]]]]].
    exists s2. rewrite <- app_assoc in S2. split; [|split; [|split; [exact S2|]]].
    + cbn [readme_frames fold_right]. unfold seqM, bindM. rewrite E1. exact F1.
    + cbn [flat_map]. rewrite ask_app. unfold seqM, bindM. rewrite E2. exact F2.
    + exists (t ++ t2). now rewrite O2, O, <- app_assoc.
Qed.
End Frames.

(** * The lines written one below the other *)
Section Lines.
Variables (w h : Z).
Hypothesis Hw : 1 <= w.
Fixpoint row_reqs (n : nat) (y : Z) : list request :=
  match n with O => [] | S n => RWrite (PSpans [gray_line w]) (0, y) false :: row_reqs n (y + 1) end.
Fixpoint row_acts (tb : color) (n : nat) (y : Z) : list act :=
  match n with O => [] | S n => AWrite [((0, y), [gray_line w])] tb false :: row_acts tb n (y + 1) end.
Lemma rows_stand : forall tb n y, Forall2 (stands_for tb) (row_reqs n y) (map SAct (row_acts tb n y)).
Proof. intros tb n. induction n as [|n IH]; intro y; constructor; [reflexivity|apply IH]. Qed.
Lemma rows_ok : forall tb n y, fine tb -> y + Z.of_nat n <= h -> Forall (act_ok w h) (row_acts tb n y).
Proof.
  intros tb n. induction n as [|n IH]; intros y Ht Hy; constructor; [|apply IH; [exact Ht|lia]].
  split; [|split; [exact Ht|]].
  - constructor; [|constructor]. split; [lia|]. split; [|exact I]. constructor; [|constructor]. cbn. intro H. apply repeat_spec in H. discriminate.
  - constructor; [|constructor]. constructor; [apply line_drawable|constructor].
Qed.
Lemma line_spots : forall q y, 0 <= y < h -> on_screen w h q ->
  covering q (flat_map (spots w h) [((0, y), [gray_line w])]) = if snd q =? y then [(88, gray_line w)] else [].
Proof.
  intros q y Hy Hq. cbn [flat_map]. rewrite app_nil_r. unfold spots.
  rewrite (proj2 (Z.leb_le 0 0)), (proj2 (Z.ltb_lt 0 w)), (proj2 (Z.leb_le 0 y)), (proj2 (Z.ltb_lt y h)) by lia. cbn [andb].
  assert (L : zlen (glyphs [gray_line w]) = w).
  { unfold glyphs. cbn [flat_map]. rewrite app_nil_r. unfold zlen. rewrite map_length. cbn [gray_line s_text]. rewrite repeat_length. lia. }
  rewrite number_row by lia. rewrite covering_row. unfold row_nth. destruct Hq as [Hx _]. rewrite (proj2 (Z.leb_le 0 (fst q))) by lia.
  rewrite andb_true_r. destruct (snd q =? y); [|reflexivity].
  assert (G : nth_error (glyphs [gray_line w]) (Z.to_nat (fst q - 0)) = Some (88, gray_line w)).
  { unfold glyphs. cbn [flat_map]. rewrite app_nil_r. cbn [gray_line s_text]. apply (map_nth_error (fun c : Z => (c, gray_line w)) (Z.to_nat (fst q - 0)) (repeat 88 (Z.to_nat w)) (d := 88)).
    assert (B : (Z.to_nat (fst q - 0) < Z.to_nat w)%nat) by lia. revert B. generalize (Z.to_nat (fst q - 0)). clear. induction (Z.to_nat w) as [|n IH]; intros k B; [lia|].
    destruct k; [reflexivity|]. cbn. apply IH. lia. }
  rewrite G. reflexivity.
Qed.
Lemma rows_paint : forall sh tb n y P q, 0 <= y -> y + Z.of_nat n <= h -> on_screen w h q ->
  fold_left (paint_act sh w h) (row_acts tb n y) P q = if (y <=? snd q) && (snd q <? y + Z.of_nat n) then (88, gray_bold sh) else P q.
Proof.
  intros sh tb n. induction n as [|n IH]; intros y P q Hy Hn Hq.
  - cbn [row_acts fold_left]. destruct (Z.leb_spec y (snd q)), (Z.ltb_spec (snd q) (y + Z.of_nat 0)); try lia; reflexivity.
  - cbn [row_acts fold_left]. rewrite IH by (auto; lia). cbn [paint_act]. rewrite line_spots by (auto; lia).
    destruct (Z.leb_spec (y + 1) (snd q)), (Z.ltb_spec (snd q) (y + 1 + Z.of_nat n)), (Z.leb_spec y (snd q)), (Z.ltb_spec (snd q) (y + Z.of_nat (S n))), (Z.eqb_spec (snd q) y);
      try lia; reflexivity.
Qed.
End Lines.
Lemma placed_ask : forall w n y v s, placed_writes (repeat (gray_line w) n) y v s = ask_all (row_reqs w n y) v s.
Proof.
  intros w n. induction n as [|n IH]; intros y v s; [reflexivity|]. cbn [repeat placed_writes row_reqs ask_all fold_right ask]. unfold seqM, bindM, retM.
  destruct (twrite _ _ _ v s) as [s1 [a|x]]; [|reflexivity]. apply IH.
Qed.
Lemma lines_read : forall fuel v w h n s, te_size v = (w, h) -> t_prev s = Some (w, h) -> readme_lines fuel n v s = (s, Ok (repeat (gray_line w) n)).
Proof.
  intros fuel v w h n s Hs Hp. induction n as [|n IH]; [reflexivity|]. cbn [readme_lines repeat]. unfold bindM at 1, twidth, bindM at 1.
  rewrite (size_still v w h Hs) by exact Hp. cbn [retM fst]. unfold bindM at 1, liftM. rewrite line_eq. unfold bindM. rewrite IH. reflexivity.
Qed.
Lemma content_read : forall fuel v w h s, te_size v = (w, h) -> t_prev s = Some (w, h) -> readme_content fuel v s = (s, Ok (repeat (gray_line w) (Z.to_nat h))).
Proof.
  intros fuel v w h s Hs Hp. unfold readme_content, bindM at 1, theight, bindM at 1. rewrite (size_still v w h Hs) by exact Hp. cbn [retM snd]. apply (lines_read fuel v w h); assumption.
Qed.

(** * What was sent before does not matter *)
Definition shift (o : str) (n : nat) (s : tstate) : tstate := set_out (o ++ t_out s) (n + t_writes s) s.
Lemma ask_shift : forall o n r v s, calm v -> ask r v (shift o n s) = (shift o n (fst (ask r v s)), snd (ask r v s)).
Proof.
  intros o n r v s C.
  assert (D : forall b, draw b v (shift o n s) = (shift o n (fst (draw b v s)), snd (draw b v s))).
  { intro b. unfold draw. cbn [shift set_out t_screen t_origin t_cache]. destruct (render (t_screen s) (t_origin s) b) as [ansi sc].
    destruct (te_file_ok v); [|reflexivity]. unfold stream_write. rewrite !C. cbn [fst snd]. unfold shift. cbn. rewrite app_assoc, PeanoNat.Nat.add_succ_r. reflexivity. }
  destruct r as [d p f|c| |]; cbn [ask].
  - unfold seqM, bindM, retM. unfold twrite. change (color_env v (shift o n s)) with (color_env v s). cbn [shift set_out t_bgcol t_cache t_screen].
    destruct (color_env v s); [|reflexivity]. destruct (as_background (t_bgcol s) true None); [|reflexivity].
    destruct (match d with PSpans l => Ok l | PStr t => parse_line t end); [|reflexivity].
    destruct (write a (t_cache s) (t_screen s) a1 (Some p) a0 f) as [[sc c] [k|x]]; reflexivity.
  - reflexivity.
  - apply D.
  - apply D.
Qed.
Lemma ask_all_shift : forall o n rs v s, calm v -> ask_all rs v (shift o n s) = (shift o n (fst (ask_all rs v s)), snd (ask_all rs v s)).
Proof.
  intros o n rs. induction rs as [|r rs IH]; intros v s C; [reflexivity|]. cbn [ask_all fold_right]. unfold seqM, bindM. rewrite ask_shift by exact C.
  destruct (ask r v s) as [s1 [a|x]]; cbn [fst snd]; [|reflexivity]. apply IH, C.
Qed.
(** * The deeds *)
Definition deed_of (tb : color) (r : request) : deed :=
  match r with
  | RWrite (PSpans l) p f => DWrite [(p, l)] tb f
  | RWrite (PStr t) p f => DText p t tb f
  | RClear c => DClear [c]
  | _ => DDraw (1, 1)
  end.
Lemma ask_deed : forall v e tb r s s', at_work v e tb (1, 1) s -> r <> RRedraw -> ask r v s = (s', Ok tt) ->
  (at_work v e tb (1, 1) s' /\ t_prev s' = t_prev s) /\
  do_deed e (t_screen s, t_cache s, t_out s) (deed_of tb r) = (t_screen s', t_cache s', t_out s').
Proof.
  intros v e tb r s s' W N E. destruct W as [W1 W2 W3]. assert (W : forall x y z n, at_work v e tb (1, 1) (set_out z n (set_screen x y s))) by (intros; split; [exact W1|exact W2|exact W3]).
  assert (W' : forall x y, at_work v e tb (1, 1) (set_screen x y s)) by (intros; split; [exact W1|exact W2|exact W3]).
  destruct r as [d p f|c| |]; [| | |congruence]; cbn [ask] in E.
  - unfold seqM, bindM, retM, twrite in E. rewrite W1, W2 in E. destruct d as [l|t]; cbn [deed_of do_deed].
    + unfold write in E. destruct (write_bulk e (t_cache s) (t_screen s) [(p, l)] tb f) as [[sc c] [k|x]]; [|discriminate]. injection E as <-. auto.
    + destruct (parse_line t) as [l|]; [|discriminate]. unfold write in E.
      destruct (write_bulk e (t_cache s) (t_screen s) [(p, l)] tb f) as [[sc c] [k|x]]; [|discriminate]. injection E as <-. auto.
  - injection E as <-. cbn. auto.
  - unfold draw in E. rewrite W3 in E. cbn [deed_of do_deed]. destruct (render (t_screen s) (1, 1) false) as [o sc]. destruct (te_file_ok v); [|discriminate].
    unfold stream_write in E. destruct (te_fail v _); [discriminate|]. injection E as <-. split; [split; [apply W|reflexivity]|reflexivity].
Qed.
Lemma ask_deeds : forall v e tb rs s s', at_work v e tb (1, 1) s -> Forall (fun r => r <> RRedraw) rs -> ask_all rs v s = (s', Ok tt) ->
  (at_work v e tb (1, 1) s' /\ t_prev s' = t_prev s) /\
  fold_left (do_deed e) (map (deed_of tb) rs) (t_screen s, t_cache s, t_out s) = (t_screen s', t_cache s', t_out s').
Proof.
  intros v e tb rs. induction rs as [|r rs IH]; intros s s' W N E.
  - injection E as <-. auto.
  - inversion N; subst. cbn [ask_all fold_right] in E. unfold seqM, bindM in E. destruct (ask r v s) as [s1 [[]|x]] eqn:E1; [|discriminate].
    destruct (ask_deed v e tb r s s1 W H1 E1) as [[W1 P] D]. cbn [map fold_left]. rewrite D, <- P. now apply IH.
Qed.

(** * The program *)
Section Program.
Variables (v : tenv) (e : env) (bg tb : color) (sh : triple -> ecolor) (w h : Z).
Hypothesis Hv : peaceful v.
Hypothesis He : color_env v (new_terminal v bg) = Ok e.
Hypothesis Hbg : as_background bg true None = Ok tb.
Hypothesis Htb : fine tb.
Hypothesis Hsh : shades e sh.
Hypothesis Hsize : te_size v = (w, h).
Hypothesis Hw : 1 <= w.
Hypothesis Hh : 1 <= h.

Definition base_reqs : list request := row_reqs w (Z.to_nat h) 0 ++ [RDraw].
Definition base_acts : list act := row_acts w tb (Z.to_nat h) 0 ++ [ADraw].
Definition turn_acts (k : Z * Z) : list act := [AWrite [(chosen w h k, [said (lit "0")])] tb false; ADraw].
Definition reqs_of (ks : list (Z * Z)) : list request := base_reqs ++ flat_map (turn_reqs w h) ks.
Definition acts_of (ks : list (Z * Z)) : list act := base_acts ++ flat_map turn_acts ks.
Lemma acts_stand : forall ks, Forall2 (stands_for tb) (reqs_of ks) (map SAct (acts_of ks)).
Proof.
  intro ks. unfold reqs_of, acts_of, base_reqs, base_acts. rewrite !map_app. apply Forall2_app; [apply Forall2_app|].
  - apply rows_stand.
  - constructor; [reflexivity|constructor].
  - induction ks as [|k ks IH]; [constructor|]. cbn [flat_map turn_reqs turn_acts app map]. constructor; [|constructor; [reflexivity|exact IH]].
    cbn [stands_for]. eexists. split; [|reflexivity]. apply (plain_string (lit "0")); [cbn; intros [H|[]]; discriminate|discriminate].
Qed.
Lemma acts_fit : forall ks, Forall (act_ok w h) (acts_of ks).
Proof.
  intro ks. unfold acts_of, base_acts. apply Forall_app. split; [apply Forall_app; split|].
  - apply rows_ok; [exact Htb|lia].
  - constructor; [exact I|constructor].
  - induction ks as [|k ks IH]; [constructor|]. cbn [flat_map turn_acts app]. constructor; [|constructor; [exact I|exact IH]].
    split; [|split; [exact Htb|]].
    + constructor; [|constructor]. pose proof (chosen_on w h Hw Hh k) as C. destruct (chosen w h k) as [x y]. split; [apply C|]. split; [|exact I].
      constructor; [|constructor]. cbn. intros [H|[]]; discriminate.
    + constructor; [|constructor]. constructor; [|constructor]. apply said_drawable. repeat constructor.
Qed.
Lemma zero_spots : forall q p, on_screen w h p -> covering q (flat_map (spots w h) [(p, [said (lit "0")])]) = if pos_eqb p q then [(48, said (lit "0"))] else [].
Proof.
  intros q [x y] [Hx Hy]. cbn [fst snd] in *. cbn [flat_map]. rewrite app_nil_r. unfold spots.
  rewrite (proj2 (Z.leb_le 0 x)), (proj2 (Z.ltb_lt x w)), (proj2 (Z.leb_le 0 y)), (proj2 (Z.ltb_lt y h)) by lia. cbn [andb].
  change (glyphs [said (lit "0")]) with [(48, said (lit "0"))]. cbn [number]. rewrite (proj2 (Z.ltb_lt (y * w + x) (w * h))) by nia.
  destruct (cell_number w x y ltac:(lia)) as [-> ->]. unfold covering. cbn [filter fst]. destruct (pos_eqb (x, y) q); reflexivity.
Qed.
Lemma acts_paint : forall ks q, on_screen w h q ->
  (marked w h ks q -> fold_left (paint_act sh w h) (acts_of ks) (blank 32) q = (48, white_text sh)) /\
  (~ marked w h ks q -> fold_left (paint_act sh w h) (acts_of ks) (blank 32) q = (88, gray_bold sh)).
Proof.
  intros ks q Hq. unfold acts_of. rewrite fold_left_app. set (P := fold_left _ base_acts _).
  assert (B : P q = (88, gray_bold sh)).
  { unfold P, base_acts. rewrite fold_left_app. cbn [fold_left paint_act]. rewrite (rows_paint w h Hw) by (auto; lia). destruct Hq as [_ Hy].
    rewrite (proj2 (Z.leb_le 0 (snd q))), (proj2 (Z.ltb_lt (snd q) (0 + Z.of_nat (Z.to_nat h)))) by lia. reflexivity. }
  clearbody P. revert P B.
  assert (G : forall ks P, (marked w h ks q -> fold_left (paint_act sh w h) (flat_map turn_acts ks) P q = (48, white_text sh)) /\
     (~ marked w h ks q -> fold_left (paint_act sh w h) (flat_map turn_acts ks) P q = P q)).
  { clear ks. induction ks as [|k ks IH]; intro P; [split; [intros []|reflexivity]|].
    cbn [flat_map turn_acts app fold_left]. destruct (IH (paint_act sh w h (paint_act sh w h P (AWrite [(chosen w h k, [said (lit "0")])] tb false)) ADraw)) as [G1 G2].
    pose proof (zero_spots q (chosen w h k) (chosen_on w h Hw Hh k)) as Z0. unfold marked in *. cbn [map In].
    destruct (marked_dec w h ks q) as [M|M]; unfold marked in M.
    - split; [intros _; apply G1, M|intro N; exfalso; apply N; now right].
    - rewrite G2 by exact M. cbn [paint_act]. rewrite Z0. destruct (pos_eqb (chosen w h k) q) eqn:Eq.
      + apply pos_eqb_iff in Eq. split; [reflexivity|intro N; exfalso; apply N; now left].
      + split; [intros [H|H]; [exfalso; rewrite H, pos_eqb_refl in Eq; discriminate|tauto]|reflexivity]. }
  intros P B. rewrite <- B. apply G.
Qed.

(** everything up to some turn *)
Lemma ran : forall ks m, at_rest m -> fits w h (1, 1) m -> exists s, ask_all (reqs_of ks) v (new_terminal v bg) = (s, Ok tt) /\
  inv e sh w h (1, 1) (e_grid m) (e_w m) (e_h m) never (t_screen s, t_cache s, vt (t_out s) m) (fold_left (paint_act sh w h) (acts_of ks) (blank 32)).
Proof.
  intros ks m Hm Hf. pose proof (new_at_work v e bg tb He Hbg) as W0. pose proof (acts_fit ks) as A. pose proof (acts_stand ks) as F.
  assert (FA : forall l k, fold_left (perform_step e (1, 1)) (map SAct l) k = fold_left (perform e (1, 1)) l k) by (intros; apply fold_acts; reflexivity).
  assert (FB : forall l k, fold_left (paint_step sh w h) (map SAct l) k = fold_left (paint_act sh w h) l k) by (intros; apply fold_acts; reflexivity).
  assert (I0 : inv e sh w h (1, 1) (e_grid m) (e_w m) (e_h m) never (world_of m (new_terminal v bg)) (blank 32)).
  { unfold world_of, new_terminal. cbn [t_screen t_cache t_out]. rewrite Hsize. cbn [fst snd]. change (vt [] m) with m. apply inv_start; auto. }
  destruct (steps_done v e tb sh w h (1, 1) m Hv (reqs_of ks) (map SAct (acts_of ks)) (new_terminal v bg) (blank 32) W0) as [s [E K]]; auto.
  { intros l l' El. apply map_app_inv in El. destruct El as [k1 [k2 [El ->]]]. exists never. rewrite FA, FB. apply inv_run; auto.
    rewrite El in A. apply Forall_app in A. apply A. }
  { apply Forall_map. exact A. }
  exists s. split; [exact E|]. rewrite FA in K. change (t_screen s, t_cache s, vt (t_out s) m) with (world_of m s). rewrite K. apply inv_run; auto.
Qed.
Lemma no_redraw : forall ks, Forall (fun r => r <> RRedraw) (reqs_of ks).
Proof.
  intro ks. unfold reqs_of, base_reqs. apply Forall_app. split; [apply Forall_app; split|].
  - generalize 0. induction (Z.to_nat h) as [|n IH]; intro y; constructor; [discriminate|apply IH].
  - constructor; [discriminate|constructor].
  - induction ks as [|k ks IH]; [constructor|]. cbn [flat_map turn_reqs app]. constructor; [discriminate|]. constructor; [discriminate|exact IH].
Qed.
Lemma base_still : exists s, ask_all base_reqs v (new_terminal v bg) = (s, Ok tt) /\ still v e tb w h [] s.
Proof.
  assert (Hm : at_rest (emu0 w h)) by (repeat split).
  assert (Hf : fits w h (1, 1) (emu0 w h)) by (unfold fits; cbn; lia).
  destruct (ran [] (emu0 w h) Hm Hf) as [s [E I]]. unfold reqs_of, acts_of in *. cbn [flat_map] in *. rewrite app_nil_r in *.
  exists s. split; [exact E|].
  assert (N : Forall (fun r => r <> RRedraw) base_reqs) by (pose proof (no_redraw []) as N; unfold reqs_of in N; cbn [flat_map] in N; now rewrite app_nil_r in N).
  destruct (ask_deeds v e tb base_reqs (new_terminal v bg) s (new_at_work v e bg tb He Hbg) N E) as [[W P] D].
  destruct I as [I1 I2 I3 I4 I5 I6 I7 I8 I9 I10 I11 I12]. cbn [fst snd] in *. split.
  - exact W.
  - rewrite P. cbn. now rewrite Hsize.
  - auto.
  - exact I3.
  - unfold base_reqs in D. rewrite map_app, fold_left_app in D. cbn [map fold_left deed_of do_deed] in D.
    destruct (fold_left _ _ _) as [[sc c] o]. destruct (render sc (1, 1) false) as [t sc'] eqn:Er. injection D as <- _ _.
    unfold render in Er. injection Er as _ <-. reflexivity.
  - exact I6.
  - intros q Hq. destruct (I9 q Hq) as [c [Ec Sc]]. exists c. split; [exact Ec|]. split; [intros []|]. intros _ X.
    pose proof (acts_paint [] q Hq) as [_ PP]. unfold acts_of in PP. cbn [flat_map] in PP. rewrite app_nil_r in PP. rewrite PP in Sc by (intros []).
    destruct c as [[t f] b]. cbn [fst] in X. subst t. destruct Sc as [_ [_ [_ [fl [r [Et _]]]]]]. cbn [fst] in Et.
    destruct (lead fl) as [|a l] eqn:El; [discriminate|]. cbn [app] in Et. change (lit "0") with [48] in Et. injection Et as _ Et. destruct l; discriminate.
Qed.
Definition sent (ks : list (Z * Z)) : str := t_out (fst (ask_all (reqs_of ks) v (new_terminal v bg))).
Lemma run_still : forall ks, exists s, ask_all (reqs_of ks) v (new_terminal v bg) = (s, Ok tt) /\ still v e tb w h ks s /\ t_out s = sent ks.
Proof.
  intro ks. destruct base_still as [s [E S]]. destruct (frames_done v e tb w h Hv Htb Hsize Hw Hh 0 ks [] s S) as [s' [_ [E' [S' _]]]].
  exists s'. assert (X : ask_all (reqs_of ks) v (new_terminal v bg) = (s', Ok tt)).
  { unfold reqs_of. rewrite ask_app. unfold seqM, bindM. rewrite E. exact E'. }
  split; [exact X|]. split; [exact S'|]. unfold sent. now rewrite X.
Qed.
Lemma shown_frame : forall ks m, at_rest m -> fits w h (1, 1) m ->
  let m' := vt (sent ks) m in
  (forall q, on_screen w h q -> marked w h ks q -> e_grid m' (fst q) (snd q) = (48, white_text sh, [])) /\
  (forall q, on_screen w h q -> ~ marked w h ks q -> e_grid m' (fst q) (snd q) = (88, gray_bold sh, [])) /\
  (forall x y, ~ on_screen w h (x, y) -> e_grid m' x y = e_grid m x y) /\ at_rest m'.
Proof.
  intros ks m Hm Hf. destruct (ran ks m Hm Hf) as [s [E I]]. destruct (run_still ks) as [s' [E' [S O]]]. rewrite E in E'. injection E' as <-.
  rewrite O in I. destruct I as [I1 I2 I3 I4 I5 I6 I7 I8 I9 I10 I11 I12]. cbn [fst snd] in *. cbv zeta.
  assert (SE : forall q, on_screen w h q -> e_grid (vt (sent ks) m) (fst q) (snd q) =
     (fst (fold_left (paint_act sh w h) (acts_of ks) (blank 32) q), snd (fold_left (paint_act sh w h) (acts_of ks) (blank 32) q), [])).
  { intros q Hq. assert (P : pending (t_screen s) q = None) by (unfold pending; now rewrite (st_buf _ _ _ _ _ _ _ S)).
    specialize (I11 q Hq P). destruct I11 as [I11|[[] _]]. unfold seen in I11. cbn [fst snd] in I11.
    replace (fst q + 1 - 1) with (fst q) in I11 by lia. replace (snd q + 1 - 1) with (snd q) in I11 by lia. exact I11. }
  split; [|split; [|split; [|exact I7]]].
  - intros q Hq M. rewrite SE by exact Hq. destruct (acts_paint ks q Hq) as [A _]. rewrite A by exact M. reflexivity.
  - intros q Hq M. rewrite SE by exact Hq. destruct (acts_paint ks q Hq) as [_ A]. rewrite A by exact M. reflexivity.
  - intros x y N. apply I12. unfold outside, on_screen in *. cbn [fst snd] in *. lia.
Qed.
Lemma next_turn : forall ks k, (marked w h ks (chosen w h k) -> sent (ks ++ [k]) = sent ks ++ [27; 91; 48; 109]) /\
  (~ marked w h ks (chosen w h k) -> sent (ks ++ [k]) = sent ks ++ turn_text e (chosen w h k)).
Proof.
  intros ks k. destruct (run_still ks) as [s [E [S O]]]. destruct (frame_done v e tb w h Hv Htb Hsize Hw Hh 0 ks k s S) as [s' [t [_ [E2 [_ [O2 [T1 T2]]]]]]].
  assert (X : sent (ks ++ [k]) = sent ks ++ t).
  { unfold sent at 1. unfold reqs_of. rewrite flat_map_app. cbn [flat_map]. rewrite app_nil_r, app_assoc, ask_app. fold (reqs_of ks). unfold seqM, bindM. rewrite E, E2.
    cbn [fst]. now rewrite O2, O. }
  rewrite X. split; intro M; f_equal; auto.
Qed.

(** the whole program *)
Lemma still_shift : forall o n ks s, still v e tb w h ks s -> still v e tb w h ks (shift o n s).
Proof. intros o n ks s [S1 S2 S3 S4 S5 S6 S7]. destruct S1 as [A B C]. split; auto. split; auto. Qed.
Lemma program : forall fuel ks, exists s, readme_placed fuel ks v (new_terminal v bg) = (s, Err KeyboardInterrupt) /\
  t_out s = seq_ "?25l" ++ opening (AltBuffer true) ++ sent ks ++ closing (AltBuffer true).
Proof.
  intros fuel ks. destruct Hv as [Hc Hfile]. set (s0 := new_terminal v bg).
  assert (SW : forall t s, stream_write t v s = (set_out (t_out s ++ t) (S (t_writes s)) s, Ok tt)) by (intros; unfold stream_write; now rewrite Hc).
  set (s1 := shift (seq_ "?25l") 1 s0).
  assert (E1 : show_cursor false v s0 = (s1, Ok tt)) by (unfold show_cursor, write_control; rewrite SW; reflexivity).
  assert (P1 : t_prev s1 = Some (w, h)) by (cbn; now rewrite Hsize).
  set (pre := seq_ "?25l" ++ opening (AltBuffer true)).
  assert (E2 : enter (AltBuffer true) v s1 = (shift pre 3 s0, Ok tt)).
  { cbn [enter]. unfold seqM, bindM. rewrite !SW. reflexivity. }
  destruct base_still as [sb [Eb Sb]]. destruct (frames_done v e tb w h Hv Htb Hsize Hw Hh fuel ks [] sb Sb) as [sf [_ [Ef [Sf _]]]].
  destruct (frames_done v e tb w h Hv Htb Hsize Hw Hh fuel ks [] _ (still_shift pre 3 [] sb Sb)) as [sf' [Ff [Ef' _]]].
  rewrite ask_all_shift, Ef in Ef' by exact Hc. cbn [fst snd] in Ef'. injection Ef' as <-.
  assert (X : sent ks = t_out sf).
  { unfold sent, reqs_of. rewrite ask_app. unfold seqM, bindM. rewrite Eb, Ef. reflexivity. }
  set (content := repeat (gray_line w) (Z.to_nat h)).
  assert (Ebody : (placed_writes content 0 ;; draw false ;; readme_frames fuel ks ;; raiseM KeyboardInterrupt) v (shift pre 3 s0) = (shift pre 3 sf, @Err unit KeyboardInterrupt)).
  { pose proof (ask_all_shift pre 3 base_reqs v s0 Hc) as A. fold s0 in Eb. rewrite Eb in A. cbn [fst snd] in A. unfold base_reqs in A. rewrite ask_app in A.
    unfold seqM at 1, bindM at 1. unfold content. rewrite placed_ask. unfold seqM at 1, bindM at 1 in A.
    destruct (ask_all (row_reqs w (Z.to_nat h) 0) v (shift pre 3 s0)) as [sr [[]|x]]; [|discriminate].
    assert (D : draw false v sr = (shift pre 3 sb, Ok tt)).
    { cbn [ask_all fold_right ask] in A. unfold seqM, bindM, retM in A. destruct (draw false v sr) as [sd [[]|x]]; [exact A|discriminate]. }
    unfold seqM at 1, bindM at 1. rewrite D. unfold seqM, bindM. rewrite Ff. reflexivity. }
  assert (Eall : (enter (AltBuffer true) ;; (placed_writes content 0 ;; draw false ;; readme_frames fuel ks ;; raiseM KeyboardInterrupt)) v s1 =
    (shift pre 3 sf, @Err unit KeyboardInterrupt)).
  { unfold seqM at 1, bindM at 1. rewrite E2. exact Ebody. }
  destruct (leaving unit (AltBuffer true) _ v s1 _ _ Eall) as [s3 [E3 [_ [O3 _]]]]; [intros k _; apply Hc|].
  exists s3. split.
  - unfold readme_placed, readme_program. unfold seqM at 1, bindM at 1. fold s0. rewrite E1. unfold bindM at 1. rewrite (content_read fuel v w h s1 Hsize P1). exact E3.
  - rewrite O3, X. cbn [shift set_out t_out]. unfold pre. now rewrite <- !app_assoc.
Qed.
Lemma deeds_ok : forall ks, plain_code tb -> Forall (deed_ok (fun _ => False)) (map (deed_of tb) (reqs_of ks)).
Proof.
  intros ks Hp. apply Forall_map. unfold reqs_of, base_reqs. apply Forall_app. split; [apply Forall_app; split|].
  - generalize 0. induction (Z.to_nat h) as [|n IH]; intro y; constructor; [|apply IH]. cbn [deed_of deed_ok]. split; [|exact Hp].
    constructor; [|constructor]. constructor; [|constructor]. split.
    + split; intros c Hc; injection Hc as <-; exact I.
    + intros c Hc K. cbn in Hc. apply repeat_spec in Hc. subst c. unfold control_char in K. lia.
  - constructor; [exact I|constructor].
  - induction ks as [|k ks IH]; [constructor|]. cbn [flat_map turn_reqs app]. constructor; [|constructor; [exact I|exact IH]].
    cbn [deed_of deed_ok]. split; [|exact Hp]. intros c Hc K. change (lit "0") with [48] in Hc. destruct Hc as [Hc|[]]. subst c. unfold control_char in K. lia.
Qed.
Lemma sent_stays : forall c1 ks, plain_code tb -> stays c1 (sent ks).
Proof.
  intros c1 ks Hp. destruct (run_still ks) as [s [E [_ O]]].
  destruct (ask_deeds v e tb (reqs_of ks) (new_terminal v bg) s (new_at_work v e bg tb He Hbg) (no_redraw ks) E) as [_ D]. rewrite O in D.
  apply (drawn_stays c1 (fun _ => False) e _ _ _ (lit " ") (map (deed_of tb) (reqs_of ks)) _ _ _) in D; [exact D|apply deeds_ok, Hp|].
  intros c Hc K. change (lit " ") with [32] in Hc. destruct Hc as [Hc|[]]. subst c. unfold control_char in K. lia.
Qed.
Lemma hidden : forall T c1 r b, tidy T -> whole c1 (seq_ "?25l") /\ exists r0, shown T c1 (seq_ "?25l") (r, Normal b) = (r0, Normal b).
Proof.
  intros T c1 r b HT. split; [destruct c1; vm_compute; reflexivity|].
  assert (C : commands c1 (seq_ "?25l") = [Csi (lit "?25") 108]) by (destruct c1; vm_compute; reflexivity).
  unfold shown. rewrite C. cbn [fold_left]. unfold carry. change (switches (Csi (lit "?25") 108)) with (@None bool). cbv iota.
  assert (A : aside (Csi (lit "?25") 108)) by (unfold aside; auto). pose proof (HT _ r b A) as E. destruct (obey T _ _) as [r' b']. cbn [snd] in E. subst b'. eauto.
Qed.
Lemma restored : forall T c1 ks p q r b, tidy T -> plain_code tb -> sent ks = p ++ q ->
  (exists r' b', shown T c1 (seq_ "?25l" ++ opening (AltBuffer true) ++ p) (r, Normal b) = (r', Alternate b b')) /\
  exists r', shown T c1 (seq_ "?25l" ++ opening (AltBuffer true) ++ p ++ closing (AltBuffer true)) (r, Normal b) = (r', Normal b).
Proof.
  intros T c1 ks p q r b HT Hp E. destruct (hidden T c1 r b HT) as [W [r0 E0]]. rewrite !shown_app with (a := seq_ "?25l") by exact W. rewrite E0.
  pose proof (sent_stays c1 ks Hp) as S. split; [eapply instants; eauto|].
  rewrite shown_app by apply opening_whole. destruct (entered T c1 true r0 b) as [r1 [b1 ->]].
  rewrite E in S. destruct (left T c1 true p r1 b b1 HT (stays_prefix _ _ _ S)) as [r2 [E2 _]]. eauto.
Qed.
End Program.

(** * As it is written *)
Lemma as_written : forall fuel ks v e bg tb, peaceful v -> color_env v (new_terminal v bg) = Ok e -> as_background bg true None = Ok tb -> 1 <= snd (te_size v) ->
  exists s, readme fuel ks v (new_terminal v bg) = (s, Err TypeError) /\ t_out s = seq_ "?25l" ++ opening (AltBuffer true) ++ closing (AltBuffer true).
Proof.
  intros fuel ks v e bg tb [Hc Hfile] He Hbg Hh. destruct (te_size v) as [w h] eqn:Hsize. cbn [snd] in Hh. set (s0 := new_terminal v bg).
  assert (SW : forall t s, stream_write t v s = (set_out (t_out s ++ t) (S (t_writes s)) s, Ok tt)) by (intros; unfold stream_write; now rewrite Hc).
  set (s1 := shift (seq_ "?25l") 1 s0).
  assert (E1 : show_cursor false v s0 = (s1, Ok tt)) by (unfold show_cursor, write_control; rewrite SW; reflexivity).
  assert (P1 : t_prev s1 = Some (w, h)) by (cbn; now rewrite Hsize).
  set (pre := seq_ "?25l" ++ opening (AltBuffer true)).
  assert (E2 : enter (AltBuffer true) v s1 = (shift pre 3 s0, Ok tt)).
  { cbn [enter]. unfold seqM, bindM. rewrite !SW. reflexivity. }
  set (content := repeat (gray_line w) (Z.to_nat h)).
  assert (Eall : (enter (AltBuffer true) ;; (readme_writes content ;; draw false ;; readme_frames fuel ks ;; raiseM KeyboardInterrupt)) v s1 =
    (shift pre 3 s0, @Err unit TypeError)).
  { unfold seqM at 1, bindM at 1. rewrite E2. unfold seqM at 1, bindM at 1. unfold readme_writes. unfold content at 2.
    destruct (Z.to_nat h) as [|n] eqn:En; [lia|]. cbn [repeat fold_right]. unfold seqM at 1, bindM at 1. unfold twrite.
    change (color_env v (shift pre 3 s0)) with (color_env v s0). unfold s0 at 1. rewrite He. change (t_bgcol (shift pre 3 s0)) with bg. rewrite Hbg. reflexivity. }
  destruct (leaving unit (AltBuffer true) _ v s1 _ _ Eall) as [s3 [E3 [_ [O3 _]]]]; [intros k _; apply Hc|].
  exists s3. split.
  - unfold readme, readme_program. unfold seqM at 1, bindM at 1. fold s0. rewrite E1. unfold bindM at 1. rewrite (content_read fuel v w h s1 Hsize P1). exact E3.
  - rewrite O3. cbn [shift set_out t_out]. unfold pre. rewrite app_nil_r. now rewrite <- !app_assoc.
Qed.

(** * As it is meant *)
Lemma animation : forall v e bg tb sh w h, peaceful v -> color_env v (new_terminal v bg) = Ok e -> as_background bg true None = Ok tb -> fine tb ->
  shades e sh -> te_size v = (w, h) -> 1 <= w -> 1 <= h ->
  exists sent : list (Z * Z) -> str,
    (forall fuel ks, exists s, readme_placed fuel ks v (new_terminal v bg) = (s, Err KeyboardInterrupt) /\
       t_out s = seq_ "?25l" ++ opening (AltBuffer true) ++ sent ks ++ closing (AltBuffer true)) /\
    (forall ks m, at_rest m -> fits w h (1, 1) m ->
       let m' := vt (sent ks) m in
       (forall q, on_screen w h q -> marked w h ks q -> e_grid m' (fst q) (snd q) = (48, white_text sh, [])) /\
       (forall q, on_screen w h q -> ~ marked w h ks q -> e_grid m' (fst q) (snd q) = (88, gray_bold sh, [])) /\
       (forall x y, ~ on_screen w h (x, y) -> e_grid m' x y = e_grid m x y) /\ at_rest m') /\
    (forall ks k, (marked w h ks (chosen w h k) -> sent (ks ++ [k]) = sent ks ++ [27; 91; 48; 109]) /\
       (~ marked w h ks (chosen w h k) -> sent (ks ++ [k]) = sent ks ++ turn_text e (chosen w h k))) /\
    (plain_code tb -> forall T c1 ks p q r b, tidy T -> sent ks = p ++ q ->
       (exists r' b', shown T c1 (seq_ "?25l" ++ opening (AltBuffer true) ++ p) (r, Normal b) = (r', Alternate b b')) /\
       exists r', shown T c1 (seq_ "?25l" ++ opening (AltBuffer true) ++ p ++ closing (AltBuffer true)) (r, Normal b) = (r', Normal b)).
Proof.
  intros v e bg tb sh w h Hv He Hbg Htb Hsh Hs Hw Hh. exists (sent v bg w h). split; [|split; [|split]].
  - intros fuel ks. apply (program v e bg tb sh w h); assumption.
  - intros ks m Hm Hf. apply (shown_frame v e bg tb sh w h); assumption.
  - intros ks k. apply (next_turn v e bg tb sh w h); assumption.
  - intros Hp T c1 ks p q r b HT E. apply (restored v e bg tb sh w h Hv He Hbg Htb Hsh Hs Hw Hh T c1 ks p q); assumption.
Qed.
