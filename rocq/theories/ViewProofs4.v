(** Exporting after a scroll (C122): the emptied cells make Span.group fail. *)
From Coq Require Import ZArith Reals List Bool Lia String.
From Verif Require Import PyBase PyLemmas F64 SpaceModel SpaceSpec GreySpec ColorModel ColorSpec ColorProofs PaletteSpec PaletteProofs AnsiRe SpanModel Vt SpanSpec
  SpanProofs SpanProofs2 SpanProofs3 GroupProofs GroupSpec GroupProofs2 ScreenModel ScreenSpec DrawSpec DrawProofs DrawProofs2 ScrollProofs ScreenProofs
  SvgSpec SvgProofs ViewSpec ViewProofs ViewProofs2 ViewProofs3.
Import ListNotations.
Open Scope Z_scope.
Open Scope list_scope.

Definition emptied : cell := ([], None, None).
Lemma group_starts : forall e row, group e (emptied :: row) = Err IndexError.
Proof. reflexivity. Qed.
Lemma loop_emptied : forall e row g attrs prev r, run_ok e attrs prev r -> r = None ->
  group_loop e (emptied :: emptied :: row) g false attrs prev = Err IndexError.
Proof.
  intros e row g attrs prev r R ->. destruct R as [C [c [N E]]]. unfold emptied. cbn [group_loop].
  assert (F : str_eqb [] prev = false). { rewrite E. apply str_eqb_neq. intro X. symmetry in X. apply app_eq_nil in X. destruct X. discriminate. }
  rewrite F. change (first_from []) with (@Ok (option span) None). cbn [bindr]. 
  assert (S : style_attrs_eqb (mutate EMPTY_SPAN [MFg None; MBg None]) attrs = false).
  { destruct C as [k [C|C]]; unfold style_attrs_eqb; cbn [mutate fold_left apply_mopt s_fg s_bg]; rewrite C; [reflexivity|].
    cbn [opt_color_eqb]. now rewrite andb_false_r. }
  rewrite S. reflexivity.
Qed.
Lemma loop_colored : forall e (Q : res (list span) -> Prop) tail, (forall r g (ge : bool), Q r -> Q (let* l := r in Ok (if ge then l else g :: l))) ->
  forall scells row g attrs prev r ge, (forall g attrs prev, run_ok e attrs prev None -> Q (group_loop e tail g false attrs prev)) ->
  Forall2 stored scells row -> Forall (scell_fine e) scells -> Forall (fun d => ~ uncolored d) scells ->
  run_ok e attrs prev r -> s_link attrs = [] -> regular e (s_fg attrs) -> regular e (s_bg attrs) ->
  (r = None /\ ge = false) \/ (r = row_start /\ scells <> []) ->
  Q (group_loop e (row ++ tail) g ge attrs prev).
Proof.
  intros e Q tail HQ scells. induction scells as [|d scells IH]; intros row g attrs prev r ge HT ST OK NC R La Rf Rb Hr.
  { inversion ST; subst. destruct Hr as [[-> ->]|[_ Hr]]; [|congruence]. now apply HT. }
  inversion ST as [|? c ? row' S1 S2]; subst. inversion OK as [|? ? O1 O2]; subst. inversion NC as [|? ? N1 N2]; subst.
  destruct d as [[[[ch f] fg] bg] rst]. destruct c as [[t fg'] bg'].
  destruct (stored_text _ _ _ _ _ _ _ _ S1) as [-> [-> ->]]. destruct O1 as [C27 [Rfg Rbg]]. cbn [app group_loop].
  rewrite (retold_iff e attrs prev r ch f fg bg rst R Rf Rb).
  assert (E : retold r (ch, f, fg, bg, rst) = false) by (destruct Hr as [[-> _]|[-> _]]; reflexivity). rewrite E.
  rewrite any_parsed by assumption. cbn [bindr]. rewrite mutate_colors. cbn [s_text s_link s_flags].
  set (sp := mkSpan [ch] fg bg [] (clean f) true).
  destruct (style_attrs_eqb sp attrs) eqn:SA.
  - apply style_eqb_iff in SA; [|reflexivity|exact La]. destruct SA as [A1 [A2 A3]]. cbn [s_flags s_fg s_bg sp] in A1, A2, A3.
    assert (Rn : r = None).
    { destruct Hr as [[H _]|[H _]]; [exact H|]. subst r. destruct R as [U1 [U2 _]]. rewrite U1 in A2. rewrite U2 in A3.
      destruct fg; [contradiction|]. destruct bg; [contradiction|]. exfalso. apply N1. cbn. auto. }
    subst r. apply (IH row' _ attrs prev None false HT S2 O2 N2 R La Rf Rb). auto.
  - assert (T : span_str e (mutate sp [MReset false]) = csi_or_empty (total_body e sp) ++ [ch]).
    { unfold span_str. cbn [s_link s_text s_reset mutate fold_left apply_mopt sp str_eqb andb]. cbv zeta. rewrite app_nil_r.
      unfold span_sequences. do 2 f_equal. }
    assert (R' : run_ok e sp (span_str e (mutate sp [MReset false])) None).
    { split; [|exists ch; split; [exact C27|exact T]]. cbn [uncolored] in N1. unfold plainly_colored. cbn [sp s_fg s_bg].
      destruct fg as [k|]; [exists k; now left|]. destruct bg as [k|]; [exists k; now right|]. tauto. }
    apply HQ. apply (IH row' sp sp _ None false HT S2 O2 N2 R' eq_refl Rfg Rbg). auto.
Qed.
Lemma rows_err : forall e rows row x, In row rows -> group e row = Err x -> forall y i prev l, svg_rows e rows y i prev <> Ok l.
Proof.
  intros e rows row x Hin Hg. induction rows as [|r rows IH]; intros y i prev l; [destruct Hin|]. cbn [svg_rows]. destruct Hin as [->|Hin].
  - rewrite Hg. discriminate.
  - destruct (group e r) as [gs|]; [|discriminate]. cbn [bindr]. destruct (svg_row gs 0 y i prev) as [[l' i'] p'].
    destruct (svg_rows e rows (y + 1) i' p') as [r'|] eqn:E; [|discriminate]. exfalso. exact (IH Hin _ _ _ _ E).
Qed.
Lemma cell_at_row : forall s q c, cell_at s q = Some c -> exists row, nth_error (sc_cells s) (Z.to_nat (snd q)) = Some row /\ nth_error row (Z.to_nat (fst q)) = Some c.
Proof.
  intros s q c E. unfold cell_at in E. destruct (_ && _); [|discriminate]. unfold mget in E.
  destruct (nth_error (sc_cells s) (Z.to_nat (snd q))) as [row|]; [|discriminate]. eauto.
Qed.

Lemma rows_ok : forall e rows y i prev, (exists l, svg_rows e rows y i prev = Ok l) <-> Forall (fun row => exists gs, group e row = Ok gs) rows.
Proof.
  intros e rows. induction rows as [|r rows IH]; intros y i prev; cbn [svg_rows]; [split; eauto|]. split.
  - intros [l E]. destruct (group e r) as [gs|] eqn:G; [|discriminate]. cbn [bindr] in E. destruct (svg_row gs 0 y i prev) as [[l' i'] p'].
    constructor; [eauto|]. apply (IH (y + 1) i' p'). destruct (svg_rows e rows (y + 1) i' p'); [eauto|discriminate].
  - intro F. inversion F as [|? ? [gs G] F']; subst. rewrite G. cbn [bindr]. destruct (svg_row gs 0 y i prev) as [[l' i'] p'].
    apply (IH (y + 1) i' p') in F'. destruct F' as [l ->]. cbn [bindr]. eauto.
Qed.
(** the cells of a written text *)
Lemma text_cells : forall e sp a, powers e -> drawable sp -> List.length a = List.length (s_text sp) ->
  (forall k ch, nth_error (get_characters e sp true true) k = Some ch -> nth_error a k = Some (plain_cell (ch, sp))) ->
  exists sc, Forall2 stored sc a /\ Forall (scell_fine e) sc /\ Forall (fun d => ~ uncolored d) sc.
Proof.
  intros e sp a Hp D La St.
  destruct (row_scells a (fun k => match nth_error (s_text sp) k with Some c => painted as_asked (c, sp) | None => (0, rend0) end)) as [sc [S1 S2]].
  { intros k c Hk. assert (Lk : (k < List.length (s_text sp))%nat) by (rewrite <- La; apply nth_error_Some; congruence).
    destruct (nth_error (s_text sp) k) as [z|] eqn:Ez; [|apply nth_error_None in Ez; lia].
    pose proof (span_told e sp D) as TS.
    assert (Nz : nth_error (map (fun c => (c, sp)) (s_text sp)) k = Some (z, sp)) by (now apply (map_nth_error (fun c => (c, sp)))).
    assert (FL : forall A B (R : A -> B -> Prop) l l' i b, Forall2 R l l' -> nth_error l' i = Some b -> exists a, nth_error l i = Some a /\ R a b).
    { intros A B R l1 l2 i b0 H. revert i. induction H as [|u v l1 l2 Huv H IH]; intros [|i] E; cbn in E |- *; try discriminate; [injection E as <-; eauto|exact (IH i E)]. }
    destruct (FL _ _ _ _ _ _ _ TS Nz) as [[ch sp'] [N1 N2]]. rewrite nth_error_map in N1.
    destruct (nth_error (get_characters e sp true true) k) as [ch'|] eqn:Eg; [|discriminate]. cbn in N1. injection N1 as -> <-.
    specialize (St k ch Eg). rewrite Hk in St. injection St as ->. apply (told_tells (ch, sp) (z, sp)); exact N2. }
  assert (Ls : List.length sc = List.length a) by (eapply Forall2_len; eauto).
  exists sc. split; [exact S1|]. split.
  - apply Forall_forall. intros d Hd. apply In_nth_error in Hd. destruct Hd as [i Hi]. eapply stands_ok; [exact Hp|]. exact (S2 _ _ Hi).
  - apply Forall_forall. intros d Hd U. apply In_nth_error in Hd. destruct Hd as [i Hi]. pose proof (S2 _ _ Hi) as Sd.
    apply (stands_uncolored _ _ Sd) in U. assert ((i < List.length (s_text sp))%nat) by (rewrite <- La, <- Ls; apply nth_error_Some; congruence).
    destruct (nth_error (s_text sp) i) as [z|] eqn:Ez; [|apply nth_error_None in Ez; lia]. cbn [painted snd] in U.
    unfold styled, rend0 in U. injection U as U _. destruct (s_fg sp) as [k|]; [unfold as_asked in U; destruct (c_rgb k) as [[? ?] ?]|]; discriminate.
Qed.
(** the row of a text at its start, followed by [tail] *)
Lemma text_row : forall e sp a tail (Q : res (list span) -> Prop), powers e -> drawable sp -> s_text sp <> [] ->
  List.length a = List.length (s_text sp) ->
  (forall k ch, nth_error (get_characters e sp true true) k = Some ch -> nth_error a k = Some (plain_cell (ch, sp))) ->
  (forall r g (ge : bool), Q r -> Q (let* l := r in Ok (if ge then l else g :: l))) ->
  (forall g attrs prev, run_ok e attrs prev None -> Q (group_loop e tail g false attrs prev)) -> Q (group e (a ++ tail)).
Proof.
  intros e sp a tail Q Hp D NE La St HQ HT. destruct (text_cells e sp a Hp D La St) as [sc [S1 [S2 S3]]].
  unfold group. apply (loop_colored e Q tail HQ sc a EMPTY_SPAN EMPTY_SPAN [] row_start true HT S1 S2 S3); try discriminate; [cbn; auto|reflexivity|].
  right. split; [reflexivity|]. intros ->. inversion S1; subst. destruct (s_text sp); [congruence|discriminate].
Qed.
Lemma last_row : forall e sp x y s s', scrolled e sp x y s s' -> 0 < sc_h s -> 0 < sc_w s -> exists row,
  nth_error (sc_cells s') (Z.to_nat (sc_h s - 1)) = Some row /\ zlen row = sc_w s /\
  (forall k ch, nth_error (get_characters e sp true true) k = Some ch -> nth_error row (Z.to_nat (x + Z.of_nat k)) = Some (plain_cell (ch, sp))) /\
  (forall X, 0 <= X < sc_w s -> ~ (x <= X < x + zlen (s_text sp)) -> nth_error row (Z.to_nat X) = Some emptied).
Proof.
  intros e sp x y s s' [[Sw [Shh _]] _ [S1 S2] _ _ St Sr _ _] Hh Hw. rewrite Sw, Shh in *.
  destruct (nth_error (sc_cells s') (Z.to_nat (sc_h s - 1))) as [row|] eqn:E; [|apply nth_error_None in E; unfold zlen in S1; lia].
  exists row. split; [reflexivity|]. split; [rewrite Forall_forall in S2; rewrite (S2 row (nth_error_In _ _ E)); lia|]. split.
  - intros k ch Hk. specialize (St k ch Hk). destruct (cell_at_row _ _ _ St) as [r [A B]]. cbn [fst snd] in *. congruence.
  - intros X H1 H2. specialize (Sr X H1 H2). destruct (cell_at_row _ _ _ Sr) as [r [A B]]. cbn [fst snd] in *. rewrite E in A. injection A as <-. exact B.
Qed.
Lemma characters_lt : forall e sp k ch, nth_error (get_characters e sp true true) k = Some ch -> (k < List.length (s_text sp))%nat.
Proof. intros e sp k ch E. pose proof (characters_length e sp true true) as L. unfold zlen in L. assert (k < List.length (get_characters e sp true true))%nat by (apply nth_error_Some; congruence). lia. Qed.
Lemma scrolled_export : forall e sp x y s s', powers e -> drawable sp -> s_text sp <> [] ->
  0 <= x -> x + zlen (s_text sp) <= sc_w s -> 0 < sc_h s -> scrolled e sp x y s s' ->
  0 < x \/ x + zlen (s_text sp) + 1 < sc_w s -> forall l, export_svg e s' <> Ok l.
Proof.
  intros e sp x y s s' Hp D NE Hx Hxw Hh S Hcase l.
  assert (Lt : 0 < zlen (s_text sp)) by (destruct (s_text sp) as [|z u]; [congruence|rewrite zlen_cons; pose proof (zlen_nonneg _ u); lia]).
  destruct (last_row _ _ _ _ _ _ S Hh) as [row [R1 [R2 [R3 R4]]]]; [lia|]. unfold export_svg.
  destruct (Z.ltb_spec 0 x) as [Hx0|Hx0].
  - assert (E : nth_error row O = Some emptied) by (apply (R4 0); lia).
    destruct row as [|c row]; [discriminate|]. injection E as ->. eapply rows_err; [eapply nth_error_In; exact R1|apply group_starts].
  - assert (x = 0) by lia. subst x. destruct Hcase as [Hc|Hc]; [lia|]. remember (List.length (s_text sp)) as n eqn:Hn.
    assert (E1 : nth_error row n = Some emptied) by (rewrite <- (Nat2Z.id n); apply R4; unfold zlen in *; lia).
    assert (E2 : nth_error row (Datatypes.S n) = Some emptied) by (rewrite <- (Nat2Z.id (Datatypes.S n)); apply R4; unfold zlen in *; lia).
    apply nth_error_split in E1. destruct E1 as [a [b [Er La]]].
    rewrite Er, nth_error_app2 in E2 by lia. replace (Datatypes.S n - List.length a)%nat with 1%nat in E2 by lia. cbn in E2.
    destruct b as [|c b]; [discriminate|]. injection E2 as ->.
    eapply rows_err; [eapply nth_error_In; exact R1|]. rewrite Er.
    apply (text_row e sp a (emptied :: emptied :: b) (fun r => r = Err IndexError)); auto; [lia| | |].
    + intros k ch Hk. pose proof (characters_lt _ _ _ _ Hk). specialize (R3 k ch Hk). rewrite Z.add_0_l, Nat2Z.id, Er, nth_error_app1 in R3 by lia. exact R3.
    + intros r g ge ->. reflexivity.
    + intros g attrs prev R. eapply loop_emptied; eauto.
Qed.
(** and the others can, if the screen could before *)
Lemma loop_one : forall e g attrs prev, run_ok e attrs prev None -> exists l, group_loop e [emptied] g false attrs prev = Ok l.
Proof.
  intros e g attrs prev [C [c [N E]]]. unfold emptied. cbn [group_loop].
  assert (F : str_eqb [] prev = false). { rewrite E. apply str_eqb_neq. intro X. symmetry in X. apply app_eq_nil in X. destruct X. discriminate. }
  rewrite F. change (first_from []) with (@Ok (option span) None). cbn [bindr]. destruct (style_attrs_eqb _ _); eauto.
Qed.
Lemma rows_moved : forall e sp x y s s', scrolled e sp x y s s' -> shaped s -> 0 < sc_w s -> forall i row,
  nth_error (sc_cells s') i = Some row -> Z.of_nat i < sc_h s - 1 -> In row (sc_cells s).
Proof.
  intros e sp x y s s' [[Sw [Shh _]] _ [S1 S2] _ Sm _ _ _ _] [T1 T2] Hw i row E Hi. rewrite Sw, Shh in *.
  destruct (nth_error (sc_cells s) (Datatypes.S i)) as [row'|] eqn:E'; [|apply nth_error_None in E'; unfold zlen in T1; lia].
  enough (row = row') as -> by (eapply nth_error_In; eauto).
  rewrite Forall_forall in S2, T2. pose proof (S2 row (nth_error_In _ _ E)) as L1. pose proof (T2 row' (nth_error_In _ _ E')) as L2. unfold zlen in L1, L2.
  apply nth_ext with (d := emptied) (d' := emptied); [lia|]. intros k Hk.
  assert (Q : on_screen (sc_w s) (sc_h s - 1) (Z.of_nat k, Z.of_nat i)) by (split; cbn; lia). apply Sm in Q. cbn [fst snd] in Q.
  unfold cell_at, mget in Q. cbn [fst snd] in Q.
  rewrite !(proj2 (Z.leb_le 0 _)) in Q by lia. cbn [andb] in Q. replace (Z.to_nat (Z.of_nat i + 1)) with (Datatypes.S i) in Q by lia.
  rewrite !Nat2Z.id, E, E' in Q. rewrite !nth_error_nth' with (d := emptied) in Q by lia. now injection Q.
Qed.
Lemma scrolled_exports : forall e sp y s s', powers e -> drawable sp -> s_text sp <> [] -> shaped s ->
  zlen (s_text sp) <= sc_w s <= zlen (s_text sp) + 1 -> 0 < sc_h s -> scrolled e sp 0 y s s' ->
  (exists l, export_svg e s = Ok l) -> exists l, export_svg e s' = Ok l.
Proof.
  intros e sp y s s' Hp D NE Sh Hw Hh S X. unfold export_svg in *. rewrite rows_ok in *. apply Forall_forall. intros row Hin.
  assert (Lt : 0 < zlen (s_text sp)) by (destruct (s_text sp) as [|z u]; [congruence|rewrite zlen_cons; pose proof (zlen_nonneg _ u); lia]).
  apply In_nth_error in Hin. destruct Hin as [i Hi].
  destruct (last_row _ _ _ _ _ _ S Hh) as [lrow [R1 [R2 [R3 R4]]]]; [lia|].
  destruct (Z.ltb_spec (Z.of_nat i) (sc_h s - 1)) as [Hl|Hl].
  { rewrite Forall_forall in X. apply X. eapply rows_moved; eauto. lia. }
  assert (i = Z.to_nat (sc_h s - 1)).
  { destruct S as [[_ [Shh _]] _ [S1 _] _ _ _ _ _ _]. rewrite Shh in S1. assert (i < List.length (sc_cells s'))%nat by (apply nth_error_Some; congruence). unfold zlen in S1. lia. }
  subst i. assert (lrow = row) by congruence. subst lrow.
  assert (Ea : row = firstn (List.length (s_text sp)) row ++ skipn (List.length (s_text sp)) row) by (symmetry; apply firstn_skipn).
  unfold zlen in *. set (n := List.length (s_text sp)) in *.
  assert (La : List.length (firstn n row) = n) by (rewrite firstn_length; lia).
  rewrite Ea. apply (text_row e sp (firstn n row) (skipn n row) (fun r => exists gs, r = Ok gs)); auto.
  - intros k ch Hk. pose proof (characters_lt _ _ _ _ Hk) as Lk. specialize (R3 k ch Hk). rewrite Z.add_0_l, Nat2Z.id in R3.
    rewrite Ea, nth_error_app1 in R3 by (rewrite La; exact Lk). exact R3.
  - intros r g ge [gs ->]. cbn [bindr]. eauto.
  - intros g attrs prev R. assert (Ls : List.length (skipn n row) = (List.length row - n)%nat) by apply skipn_length.
    destruct (skipn n row) as [|c [|c' t]] eqn:Es; [cbn; eauto| |cbn in Ls; lia].
    assert (c = emptied).
    { assert (E : nth_error row n = Some emptied) by (rewrite <- (Nat2Z.id n); apply R4; cbn in Ls; lia).
      rewrite Ea, nth_error_app2 in E by lia. rewrite La, Nat.sub_diag in E. cbn in E. congruence. }
    subst c. now apply loop_one.
Qed.
Lemma export_after_scroll : forall e c s sp x y tb force, powers e -> cache_ok e c -> shaped s -> drawable sp ->
  ~ In NL (s_text sp) -> s_text sp <> [] -> 0 <= x -> x + zlen (s_text sp) <= sc_w s -> 0 < sc_h s -> sc_h s + sc_off s <= y ->
  exists s' c' n, write_bulk e c s [((x, y), [sp])] tb force = (s', c', Ok n) /\
    (0 < x \/ x + zlen (s_text sp) + 1 < sc_w s -> forall l, export_svg e s' <> Ok l) /\
    (x = 0 -> sc_w s <= zlen (s_text sp) + 1 -> (exists l, export_svg e s = Ok l) -> exists l, export_svg e s' = Ok l).
Proof.
  intros e c s sp x y tb force Hp Hc Hs D HN HE H0 H1 H2 H3.
  destruct (scroll_write e c s sp x y tb force) as [s' [c' [E S]]]; auto using drawable_opaque, drawable_fine.
  exists s', c'. eexists. split; [exact E|]. split; [intros; eapply scrolled_export; eauto|].
  intros -> Hw Hl. eapply scrolled_exports; eauto.
Qed.
