(** Proofs about the commands in what is drawn: the ways text does reach the terminal. *)
From Coq Require Import ZArith List Bool Lia String.
From Verif Require Import PyBase PyLemmas F64 SpaceModel SpaceProofs ColorTab ColorModel ColorProofs2 AnsiRe SpanModel SpanSpec SpanProofs CoreModel TermModel
  ScreenModel ScreenSpec ScreenProofs ScreenProofs2 ScreenProofs5 ScreenProofs6 CommandSpec CommandProofs CommandProofs2.
Import ListNotations.
Open Scope Z_scope.

Lemma inside : forall c1 a t b k, snd (scan c1 Ground a) = Ground -> In k (commands c1 t) -> In k (commands c1 (a ++ t ++ b)).
Proof.
  intros c1 a t b k Ha Hk. unfold commands in *. rewrite !scan_app. cbn [fst]. rewrite Ha. apply in_or_app. right.
  cbn [fst]. apply in_or_app. now left.
Qed.

(** * Redraws *)
Lemma row_text : forall t row, (forall k c, nth_error t k = Some c -> exists fg bg, nth_error row k = Some ([c], fg, bg)) ->
  exists rest, List.concat (map (fun c : cell => fst (fst c)) row) = t ++ rest.
Proof.
  induction t as [|c t IH]; intros row H; [eexists; reflexivity|].
  destruct (H 0%nat c eq_refl) as [fg [bg E]]. destruct row as [|r row]; [discriminate|]. injection E as ->.
  destruct (IH row) as [rest R]; [intros k d Hk; exact (H (S k) d Hk)|]. exists rest. cbn [map List.concat fst]. rewrite R. reflexivity.
Qed.
Lemma plain_chars : forall e t, get_characters e (plain_span t) true true = map (fun c => [c]) t.
Proof.
  intros e t. unfold get_characters. change (span_colorless (plain_span t)) with (@nil Z).
  assert (G : forall u, chars_init [] true u = (map (fun c => [c]) u, [])).
  { induction u as [|c u IH]; cbn [chars_init]; auto. rewrite IH. reflexivity. }
  rewrite G. change (s_text (plain_span t)) with t. destruct (rev t) as [|c r] eqn:E.
  - assert (t = []) as -> by (rewrite <- (rev_involutive t), E; reflexivity). reflexivity.
  - cbn [str_eqb negb andb]. assert (K : t = rev r ++ [c]) by (rewrite <- (rev_involutive t), E; reflexivity).
    rewrite K, removelast_last, map_app. reflexivity.
Qed.
Lemma redraw_text : forall e w h cursor t tb force, 0 < h -> 0 < w -> zlen t <= w -> ~ In NL t -> fine tb ->
  exists s c n, write_bulk e [] (new_screen w h cursor (lit " ")) [((0, 0), [plain_span t])] tb force = (s, c, Ok n) /\
    (t <> [] -> exists rest, fst (render s (1, 1) true) = cup 1 1 ++ t ++ rest).
Proof.
  intros e w h cursor t tb force Hh Hw Ht Hn Htb.
  destruct (layout e [] (new_screen w h cursor (lit " ")) 0 0 [plain_span t] tb force) as [s [c [n [E [L _]]]]]; auto.
  - constructor.
  - apply new_screen_shape.
  - split; auto. constructor; auto. cbn. repeat split; auto.
  - constructor; auto. intros k [K|K]; discriminate.
  - constructor; auto. split; intros k K; discriminate.
  - cbn. lia.
  - cbn. lia.
  - exists s, c, n. split; [exact E|]. intros Hk.
    { cbn [sc_w sc_h new_screen resize] in L. cbv zeta in L.
      assert (P : forall j d, nth_error t j = Some d -> exists fg bg, cell_at s (Z.of_nat j, 0) = Some ([d], fg, bg)).
      { intros j d Hj. assert (Lj : (j < List.length t)%nat) by (apply nth_error_Some; congruence). unfold zlen in Ht.
        destruct (L (Z.of_nat j) [d] (plain_span t)) as [new [C S]]; try lia.
        - nia.
        - unfold pieces. cbn [flat_map]. rewrite app_nil_r, plain_chars, Nat2Z.id, !nth_error_map, Hj. reflexivity.
        - replace (0 * w + 0 + Z.of_nat j) with (Z.of_nat j) in C by lia.
          rewrite Z.mod_small, Z.div_small in C by lia. rewrite C.
          destruct new as [[ch fg] bg]. destruct S as [S _]. cbn in S. exists fg, bg. do 3 f_equal. exact S. }
      unfold render. cbn [fst].
      destruct (sc_cells s) as [|row rows] eqn:Cs.
      - destruct t as [|d0 t0]; [now contradiction Hk|]. destruct (P 0%nat d0 eq_refl) as [fg [bg K]]. unfold cell_at in K. rewrite Cs in K. discriminate.
      - destruct (row_text t row) as [rest R].
        { intros j d Hj. destruct (P j d Hj) as [fg [bg K]]. exists fg, bg. unfold cell_at in K. rewrite Cs in K. cbn [fst snd] in K.
          rewrite (proj2 (Z.leb_le 0 (Z.of_nat j))) in K by lia. cbn in K. unfold mget in K. cbn [Z.to_nat nth_error] in K.
          now rewrite Nat2Z.id in K. }
        cbn [redraw_rows]. exists (rest ++ redraw_rows 1 (1 + 1) rows).
        transitivity (cup 1 1 ++ (t ++ rest) ++ redraw_rows 1 (1 + 1) rows).
        + exact (f_equal (fun z : str => cup 1 1 ++ z ++ redraw_rows 1 (1 + 1) rows) R).
        + now rewrite <- !app_assoc. }
Qed.
Theorem redraw_runs : forall e w h cursor t tb force, 0 < h -> 0 < w -> zlen t <= w -> ~ In NL t -> fine tb ->
  exists s c n, write_bulk e [] (new_screen w h cursor (lit " ")) [((0, 0), [plain_span t])] tb force = (s, c, Ok n) /\
    forall c1 k, In k (commands c1 t) -> In k (commands c1 (fst (render s (1, 1) true))).
Proof.
  intros e w h cursor t tb force Hh Hw Ht Hn Htb.
  destruct (redraw_text e w h cursor t tb force Hh Hw Ht Hn Htb) as [s [c [n [E R]]]]. exists s, c, n. split; [exact E|]. intros c1 k Hk.
  destruct R as [rest R]; [intros ->; contradiction Hk|]. rewrite R. apply inside; auto.
  apply (cup_tame c1 (fun _ => True) [] 1 1).
Qed.

(** * Titles *)
Theorem title_runs : forall v s t, (forall n, te_fail v n = false) ->
  exists out, snd (set_title (Some (BEL :: t)) v s) = Ok tt /\ t_out (fst (set_title (Some (BEL :: t)) v s)) = t_out s ++ out /\
    forall c1 k, In k (commands c1 t) -> In k (commands c1 out).
Proof.
  intros v s t Hv. unfold set_title, write_control.
  set (st := match t_title s with Some (_ :: _) => false | _ => true end).
  exists ((if st then STORE_TITLE else []) ++ SET_TITLE (BEL :: t)). repeat split.
  - unfold whenM, seqM, bindM, stream_write. destruct st; cbn; repeat (rewrite Hv; cbn); reflexivity.
  - unfold whenM, seqM, bindM, stream_write. destruct st; cbn; repeat (rewrite Hv; cbn); now rewrite <- ?app_assoc.
  - intros c1 k Hk.
    assert (E : (if st then STORE_TITLE else []) ++ SET_TITLE (BEL :: t) =
      ((if st then STORE_TITLE else []) ++ [ESC] ++ lit "]0;" ++ [BEL]) ++ t ++ [BEL]).
    { unfold SET_TITLE. rewrite <- !app_assoc. cbn. reflexivity. }
    rewrite E. apply inside; auto. destruct st, c1; vm_compute; reflexivity.
Qed.

(** * Descriptions of colors *)
Lemma not_named : forall d, In 59 d -> dict_get NAMED_COLORS d = None.
Proof.
  intros d H. assert (A : forallb (fun kv : str * str => negb (existsb (Z.eqb 59) (fst kv))) NAMED_COLORS = true) by (vm_compute; reflexivity).
  destruct (dict_get NAMED_COLORS d) as [v|] eqn:E; auto. apply dict_get_in in E. rewrite forallb_forall in A. apply A in E.
  cbn [fst] in E. apply negb_true_iff in E. assert (existsb (Z.eqb 59) d = true) by (apply existsb_exists; exists 59; auto). congruence.
Qed.
Theorem description_runs : forall e b f t, env_cs e = EIGHT_BIT \/ env_cs e = TRUE_COLOR -> unmarked b = true -> ~ In 59 b ->
  Forall (fun c => 32 <= c < 64 \/ 160 <= c) b -> 64 <= f <= 126 -> startswith (lit "#") b = false ->
  exists c, color_of (DStr (b ++ [f; ESC; 91] ++ lit ";5")) = Ok c /\
    forall c1, In (Csi b f) (commands c1 (span_str e (mkSpan t (Some c) None [] no_flags true))).
Proof.
  intros e b f t He Hm Hs Hb Hf Hh.
  set (p0 := b ++ [f; ESC; 91]). assert (D : b ++ [f; ESC; 91] ++ lit ";5" = p0 ++ 59 :: lit "5") by (unfold p0; rewrite <- app_assoc; reflexivity).
  assert (N0 : ~ In 59 p0). { unfold p0. intro K. apply in_app_iff in K. destruct K as [K|[K|[K|[K|[]]]]]; auto; try discriminate; lia. }
  assert (Sp : split_on 59 (p0 ++ 59 :: lit "5") = [p0; lit "5"]) by (rewrite split_on_app by auto; reflexivity).
  assert (Sh : startswith (lit "#") (p0 ++ 59 :: lit "5") = false).
  { unfold p0. destruct b as [|b0 b']; [|exact Hh]. change (lit "#") with [35]. destruct f as [|q|q]; try lia. cbn. destruct (Pos.eqb_spec 35 q); [lia|reflexivity]. }
  exists (mkColor (nth 5 COLOR_TABLE (0,0,0)) (startswith (lit "4") p0) fone EIGHT_BIT (Some (p0 ++ 59 :: lit "5"))). split.
  - rewrite D. unfold color_of. rewrite Sh. cbv zeta. rewrite Sp. change (contains_char 46 (last_of [p0; lit "5"])) with false. cbv iota. cbn [bindr].
    rewrite not_named by (apply in_or_app; right; now left). unfold from_ansi. cbv zeta. rewrite Sp.
    change (contains_char 46 (last_of [p0; lit "5"])) with false. cbn [bindr]. cbv beta iota zeta.
    change (3 <? zlen [p0; lit "5"]) with false. cbv iota. change (py_int (last_of [p0; lit "5"])) with (@Ok Z 5). cbn [bindr].
    change (zlen [p0; lit "5"] =? 1) with false. cbv iota. reflexivity.
  - intro c1. unfold span_str, span_sequences, total_body. cbn [s_fg s_bg s_flags s_link s_reset s_text opt_list map app].
    change (colorless_body no_flags) with (@nil Z). cbv iota. cbn [join].
    set (c := mkColor _ _ _ _ _).
    assert (A : color_ansi e c = p0 ++ 59 :: lit "5").
    { unfold color_ansi, c. cbn [c_origin c_ctor]. rewrite Sh. destruct He as [->| ->]; reflexivity. }
    rewrite A. clear A c. cbn [str_eqb]. unfold csi_or_empty.
    destruct (p0 ++ 59 :: lit "5") as [|z zs] eqn:Z; [destruct p0; discriminate|]. rewrite <- Z.
    unfold csi_m. unfold p0. rewrite <- !app_assoc.
    change ([f; ESC; 91] ++ 59 :: lit "5") with ([f] ++ [ESC; 91] ++ 59 :: lit "5").
    unfold commands. rewrite scan_app. cbn [fst].
    replace (snd (scan c1 Ground [ESC; 91])) with (InCsi []) by (destruct c1; reflexivity).
    apply in_or_app. right. rewrite scan_app. cbn [fst].
    assert (G : forall u buf, Forall (fun c => 32 <= c < 64 \/ 160 <= c) u -> snd (scan c1 (InCsi buf) u) = InCsi (buf ++ u)).
    { induction u as [|x u IH]; intros buf Hu; [now rewrite app_nil_r|]. pose proof (Forall_inv Hu) as Hx. cbv beta in Hx. apply Forall_inv_tail in Hu.
      cbn [scan]. assert (St : step c1 (InCsi buf) x = ([], InCsi (buf ++ [x]))).
      { unfold step. rewrite (proj2 (Z.eqb_neq x 27)), (proj2 (Z.eqb_neq x 24)), (proj2 (Z.eqb_neq x 26)) by lia. cbn [orb].
        replace (c1 && (128 <=? x) && (x <=? 159)) with false.
        2:{ destruct c1; auto. cbn. destruct (Z.leb_spec 128 x); auto. cbn. symmetry. apply Z.leb_gt. lia. }
        rewrite (proj2 (Z.ltb_ge x 32)), (proj2 (Z.eqb_neq x 127)) by lia.
        replace ((64 <=? x) && (x <=? 126)) with false; auto. symmetry. apply andb_false_iff. rewrite !Z.leb_gt. lia. }
      rewrite St. destruct (scan c1 (InCsi (buf ++ [x])) u) as [a q] eqn:Q. cbn. change q with (snd (a, q)). rewrite <- Q, IH by auto.
      now rewrite <- app_assoc. }
    rewrite G by auto. cbn [app]. apply in_or_app. right.
    assert (St : step c1 (InCsi b) f = ([Csi b f], Ground)).
    { unfold step. rewrite (proj2 (Z.eqb_neq f 27)), (proj2 (Z.eqb_neq f 24)), (proj2 (Z.eqb_neq f 26)) by lia. cbn [orb].
      replace (c1 && (128 <=? f) && (f <=? 159)) with false.
      2:{ destruct c1; auto. cbn. destruct (Z.leb_spec 128 f); auto. lia. }
      rewrite (proj2 (Z.ltb_ge f 32)), (proj2 (Z.eqb_neq f 127)) by lia.
      rewrite (proj2 (Z.leb_le 64 f)), (proj2 (Z.leb_le f 126)) by lia. reflexivity. }
    assert (L : forall r, In (Csi b f) (fst (scan c1 (InCsi b) (f :: r)))).
    { intro r. cbn [scan]. rewrite St. destruct (scan c1 Ground r). cbn. now left. }
    apply L.
Qed.
