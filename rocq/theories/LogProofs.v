(** Logs longer than the window. *)
From Coq Require Import ZArith Reals List Bool Lia.
From Verif Require Import PyBase PyLemmas F64 SpaceModel ColorModel ColorSpec ColorProofs AnsiRe SpanModel Vt SpanSpec
  SpanProofs SpanProofs2 ScreenModel ScreenSpec ScreenProofs ScreenProofs2 ScreenProofs3 ScreenProofs4 ScreenProofs5 ScreenProofs6 ScreenProofs7 ScreenProofs8 DrawSpec DrawProofs
  DrawProofs2 DrawProofs3 ScrollProofs ScrollProofs2 LogSpec.
Import ListNotations.
Open Scope Z_scope.

Section Log.
Variables (e : env) (sh : triple -> ecolor) (w h : Z) (origin : pos) (g0 : Z -> Z -> ecell) (W0 H0 x : Z) (tb : color) (lines : list span).
Hypothesis Hsh : shades e sh.
Hypothesis Hfit : 1 <= fst origin /\ 1 <= snd origin /\ fst origin - 1 + w <= W0 /\ snd origin - 1 + h <= H0.
Hypothesis Hh : 0 < h.
Hypothesis Hx : 0 <= x.
Hypothesis Htb : fine tb.
Hypothesis Hlines : Forall (a_line w x) lines.

Definition nthl (i : Z) (sp : span) : Prop := 0 <= i /\ nth_error lines (Z.to_nat i) = Some sp.
Definition off (n : Z) : Z := Z.max 0 (n - h).

Record linv (n : Z) (k : world) : Prop := {
  l_w : sc_w (fst (fst k)) = w;
  l_h : sc_h (fst (fst k)) = h;
  l_shaped : shaped (fst (fst k));
  l_keyed : keyed (fst (fst k));
  l_off : sc_off (fst (fst k)) = off n;
  l_cache : tainted e (snd (fst k));
  l_buf : 0 < n -> sc_buf (fst (fst k)) = [];
  l_rest : at_rest (snd k);
  l_size : e_w (snd k) = W0 /\ e_h (snd k) = H0;
  l_held : forall i sp, nthl i sp -> off n <= i < n -> held e (fst (fst k)) x (i - off n) sp;
  l_low : n <= h -> exists P, inv e sh w h origin g0 W0 H0 never k P /\
    forall i sp j g, nthl i sp -> i < n -> nth_error (s_text sp) j = Some g -> P (x + Z.of_nat j, i) = painted sh (g, sp);
  l_bottom : snd origin - 1 + h = H0 -> h < n ->
    (forall i sp, nthl i sp -> i < n -> i <> h - 1 -> 0 <= i - (n - h) - (if h <=? i then 1 else 0) ->
       displayed sh origin (snd k) x (i - (n - h) - (if h <=? i then 1 else 0)) sp) /\
    (forall X, 0 <= X < w -> seen origin (snd k) (X, h - 1) = eblank);
  l_room : snd origin - 1 + h < H0 -> h < n ->
    (forall i sp, nthl i sp -> i < h - 1 -> displayed sh origin (snd k) x i sp) /\
    (forall sp, nthl (n - 1) sp -> displayed sh origin (snd k) x (h - 1) sp)
}.

Lemma nth_line : forall i sp, nthl i sp -> a_line w x sp.
Proof. intros i sp [_ H]. apply nth_error_In in H. rewrite Forall_forall in Hlines. auto. Qed.
Lemma text_pos : forall sp, a_line w x sp -> 0 < zlen (s_text sp).
Proof. intros sp [_ [H _]]. destruct (s_text sp) as [|g t]; [congruence|]. rewrite zlen_cons. pose proof (zlen_nonneg _ t). lia. Qed.
Lemma no_break : forall sp, drawable sp -> ~ In NL (s_text sp).
Proof. intros sp [Hp _] Hi. unfold printable in Hp. rewrite Forall_forall in Hp. specialize (Hp _ Hi). discriminate. Qed.
Lemma text_column : forall sp j g, a_line w x sp -> nth_error (s_text sp) j = Some g -> x <= x + Z.of_nat j < w.
Proof.
  intros sp j g [_ [_ Hw]] E. assert (j < List.length (s_text sp))%nat by (apply nth_error_Some; congruence). unfold zlen in Hw. lia.
Qed.
Lemma row_nth_other : forall A (l : list A) y q, snd q <> y -> row_nth x y l q = None.
Proof. intros A l y q H. unfold row_nth. now rewrite (proj2 (Z.eqb_neq _ _) H). Qed.
Lemma row_nth_here : forall A (l : list A) y j, row_nth x y l (x + Z.of_nat j, y) = nth_error l j.
Proof.
  intros A l y j. unfold row_nth. cbn [fst snd]. rewrite Z.eqb_refl, (proj2 (Z.leb_le x (x + Z.of_nat j))) by lia. cbn [andb]. f_equal. lia.
Qed.
Lemma line_spots : forall sp i, a_line w x sp -> 0 <= i < h ->
  flat_map (spots w h) [((x, i), [sp])] = row_items x i (map (fun g => (g, sp)) (s_text sp)).
Proof.
  intros sp i H Hi. pose proof (text_pos sp H). destruct H as [_ [_ Hw]]. cbn [flat_map spots].
  rewrite (proj2 (Z.leb_le 0 x)), (proj2 (Z.ltb_lt x w)), (proj2 (Z.leb_le 0 i)), (proj2 (Z.ltb_lt i h)) by lia.
  cbn [andb]. rewrite app_nil_r. unfold glyphs. cbn [flat_map]. rewrite app_nil_r. apply number_row; try lia.
  unfold zlen in *. rewrite map_length. lia.
Qed.
Lemma paint_line : forall P sp i q, a_line w x sp -> 0 <= i < h ->
  paint_act sh w h P (AWrite [((x, i), [sp])] tb false) q =
  match row_nth x i (s_text sp) q with Some g => painted sh (g, sp) | None => P q end.
Proof.
  intros P sp i q H Hi. cbn [paint_act]. rewrite line_spots, covering_row by auto.
  assert (Er : row_nth x i (map (fun g => (g, sp)) (s_text sp)) q = option_map (fun g => (g, sp)) (row_nth x i (s_text sp) q)).
  { unfold row_nth. destruct (_ && _); [apply nth_error_map|reflexivity]. }
  rewrite Er. destruct (row_nth x i (s_text sp) q); reflexivity.
Qed.

(** one line of the first rows *)
Lemma low_step : forall n k sp, linv n k -> nthl n sp -> n < h ->
  linv (n + 1) (perform e origin (perform e origin k (AWrite [((x, n), [sp])] tb false)) ADraw).
Proof.
  intros n k sp L Hsp Hn. pose proof (nth_line _ _ Hsp) as Hl. assert (H0n : 0 <= n) by apply Hsp.
  destruct (l_low _ _ L ltac:(lia)) as [P [I HP]].
  assert (Hok : act_ok w h (AWrite [((x, n), [sp])] tb false)).
  { destruct Hl as [Hd _]. cbn [act_ok]. split; [|split; [exact Htb|]].
    - constructor; [|constructor]. cbn. split; [lia|]. split; [constructor; [now apply no_break|constructor]|exact Logic.I].
    - constructor; [|constructor]. cbn. constructor; [exact Hd|constructor]. }
  pose proof (inv_act e sh w h origin g0 W0 H0 Hsh Hfit never never _ k P I Hok ltac:(auto)) as I1.
  set (k1 := perform e origin k (AWrite [((x, n), [sp])] tb false)) in *.
  destruct (inv_draw e sh w h origin g0 W0 H0 Hsh Hfit never k1 _ I1) as [I2 SE]. cbn [paint_act] in I2.
  assert (Eo : off n = 0) by (unfold off; lia). assert (Eo1 : off (n + 1) = 0) by (unfold off; lia).
  (* the cells *)
  assert (HC : forall i sp', nthl i sp' -> 0 <= i < n + 1 -> held e (fst (fst k1)) x i sp').
  { destruct k as [[s c] m]. pose proof (i_cache _ _ _ _ _ _ _ _ _ _ _ I) as K6. pose proof (i_off _ _ _ _ _ _ _ _ _ _ _ I) as K4.
    pose proof (i_w _ _ _ _ _ _ _ _ _ _ _ I) as K1. pose proof (i_h _ _ _ _ _ _ _ _ _ _ _ I) as K2. pose proof (i_shaped _ _ _ _ _ _ _ _ _ _ _ I) as K3.
    cbn [fst snd] in *. pose proof Hl as [Hd [Hne Hw]]. pose proof (text_pos _ Hl) as Hp.
    destruct (layout e c s x n [sp] tb false K6 K3) as [s' [c' [nn [E [La Lb]]]]]; auto.
    - split; [exact K4|]. rewrite K1, K2. apply Hok.
    - constructor; [now apply drawable_fine|constructor].
    - constructor; [now apply drawable_opaque|constructor].
    - lia.
    - lia.
    - unfold k1. cbn [perform]. change (write_bulk e c s [((x, n), [sp])] tb false) with (write e c s [sp] (Some (x, n)) tb false). rewrite E. cbn [fst snd].
      cbv zeta in La, Lb. rewrite K1, K2 in *. pose proof (characters_length e sp true true) as CL.
      assert (Pz : pieces e [sp] = map (fun c0 => (c0, sp)) (get_characters e sp true true)) by (unfold pieces; cbn [flat_map]; apply app_nil_r).
      intros i sp' Hi Hin j ch Ej. destruct (Z.eq_dec i n) as [->|Hne'].
      + assert (sp' = sp) by (destruct Hi as [_ A], Hsp as [_ B]; congruence). subst sp'.
        assert (Hj : (j < List.length (get_characters e sp true true))%nat) by (apply nth_error_Some; congruence). unfold zlen in CL, Hw.
        destruct (La (Z.of_nat j) ch sp) as [new [A1 A2]]; [lia|nia|rewrite Pz, Nat2Z.id; now apply (map_nth_error (fun c0 => (c0, sp)))|].
        exists new. split; [|exact A2]. destruct (cell_number w (x + Z.of_nat j) n ltac:(lia)) as [B1 B2].
        replace (n * w + x + Z.of_nat j) with (n * w + (x + Z.of_nat j)) in A1 by lia. rewrite B1, B2 in A1. exact A1.
      + rewrite Lb.
        * pose proof (l_held _ _ L i sp' Hi ltac:(lia)) as HL. rewrite Eo, Z.sub_0_r in HL. cbn [fst] in HL. now apply HL.
        * intros kk Hk Heq. rewrite Pz in Hk. unfold zlen in Hk, CL, Hw. rewrite map_length in Hk.
          destruct (cell_number w (x + kk) n ltac:(lia)) as [B1 B2]. replace (n * w + x + kk) with (n * w + (x + kk)) in Heq by lia.
          rewrite B1, B2 in Heq. injection Heq as _ Heq. lia. }
  assert (EC : fst (fst (perform e origin k1 ADraw)) = mkScreen (sc_w (fst (fst k1))) (sc_h (fst (fst k1))) (sc_cells (fst (fst k1))) [] (sc_cursor (fst (fst k1))) (sc_off (fst (fst k1)))
     /\ snd (fst (perform e origin k1 ADraw)) = snd (fst k1)).
  { destruct k1 as [[s1 c1] m1]. cbn [perform fst snd]. unfold render. destruct origin. split; reflexivity. }
  destruct EC as [EC1 EC2].
  split.
  - apply (i_w _ _ _ _ _ _ _ _ _ _ _ I2).
  - apply (i_h _ _ _ _ _ _ _ _ _ _ _ I2).
  - apply (i_shaped _ _ _ _ _ _ _ _ _ _ _ I2).
  - apply (i_keyed _ _ _ _ _ _ _ _ _ _ _ I2).
  - rewrite Eo1. apply (i_off _ _ _ _ _ _ _ _ _ _ _ I2).
  - apply ok_tainted. apply (i_cache _ _ _ _ _ _ _ _ _ _ _ I2).
  - intros _. rewrite EC1. reflexivity.
  - apply (i_rest _ _ _ _ _ _ _ _ _ _ _ I2).
  - apply (i_size _ _ _ _ _ _ _ _ _ _ _ I2).
  - rewrite Eo1. intros i sp' Hi Hin. rewrite Z.sub_0_r. intros j ch Ej. rewrite EC1. exact (HC i sp' Hi ltac:(lia) j ch Ej).
  - intros _. exists (paint_act sh w h P (AWrite [((x, n), [sp])] tb false)). split; [exact I2|].
    intros i sp' j g Hi Hin Ej. rewrite paint_line by (auto; lia). destruct (Z.eq_dec i n) as [->|Hne'].
    + rewrite row_nth_here. assert (sp' = sp) by (destruct Hi as [_ A], Hsp as [_ B]; congruence). subst sp'. now rewrite Ej.
    + rewrite row_nth_other by (cbn; lia). apply (HP i sp' j g); auto. lia.
  - lia.
  - lia.
Qed.

Lemma low_displayed : forall n k, linv n k -> 0 < n <= h -> forall i sp, nthl i sp -> i < n -> displayed sh origin (snd k) x i sp.
Proof.
  intros n k L Hn i sp Hi Hin j g Ej. destruct (l_low _ _ L ltac:(lia)) as [P [I HP]].
  pose proof (text_column _ _ _ (nth_line _ _ Hi) Ej). assert (0 <= i) by apply Hi.
  destruct (i_shown _ _ _ _ _ _ _ _ _ _ _ I (x + Z.of_nat j, i)) as [A|[[] _]].
  - unfold on_screen. cbn [fst snd]. lia.
  - unfold pending. now rewrite (l_buf _ _ L ltac:(lia)).
  - rewrite A. now rewrite (HP i sp j g Hi Hin Ej).
Qed.

Lemma over_here : forall sp r old j g, nth_error (s_text sp) j = Some g ->
  over_text sh x r sp old (x + Z.of_nat j, r) = (fst (painted sh (g, sp)), snd (painted sh (g, sp)), []).
Proof. intros sp r old j g E. unfold over_text, text_at. rewrite row_nth_here, E. reflexivity. Qed.
Lemma over_other : forall sp r old q, snd q <> r -> over_text sh x r sp old q = old q.
Proof. intros sp r old q H. unfold over_text, text_at. now rewrite row_nth_other by exact H. Qed.

(** one line below the last row *)
Lemma high_step : forall n k sp, linv n k -> nthl n sp -> h <= n ->
  linv (n + 1) (perform e origin (perform e origin k (AWrite [((x, n), [sp])] tb false)) ADraw).
Proof.
  intros n k sp L Hsp Hn. pose proof (nth_line _ _ Hsp) as Hl. pose proof (text_pos _ Hl) as Hp. pose proof Hl as [Hd [Hne Hw]].
  assert (DL : n = h -> forall i sp', nthl i sp' -> i < h -> displayed sh origin (snd k) x i sp').
  { intros -> . apply (low_displayed h k L). lia. }
  destruct k as [[s c] m]. destruct L as [L1 L2 L3 L4 L5 L6 L7 L8 [L9 L9'] L10 _ L12 L13]. cbn [fst snd] in *.
  assert (Eo : off n = n - h) by (unfold off; lia). assert (Eo1 : off (n + 1) = n + 1 - h) by (unfold off; lia). rewrite Eo in *.
  assert (Hf : fits w h origin m) by (unfold fits; rewrite L9, L9'; exact Hfit).
  destruct (scroll_step e sh w h origin s c m sp x n tb false Hsh L1 L2 L3 L4 L6 (L7 ltac:(lia)) L8 Hf Hd Hne Hx Hw Hh) as [s' [c' [E [S [T [A [A1 [A2 [A3 A4]]]]]]]]];
    [lia|].
  cbn [perform]. rewrite E. cbn [perform]. destruct (render s' origin false) as [out s''] eqn:Er. cbn [fst] in *.
  assert (Es : s'' = mkScreen (sc_w s') (sc_h s') (sc_cells s') [] (sc_cursor s') (sc_off s')).
  { unfold render in Er. destruct origin. injection Er as _ <-. reflexivity. }
  assert (Ecell : forall q, cell_at s'' q = cell_at s' q) by (intro q; rewrite Es; reflexivity).
  destruct S as [[S1 [S2 _]] S3 S4 S5 S6 S7 _ _ _].
  rewrite L9' in A3, A4.
  split; cbn [fst snd].
  - rewrite Es. cbn. congruence.
  - rewrite Es. cbn. congruence.
  - rewrite Es. exact S4.
  - rewrite Es. constructor.
  - rewrite Es. cbn. rewrite S3, Eo1. lia.
  - exact T.
  - intros _. now rewrite Es.
  - exact A.
  - split; congruence.
  - rewrite Eo1. intros i sp' Hi Hin j ch Ej. rewrite Ecell. destruct (Z.eq_dec i n) as [->|Hne'].
    + assert (sp' = sp) by (destruct Hi as [_ B1], Hsp as [_ B2]; congruence). subst sp'.
      exists (plain_cell (ch, sp)). split; [|apply plain_refl; now apply drawable_fine].
      replace (n - (n + 1 - h)) with (sc_h s - 1) by lia. now apply S7.
    + assert (CL := characters_length e sp' true true). assert (Hj : (j < List.length (get_characters e sp' true true))%nat) by (apply nth_error_Some; congruence).
      destruct (nth_line _ _ Hi) as [_ [_ Hw']]. unfold zlen in CL, Hw'.
      rewrite S6 by (unfold on_screen; cbn [fst snd]; lia). cbn [fst snd].
      destruct (L10 i sp' Hi ltac:(lia) j ch Ej) as [new [B1 B2]]. exists new. split; [|exact B2]. rewrite <- B1. do 2 f_equal. lia.
  - lia.
  - intros Hb _. destruct (A4 Hb) as [A5 A6]. split; [|exact A6].
    intros i sp' Hi Hin Hnh Hr j g Ej. pose proof (text_column _ _ _ (nth_line _ _ Hi) Ej) as Hc.
    destruct (Z.eq_dec i n) as [->|Hne'].
    + assert (sp' = sp) by (destruct Hi as [_ B1], Hsp as [_ B2]; congruence). subst sp'.
      rewrite (proj2 (Z.leb_le h n)) in * by lia. replace (n - (n + 1 - h) - 1) with (h - 2) in * by lia.
      rewrite A5 by (unfold on_screen; cbn [fst snd]; lia). cbn [fst snd]. replace (h - 2 + 1) with (h - 1) by lia. now apply over_here.
    + set (d := if h <=? i then 1 else 0) in *. assert (Hd01 : (h <= i /\ d = 1) \/ (i < h /\ d = 0)) by (unfold d; destruct (Z.leb_spec h i); lia).
      rewrite A5 by (unfold on_screen; cbn [fst snd]; lia). cbn [fst snd]. rewrite over_other by (cbn [snd]; lia).
      destruct (Z.eq_dec n h) as [->|Hnh'].
      * assert (i < h) by lia. replace (i - (h + 1 - h) - d + 1) with i by lia. now apply (DL eq_refl).
      * destruct (L12 Hb ltac:(lia)) as [A7 A8]. replace (i - (n + 1 - h) - d + 1) with (i - (n - h) - d) by lia. apply A7; auto; lia.
  - intros Hb _. specialize (A3 Hb). split.
    + intros i sp' Hi Hin j g Ej. pose proof (text_column _ _ _ (nth_line _ _ Hi) Ej) as Hc. assert (0 <= i) by apply Hi.
      rewrite A3 by (unfold on_screen; cbn [fst snd]; lia). rewrite over_other by (cbn [snd]; lia).
      destruct (Z.eq_dec n h) as [->|Hnh']; [apply (DL eq_refl); auto; lia|]. now apply (proj1 (L13 Hb ltac:(lia))).
    + replace (n + 1 - 1) with n by lia. intros sp' Hi j g Ej. pose proof (text_column _ _ _ (nth_line _ _ Hi) Ej) as Hc.
      assert (sp' = sp) by (destruct Hi as [_ B1], Hsp as [_ B2]; congruence). subst sp'.
      rewrite A3 by (unfold on_screen; cbn [fst snd]; lia). now apply over_here.
Qed.

Lemma log_run : forall rest done k, lines = done ++ rest -> linv (zlen done) k ->
  linv (zlen lines) (fold_left (perform e origin) (log_from (zlen done) x tb rest) k).
Proof.
  intro rest. induction rest as [|sp rest IH]; intros done k E L.
  - rewrite app_nil_r in E. subst done. exact L.
  - cbn [log_from fold_left].
    assert (Hsp : nthl (zlen done) sp).
    { split; [apply zlen_nonneg|]. rewrite E. unfold zlen. rewrite Nat2Z.id, nth_error_app2, Nat.sub_diag by lia. reflexivity. }
    assert (L' : linv (zlen done + 1) (perform e origin (perform e origin k (AWrite [((x, zlen done), [sp])] tb false)) ADraw)).
    { destruct (Z.lt_ge_cases (zlen done) h); [now apply low_step|now apply high_step]. }
    assert (Ed : zlen done + 1 = zlen (done ++ [sp])) by (unfold zlen; rewrite app_length; cbn [List.length]; lia).
    rewrite Ed in *. apply IH; [|exact L']. rewrite <- app_assoc. exact E.
Qed.
End Log.

Lemma logged : forall e sh w h cursor fill origin m x tb lines, shades e sh -> is_ctl fill = false ->
  at_rest m -> fits w h origin m -> 0 < h -> 0 <= x -> fine tb -> Forall (a_line w x) lines ->
  linv e sh w h origin (e_grid m) (e_w m) (e_h m) x lines (zlen lines) (fold_left (perform e origin) (log x tb lines) (new_screen w h cursor [fill], [], m)).
Proof.
  intros e sh w h cursor fill origin m x tb lines Hsh Hfill Hm Hf Hh Hx Htb Hl.
  assert (I0 : inv e sh w h origin (e_grid m) (e_w m) (e_h m) never (new_screen w h cursor [fill], [], m) (blank fill)) by (apply inv_start; auto).
  apply (log_run e sh w h origin (e_grid m) (e_w m) (e_h m) x tb lines Hsh Hf Hh Hx Htb Hl lines []); [reflexivity|].
  rewrite zlen_nil. assert (Eo : off h 0 = 0) by (unfold off; lia). split; rewrite ?Eo.
  - apply (i_w _ _ _ _ _ _ _ _ _ _ _ I0).
  - apply (i_h _ _ _ _ _ _ _ _ _ _ _ I0).
  - apply (i_shaped _ _ _ _ _ _ _ _ _ _ _ I0).
  - apply (i_keyed _ _ _ _ _ _ _ _ _ _ _ I0).
  - apply (i_off _ _ _ _ _ _ _ _ _ _ _ I0).
  - apply ok_tainted. apply (i_cache _ _ _ _ _ _ _ _ _ _ _ I0).
  - lia.
  - exact Hm.
  - auto.
  - intros. lia.
  - intros _. exists (blank fill). split; [exact I0|]. intros i sp j g [H _]. lia.
  - lia.
  - lia.
Qed.

Lemma nthl_nat : forall lines i sp, nth_error lines i = Some sp -> nthl lines (Z.of_nat i) sp.
Proof. intros lines i sp H. split; [lia|]. now rewrite Nat2Z.id. Qed.

Lemma log_screen : forall e sh w h cursor fill origin m x tb lines, shades e sh -> is_ctl fill = false ->
  at_rest m -> fits w h origin m -> 0 < h -> 0 <= x -> fine tb -> Forall (a_line w x) lines ->
  let '(s, _, _) := fold_left (perform e origin) (log x tb lines) (new_screen w h cursor [fill], [], m) in
  forall i sp, nth_error lines i = Some sp -> zlen lines - h <= Z.of_nat i ->
    held e s x (Z.of_nat i - Z.max 0 (zlen lines - h)) sp.
Proof.
  intros e sh w h cursor fill origin m x tb lines Hsh Hfill Hm Hf Hh Hx Htb Hl.
  pose proof (logged e sh w h cursor fill origin m x tb lines Hsh Hfill Hm Hf Hh Hx Htb Hl) as L.
  destruct (fold_left _ _ _) as [[s c] m']. intros i sp Hi Hn.
  apply (l_held _ _ _ _ _ _ _ _ _ _ _ _ L); [now apply nthl_nat|]. unfold off. assert ((i < List.length lines)%nat) by (apply nth_error_Some; congruence).
  unfold zlen in *. lia.
Qed.
Lemma log_short : forall e sh w h cursor fill origin m x tb lines, shades e sh -> is_ctl fill = false ->
  at_rest m -> fits w h origin m -> 0 < h -> 0 <= x -> fine tb -> Forall (a_line w x) lines -> zlen lines <= h ->
  let '(_, _, m') := fold_left (perform e origin) (log x tb lines) (new_screen w h cursor [fill], [], m) in
  forall i sp, nth_error lines i = Some sp -> displayed sh origin m' x (Z.of_nat i) sp.
Proof.
  intros e sh w h cursor fill origin m x tb lines Hsh Hfill Hm Hf Hh Hx Htb Hl Hn.
  pose proof (logged e sh w h cursor fill origin m x tb lines Hsh Hfill Hm Hf Hh Hx Htb Hl) as L.
  destruct (fold_left _ _ _) as [[s c] m']. intros i sp Hi. assert ((i < List.length lines)%nat) by (apply nth_error_Some; congruence).
  apply (low_displayed e sh w h origin (e_grid m) (e_w m) (e_h m) x lines Hx Hl (zlen lines) _ L); [unfold zlen in *; lia|now apply nthl_nat|unfold zlen; lia].
Qed.
Lemma log_bottom : forall e sh w h cursor fill origin m x tb lines, shades e sh -> is_ctl fill = false ->
  at_rest m -> fits w h origin m -> 0 < h -> 0 <= x -> fine tb -> Forall (a_line w x) lines ->
  snd origin - 1 + h = e_h m -> h < zlen lines ->
  let '(_, _, m') := fold_left (perform e origin) (log x tb lines) (new_screen w h cursor [fill], [], m) in
  (forall i sp, nth_error lines i = Some sp -> Z.of_nat i <> h - 1 ->
     let r := Z.of_nat i - (zlen lines - h) - (if h <=? Z.of_nat i then 1 else 0) in 0 <= r -> displayed sh origin m' x r sp) /\
  (forall X, 0 <= X < w -> seen origin m' (X, h - 1) = eblank).
Proof.
  intros e sh w h cursor fill origin m x tb lines Hsh Hfill Hm Hf Hh Hx Htb Hl Hb Hn.
  pose proof (logged e sh w h cursor fill origin m x tb lines Hsh Hfill Hm Hf Hh Hx Htb Hl) as L.
  destruct (fold_left _ _ _) as [[s c] m']. destruct (l_bottom _ _ _ _ _ _ _ _ _ _ _ _ L Hb Hn) as [A B]. split; [|exact B].
  intros i sp Hi Hne r Hr. assert ((i < List.length lines)%nat) by (apply nth_error_Some; congruence).
  apply A; auto; [now apply nthl_nat|unfold zlen; lia].
Qed.
Lemma log_room : forall e sh w h cursor fill origin m x tb lines, shades e sh -> is_ctl fill = false ->
  at_rest m -> fits w h origin m -> 0 < h -> 0 <= x -> fine tb -> Forall (a_line w x) lines ->
  snd origin - 1 + h < e_h m -> h < zlen lines ->
  let '(_, _, m') := fold_left (perform e origin) (log x tb lines) (new_screen w h cursor [fill], [], m) in
  (forall i sp, nth_error lines i = Some sp -> Z.of_nat i < h - 1 -> displayed sh origin m' x (Z.of_nat i) sp) /\
  (forall i sp, nth_error lines i = Some sp -> Z.of_nat i = zlen lines - 1 -> displayed sh origin m' x (h - 1) sp).
Proof.
  intros e sh w h cursor fill origin m x tb lines Hsh Hfill Hm Hf Hh Hx Htb Hl Hb Hn.
  pose proof (logged e sh w h cursor fill origin m x tb lines Hsh Hfill Hm Hf Hh Hx Htb Hl) as L.
  destruct (fold_left _ _ _) as [[s c] m']. destruct (l_room _ _ _ _ _ _ _ _ _ _ _ _ L Hb Hn) as [A B]. split.
  - intros i sp Hi Hlt. apply A; [now apply nthl_nat|lia].
  - intros i sp Hi Hlt. apply B. rewrite <- Hlt. now apply nthl_nat.
Qed.

(** * Lines of two spans *)
Lemma place_lst : forall w h s chars i n x y l1 l2 wm am,
  let '(x1, y1, _, wm1, am1) := place w h s chars i n x y l1 wm am in
  let '(x2, y2, _, wm2, am2) := place w h s chars i n x y l2 wm am in wm1 = wm2 /\ am1 = am2.
Proof.
  intros w h s chars. induction chars as [|ch chars IH]; intros i n x y l1 l2 wm am; cbn [place]; [auto|].
  destruct (_ || _); [auto|]. destruct (str_eqb ch [NL]); [apply IH|].
  destruct (if w <=? x + 1 then _ else _) as [nx ny]. destruct (over s ch _) as [c push].
  specialize (IH (i + 1) n nx ny (if i =? n - 1 then 1 else 0) (if i =? n - 1 then 1 else 0) (mset wm x y (Some c)) (am_push am x y push)).
  destruct (place _ _ _ _ _ _ _ _ _ _ _) as [[[[? ?] ?] ?] ?]. auto.
Qed.
Lemma first_span_lost : forall e c s a b x y tb force, cache_ok e c -> sc_h s + sc_off s <= y ->
  let '(s1, _, r1) := write_bulk e c s [((x, y), [a; b])] tb force in
  let '(s2, _, r2) := write_bulk e c s [((x, y - sc_off s), [b])] tb force in s1 = s2 /\ r1 = r2.
Proof.
  intros e c s a b x y tb force Hc Hy. unfold write_bulk. cbn [place_all place_line ws_cache ws_off ws_wm ws_am ws_cells].
  destruct (cached_ok e c a true true Hc) as [c1 [E1 Hc1]]. rewrite E1. cbn [ws_cache ws_off ws_wm ws_am ws_cells].
  rewrite !zlen_cons, zlen_nil. change (1 + (1 + 0) - 1) with 1. change (1 + 0 - 1) with 0. rewrite Z.eqb_refl. change (0 =? 1) with false. cbn [andb].
  cbn [ws_cache ws_off ws_wm ws_am ws_cells]. rewrite place_off by lia.
  cbn [ws_cache ws_off ws_wm ws_am ws_cells].
  destruct (cached_ok e c1 b true true Hc1) as [c2 [E2 _]]. destruct (cached_ok e c b true true Hc) as [c3 [E3 _]]. rewrite E2, E3.
  cbn [ws_cache ws_off ws_wm ws_am ws_cells]. change (0 + 1 =? 1) with true. cbn [andb].
  assert (Fin : forall chars ys, let pl l := place (sc_w s) (sc_h s) b chars 0 (zlen (get_characters e b true true)) x ys l
      (blank_matrix (sc_w s) (sc_h s) None) (blank_matrix (sc_w s) (sc_h s) []) in
    exists x1 y1 l1 x2 y2 l2 wm am, pl 1 = (x1, y1, l1, wm, am) /\ pl 0 = (x2, y2, l2, wm, am)).
  { intros chars ys pl. pose proof (place_lst (sc_w s) (sc_h s) b chars 0 (zlen (get_characters e b true true)) x ys 1 0
      (blank_matrix (sc_w s) (sc_h s) None) (blank_matrix (sc_w s) (sc_h s) [])) as PL. fold (pl 1) in PL. fold (pl 0) in PL.
    destruct (pl 1) as [[[[x1 y1] l1] wm1] am1]. destruct (pl 0) as [[[[x2 y2] l2] wm2] am2]. destruct PL as [-> ->].
    exists x1, y1, l1, x2, y2, l2, wm2, am2. auto. }
  destruct (sc_h s - 1 <? y - sc_off s - sc_off s).
  - destruct (append_nl _) as [chars'|ex]; [|auto]. destruct (sc_cells s) as [|row cells]; [auto|].
    cbn [ws_wm ws_am ws_cells ws_off ws_cache].
    destruct (Fin chars' (y - sc_off s - (y - sc_off s - sc_h s + 1))) as [x1 [y1 [l1 [x2 [y2 [l2 [wm [am [F1 F2]]]]]]]]]. cbv zeta in F1, F2. rewrite F1, F2.
    cbn [ws_wm ws_am ws_cells ws_off ws_cache]. destruct (commit _ _ _ _ _ _ _ _) as [[[? ?] ?] ?]. auto.
  - cbn [ws_wm ws_am ws_cells ws_off ws_cache].
    destruct (Fin (get_characters e b true true) (y - sc_off s - sc_off s)) as [x1 [y1 [l1 [x2 [y2 [l2 [wm [am [F1 F2]]]]]]]]]. cbv zeta in F1, F2. rewrite F1, F2.
    cbn [ws_wm ws_am ws_cells ws_off ws_cache]. destruct (commit _ _ _ _ _ _ _ _) as [[[? ?] ?] ?]. auto.
Qed.
