(** Lemmas about the text of SVG exports. *)
From Coq Require Import ZArith List Bool String Lia Reals Lra.
From Flocq Require Import Core IEEE754.BinarySingleNaN.
From Verif Require Import PyBase PyLemmas F64 FloatLemmas BlendSpec DecProofs ColorModel ColorSpec SpanModel ScreenModel TermModel SvgSpec SvgProofs
  SvgDocModel SvgDocSpec SvgDocProofs SvgGeoModel SvgGeoSpec SvgGeoProofs ReprModel ReprSpec ReprProofs SvgTextModel SvgTextSpec.
Import ListNotations.
Open Scope R_scope.
Open Scope list_scope.

(** * Numerals are made of numeral characters *)
Definition numc (c : Z) : Prop := (48 <= c <= 57 \/ 97 <= c <= 122 \/ In c [43; 45; 46])%Z.
Lemma digit10_numc : forall c d, digit10 c = Some d -> numc c.
Proof. intros c d H. unfold digit10 in H. destruct (_ && _) eqn:E; [|discriminate]. apply andb_prop in E. destruct E as [A B]. apply Z.leb_le in A, B. left. lia. Qed.
Lemma whole_numc : forall t a v, whole a t = Some v -> Forall numc t.
Proof.
  induction t as [|c t IH]; intros a v H; [constructor|]. cbn [whole] in H. destruct (digit10 c) eqn:D; [|discriminate].
  constructor; [eapply digit10_numc; eauto|eapply IH; eauto].
Qed.
Lemma exponent_numc : forall t v, exponent t = Some v -> Forall numc t.
Proof.
  intros [|c [|d r]] v H; try discriminate. unfold exponent in H.
  assert (W : exists u, whole 0 (d :: r) = Some u /\ (c = 45 \/ c = 43)%Z).
  { destruct (Z.eqb_spec c 45); [destruct (whole 0 (d :: r)); [eauto|discriminate]|]. destruct (Z.eqb_spec c 43); [|discriminate].
    destruct (whole 0 (d :: r)); [eauto|discriminate]. }
  destruct W as [u [W C]]. constructor; [|eapply whole_numc; eauto]. unfold numc. cbn [In]. lia.
Qed.
Lemma mantissa_numc : forall t p m e v, mantissa p m e t = Some v -> Forall numc t.
Proof.
  induction t as [|c t IH]; intros p m e v H; [constructor|]. cbn [mantissa] in H. destruct (digit10 c) eqn:D.
  - constructor; [eapply digit10_numc; eauto|eapply IH; eauto].
  - destruct ((c =? 46)%Z && negb p) eqn:P.
    + apply andb_prop in P. destruct P as [P _]. apply Z.eqb_eq in P. subst c. constructor; [unfold numc; cbn [In]; lia|eapply IH; eauto].
    + destruct (Z.eqb_spec c 101); [|discriminate]. destruct (exponent t) eqn:X; [|discriminate]. subst c.
      constructor; [unfold numc; lia|eapply exponent_numc; eauto].
Qed.
Lemma reads_numeral : forall t v, reads t v -> numeral t.
Proof.
  intros t v [m [e [E _]]]. unfold numeral. change (Forall numc t). unfold numeral_of in E. destruct t as [|c t]; [constructor|].
  destruct (Z.eqb_spec c 45).
  - destruct (mantissa false 0 0 t) eqn:M; [|discriminate]. subst c. constructor; [unfold numc; cbn [In]; lia|eapply mantissa_numc; eauto].
  - eapply mantissa_numc; eauto.
Qed.
Lemma about_numeral : forall t v d, about t v d -> numeral t.
Proof. intros t v d [u [R _]]. eapply reads_numeral; eauto. Qed.

(** * Integers, fixed point *)
Lemma dec_reads : forall z, (0 <= z)%Z -> reads (dec z) (IZR z).
Proof.
  intros z H. apply numeral_pos.
  - intros r E. pose proof (dec_digits z H) as D. rewrite E in D. discriminate.
  - apply dec_ne.
  - rewrite mantissa_all by (now apply dec_digits). apply means_some. rewrite dec_val by lia. cbn [powerRZ]. rewrite Rmult_1_r. reflexivity.
Qed.
Lemma dec_short : forall r, (0 <= r < 10000)%Z -> (zlen (dec r) <= 4)%Z.
Proof.
  intros r H. destruct (Z.eq_dec r 0) as [->|]; [vm_compute; discriminate|]. pose proof (dec_len_le r ltac:(lia)) as D.
  destruct (Z.le_gt_cases (zlen (dec r)) 4); auto. assert (10 ^ 4 <= 10 ^ (zlen (dec r) - 1))%Z by (apply Z.pow_le_mono_r; lia). lia.
Qed.
Lemma fixed4_about : forall x, is_finite x = true -> 0 <= B2R x -> about (fixed4 x) (B2R x) (/ 20000).
Proof.
  intros x F P. unfold fixed4. destruct (fraction_of x) as [num den] eqn:Fr. destruct (fraction_value_of x num den F Fr) as [N [D V]].
  rewrite Rabs_pos_eq in V by exact P. destruct (half_even_near (num * 10000) den ltac:(lia) D) as [H H0]. set (q := half_even (num * 10000) den) in *.
  exists (IZR q * powerRZ 10 (-4)). split.
  - pose proof (Z.mod_pos_bound q 10000 ltac:(lia)) as M. pose proof (Z.div_pos q 10000 H0 ltac:(lia)) as Q.
    pose proof (dec_short _ M) as L. apply numeral_pos.
    + intros r E. pose proof (dec_digits (q / 10000) Q) as Dd. pose proof (dec_ne (q / 10000)) as Ne.
      destruct (dec (q / 10000)) as [|c t]; [congruence|]. injection E as -> _. discriminate.
    + pose proof (dec_ne (q / 10000)) as Ne. destruct (dec (q / 10000)); [congruence|discriminate].
    + rewrite mantissa_digits by (now apply dec_digits). change (lit "." ++ ?a) with (46%Z :: a). rewrite mantissa_point.
      rewrite mantissa_digits by apply repeat_digits. rewrite mantissa_all by (apply dec_digits; lia).
      rewrite repeat_val, repeat_len by lia. rewrite !dec_val by lia. apply means_eq; [|lia].
      rewrite (Z.div_mod q 10000) at 1 by lia.
      replace ((0 * 10 ^ zlen (dec (q / 10000)) + q / 10000) * 10 ^ (4 - zlen (dec (q mod 10000))) + 0)%Z
        with (q / 10000 * 10 ^ (4 - zlen (dec (q mod 10000))))%Z by ring.
      rewrite <- Z.mul_assoc, <- Z.pow_add_r by (try lia; apply zlen_nonneg). replace (4 - zlen (dec (q mod 10000)) + zlen (dec (q mod 10000)))%Z with 4%Z by lia.
      change (10 ^ 4)%Z with 10000%Z. ring.
  - change (powerRZ 10 (-4)) with (powerRZ 10 (- (4))). rewrite p10_inv, <- p10_IZR by lia. change (10 ^ 4)%Z with 10000%Z. rewrite mult_IZR in H.
    replace (IZR num * 10000 / IZR den) with (10000 * B2R x) in H by (rewrite V; field; apply IZR_lt in D; lra).
    apply Rabs_le_inv in H. apply Rabs_le. lra.
Qed.

(** * Printed floats *)
Lemma rnd_close : forall v x, rnd v = x -> Rabs x < 16777216 -> Rabs (v - x) <= / 268435456.
Proof.
  intros v x E B.
  assert (V : Rabs v < bpow radix2 25).
  { change (bpow radix2 25) with 33554432. destruct (Rlt_le_dec (Rabs v) 33554432) as [|C]; auto. exfalso.
    assert (fm : fmt 33554432) by (apply (fin_fmt (fofZ 33554432)); apply fofZ_spec; lia).
    destruct (Rle_lt_dec 0 v).
    - rewrite Rabs_pos_eq in C by lra. pose proof (rnd_ge _ _ fm C). rewrite E in H. apply Rabs_lt_inv in B. lra.
    - rewrite Rabs_left in C by lra. pose proof (rnd_ge _ _ fm C) as H. rewrite rnd_opp, E in H. apply Rabs_lt_inv in B. lra. }
  pose proof (rnd_error v 25 ltac:(lia) V) as R. rewrite E in R. rewrite Rabs_minus_sym. eapply Rle_trans; [exact R|].
  change (25 - 54)%Z with (-29)%Z. change (bpow radix2 (-29)) with (/ 536870912). lra.
Qed.
Lemma big_enough : forall x, Rabs x < 16777216 -> 2 * Rabs x + 1 <= big.
Proof. intros x H. pose proof (bpow_big 26 ltac:(lia)) as B. change (bpow radix2 26) with 67108864 in B. lra. Qed.
Lemma repr_about : forall x, is_finite x = true -> Rabs (B2R x) < 16777216 -> about (float_repr x) (B2R x) (/ 268435456).
Proof. intros x F B. destruct (repr_reads x F (big_enough _ B)) as [v [R E]]. exists v. split; auto. now apply rnd_close. Qed.
Lemma about_near : forall t x v d, about t x d -> forall d' r, Rabs (x - v) <= d' -> d + d' <= r -> about t v r.
Proof.
  intros t x v d [u [R E]] d' r H D. exists u. split; auto. pose proof (Rabs_triang (u - x) (x - v)) as T. replace (u - x + (x - v)) with (u - v) in T by ring. lra.
Qed.

(** * The numbers of a piece are those of its shape *)
(** an integer zero or a float *)
Definition holds (a : num) (x : f64) : Prop := a = NFlt x \/ (a = NInt 0 /\ x = fzero).
Lemma nstr_about : forall a, (exists z, a = NInt z /\ 0 <= z < 16777216)%Z \/ (exists x, a = NFlt x /\ is_finite x = true /\ Rabs (B2R x) < 16777216) ->
  about (nstr a) (B2R (num_f a)) (/ 268435456).
Proof.
  intros a [[z [-> Hz]]|[x [-> [F B]]]]; cbn [nstr num_f].
  - destruct (fofZ_spec z ltac:(lia)) as [_ ->]. exists (IZR z). split; [apply dec_reads; lia|]. replace (IZR z - IZR z) with 0 by ring. rewrite Rabs_R0. lra.
  - now apply repr_about.
Qed.
Lemma fround_zero : fround fzero 100 = fzero. Proof. vm_compute. reflexivity. Qed.
Lemma holds_round : forall a x, holds a x -> holds (nround a 100) (fround x 100).
Proof. intros a x [->|[-> ->]]; [now left|right; split; [reflexivity|exact fround_zero]]. Qed.
Lemma holds_about : forall a x, holds a x -> is_finite x = true -> Rabs (B2R x) < 16777216 -> about (nstr a) (B2R x) (/ 268435456).
Proof.
  intros a x [->|[-> ->]] F B; [now apply repr_about|]. apply (nstr_about (NInt 0)). left. exists 0%Z. split; [reflexivity|lia].
Qed.
Lemma zero_float : fofZ 0 = fzero. Proof. vm_compute. reflexivity. Qed.
Lemma zero_minus_zero : fsub fzero fzero = fzero. Proof. vm_compute. reflexivity. Qed.
Lemma holds_sub : forall a b x y, holds a x -> holds b y -> holds (nsub a b) (fsub x y).
Proof.
  intros a b x y [->|[-> ->]] [->|[-> ->]]; cbn [nsub num_f]; rewrite ?zero_float; try (left; reflexivity). right. split; [reflexivity|exact zero_minus_zero].
Qed.
Lemma holds_add_float : forall a x f, holds a x -> holds (nadd a (NFlt f)) (fadd x f).
Proof. intros a x f [->|[-> ->]]; left; cbn [nadd num_f]; rewrite ?zero_float; reflexivity. Qed.
Lemma holds_offset : forall fs t, holds (if is_block t then NInt 0 else NFlt (fmul SVG_RECT_BASELINE_OFFSET (fofZ fs)))
  (if is_block t then fzero else fmul SVG_RECT_BASELINE_OFFSET (fofZ fs)).
Proof. intros fs t. destruct (is_block t); [right; auto|now left]. Qed.
Lemma text_line_about : forall fs a x, font fs -> holds a x -> is_finite (fadd x (fofZ fs)) = true -> Rabs (B2R (fadd x (fofZ fs))) < 16777216 ->
  about (nstr (nadd a (NInt fs))) (B2R (fadd x (fofZ fs))) (/ 268435456).
Proof.
  intros fs a x Hf [->|[-> ->]] F B; cbn [nadd num_f].
  - now apply repr_about.
  - rewrite Z.add_0_l. unfold font in Hf. pose proof (fofZ_spec fs ltac:(lia)) as S.
    assert (Z0 : fin fzero 0) by (split; reflexivity).
    assert (Bf : Rabs (0 + IZR fs) <= big).
    { rewrite Rplus_0_l, Rabs_pos_eq by (apply IZR_le; lia). pose proof (bpow_big 26 ltac:(lia)) as P. change (bpow radix2 26) with 67108864 in P.
      assert (IZR fs <= 1024) by (apply IZR_le; lia). lra. }
    destruct (fadd_spec fzero (fofZ fs) 0 (IZR fs) Z0 S Bf) as [_ E]. rewrite Rplus_0_l, rnd_id in E by (eapply fin_fmt; exact S).
    rewrite E. exists (IZR fs). split; [apply dec_reads; lia|]. replace (IZR fs - IZR fs) with 0 by ring. rewrite Rabs_R0. lra.
Qed.

Lemma numbers_placed : forall fs x y fx fy c r i sp, font fs -> holds x fx -> holds y fy -> at_column fs fx c -> at_line fs fy r ->
  (0 <= c)%Z -> (c + zlen (s_text sp) <= 8192)%Z -> (0 <= r <= 8191)%Z ->
  placed fs (c, r, i, sp) (span_numbers fs x y (s_text sp)).
Proof.
  intros fs x y fx fy c r i sp Hf Hx Hy Cx Ly Hc Hl Hr. set (t := s_text sp) in *.
  destruct (shape_spec fs Hf fx fy c r t Cx Ly Hc Hl Hr) as [Fin [S1 [S2 [S3 [S4 S5]]]]].
  pose proof (F_bounds fs Hf) as B. pose proof (raise_bounds fs t Hf) as Rb. pose proof (zlen_nonneg _ t) as Z0.
  assert (C0 : 0 <= IZR c <= 8192) by (split; apply IZR_le; lia). assert (R0 : 0 <= IZR r <= 8191) by (split; apply IZR_le; lia).
  assert (L0 : 0 <= IZR (zlen t) <= 8192) by (split; apply IZR_le; lia).
  assert (FW : 0 <= IZR fs * em_width <= 617) by (unfold em_width; lra). assert (FH : 0 <= IZR fs * em_height <= 1296) by (unfold em_height; lra).
  assert (CW : 0 <= IZR c * (IZR fs * em_width) <= 5054464) by nra. assert (RH : 0 <= IZR r * (IZR fs * em_height) <= 10617120) by nra.
  assert (LW : 0 <= IZR (zlen t) * (IZR fs * em_width) <= 5054464) by nra.
  destruct Fin as [F1 [F2 [F3 [F4 F5]]]]. unfold left_edge, top_edge in *.
  unfold span_shape in *. cbn [sh_x sh_y sh_width sh_height sh_text_y] in *.
  unfold placed, p_span, p_column, p_row. cbn [fst snd]. fold t. unfold span_numbers. cbn [sv_x sv_yrect sv_width sv_height sv_ytext].
  pose proof (holds_round _ _ Hx) as Hx'. pose proof (holds_round _ _ Hy) as Hy'.
  apply Rabs_le_inv in S1, S2, S3, S4, S5.
  split; [|split; [|split; [|split]]].
  - eapply about_near; [apply (holds_about _ _ Hx' F1); apply Rabs_def1; lra|apply Rabs_le; exact S1|lra].
  - eapply about_near; [apply (holds_about _ _ (holds_sub _ _ _ _ Hy' (holds_offset fs t)) F2); apply Rabs_def1; lra|apply Rabs_le; exact S3|lra].
  - eapply about_near; [apply (fixed4_about _ F3); lra|apply Rabs_le; exact S2|lra].
  - eapply about_near; [apply (repr_about _ F4); apply Rabs_def1; lra| |].
    + replace (em_height * (108 / 100)) with (13662 / 10000) by (unfold em_height; field). apply Rabs_le; exact S4.
    + lra.
  - eapply about_near; [apply (text_line_about fs _ _ Hf Hy' F5); apply Rabs_def1; lra|apply Rabs_le; exact S5|lra].
Qed.

(** * Rows *)
Definition tag (dfg dbg : color) (pn : piece * svg_numbers) : str :=
  as_svg (p_span (fst pn)) (snd pn) dfg dbg false (Some (svg_class (p_class (fst pn)))).
Definition tags (dfg dbg : color) (l : list piece) (nl : list svg_numbers) : str := List.concat (map (tag dfg dbg) (combine l nl)).
Lemma combine_app : forall A B (a1 a2 : list A) (b1 b2 : list B), List.length a1 = List.length b1 -> combine (a1 ++ a2) (b1 ++ b2) = combine a1 b1 ++ combine a2 b2.
Proof. intros A B a1. induction a1 as [|x a1 IH]; intros a2 [|y b1] b2 H; try discriminate; [reflexivity|]. cbn. f_equal. apply IH. now injection H. Qed.
Lemma tags_app : forall dfg dbg l1 l2 n1 n2, List.length l1 = List.length n1 -> tags dfg dbg (l1 ++ l2) (n1 ++ n2) = tags dfg dbg l1 n1 ++ tags dfg dbg l2 n2.
Proof. intros. unfold tags. rewrite combine_app by auto. now rewrite map_app, concat_app. Qed.
Lemma sheet_app : forall l1 l2, svg_stylesheet (l1 ++ l2) = svg_stylesheet l1 ++ svg_stylesheet l2.
Proof. intros. unfold svg_stylesheet. now rewrite map_app, concat_app. Qed.
Lemma Forall2_len : forall A B (P : A -> B -> Prop) a b, Forall2 P a b -> List.length a = List.length b.
Proof. intros A B P a b H. induction H; cbn; auto. Qed.
Definition fits (p : piece) : Prop := (p_column p + zlen (s_text (p_span p)) <= 8192)%Z.

Lemma row_text : forall fs dfg dbg, font fs -> forall spans x fx y fy c r i prev l i' prev',
  holds x fx -> holds y fy -> at_column fs fx c -> at_line fs fy r -> (0 <= c)%Z -> (0 <= r <= 8191)%Z ->
  svg_row spans c r i prev = (l, i', prev') -> Forall fits l ->
  exists nl, text_row fs dfg dbg spans x y i prev = (tags dfg dbg l nl, svg_stylesheet l, i', prev') /\ Forall2 (placed fs) l nl.
Proof.
  intros fs dfg dbg Hf. induction spans as [|s spans IH]; intros x fx y fy c r i prev l i' prev' Hx Hy Cx Ly Hc Hr H Ft; cbn [svg_row] in H.
  - injection H as <- <- <-. exists []. split; [reflexivity|constructor].
  - set (j := match prev with Some p => if attrs_eqb p s then i else (i + 1)%Z | None => (i + 1)%Z end) in *.
    destruct (svg_row spans (c + span_len s) r j (Some s)) as [[l0 i0] p0] eqn:S. injection H as <- <- <-.
    inversion Ft as [|? ? F1 F2]; subst. unfold fits, p_column, p_span in F1. cbn [fst snd] in F1. pose proof (zlen_nonneg _ (s_text s)) as Z0.
    assert (Cx' : at_column fs (fadd fx (fmul (fofZ (span_len s)) (fmul (fofZ fs) SVG_CHAR_WIDTH))) (c + span_len s)).
    { apply next_column; auto; unfold span_len; lia. }
    destruct (IH _ _ y fy (c + span_len s)%Z r j (Some s) l0 i0 p0 (holds_add_float x fx (fmul (fofZ (span_len s)) (fmul (fofZ fs) SVG_CHAR_WIDTH)) Hx) Hy Cx' Ly ltac:(unfold span_len; lia) Hr S F2) as [nl [T P]].
    exists (span_numbers fs x y (s_text s) :: nl). split.
    + cbn [text_row]. fold j. rewrite T. reflexivity.
    + constructor; auto. now apply (numbers_placed fs x y fx fy).
Qed.
Lemma rows_text : forall e fs dfg dbg, font fs -> forall rows y fy r i prev l,
  holds y fy -> at_line fs fy r -> (0 <= r)%Z -> (r + zlen rows <= 8192)%Z ->
  svg_rows e rows r i prev = Ok l -> Forall fits l ->
  exists nl, text_rows e fs dfg dbg rows y i prev = Ok (tags dfg dbg l nl, svg_stylesheet l) /\ Forall2 (placed fs) l nl.
Proof.
  intros e fs dfg dbg Hf. induction rows as [|row rows IH]; intros y fy r i prev l Hy Ly Hr Hn H Ft; cbn [svg_rows] in H.
  - injection H as <-. exists []. split; [reflexivity|constructor].
  - rewrite zlen_cons in Hn. pose proof (zlen_nonneg _ rows) as Z0. unfold bindr in H. destruct (group e row) as [spans|] eqn:G; [|discriminate].
    destruct (svg_row spans 0 r i prev) as [[l1 i1] p1] eqn:S. destruct (svg_rows e rows (r + 1) i1 p1) as [l2|] eqn:R; [|discriminate]. injection H as <-.
    apply Forall_app in Ft. destruct Ft as [F1 F2].
    destruct (row_text fs dfg dbg Hf spans (NInt 0) fzero y fy 0 r i prev l1 i1 p1 (or_intror (conj eq_refl eq_refl)) Hy (at_start _) Ly ltac:(lia) ltac:(lia) S F1) as [n1 [T1 P1]].
    destruct (IH _ _ (r + 1)%Z i1 p1 l2 (holds_add_float y fy (fmul (fofZ fs) SVG_CHAR_HEIGHT) Hy) (next_line fs Hf fy r Ly ltac:(lia)) ltac:(lia) ltac:(lia) R F2) as [n2 [T2 P2]].
    exists (n1 ++ n2). split; [|now apply Forall2_app].
    cbn [text_rows]. rewrite G. cbn [bindr]. rewrite T1, T2. cbn [bindr fst snd]. rewrite tags_app, sheet_app by (eapply Forall2_len; exact P1). reflexivity.
Qed.

(** * The document *)
Lemma placed_good : forall fs p n, placed fs p n -> good_numbers n.
Proof. intros fs p n [A [B [C [D E]]]]. unfold good_numbers. repeat split; eapply about_numeral; eauto. Qed.
Lemma tags_written : forall fs dfg dbg l nl rest s, color_ok dfg -> color_ok dbg -> Forall2 (placed fs) l nl ->
  Forall (fun p => displayed_ok (p_span p)) l -> Forall legible l -> writes rest s ->
  writes (flat_map (fun pn => piece_nodes (fun _ => snd pn) dfg dbg (fst pn)) (combine l nl) ++ rest) (tags dfg dbg l nl ++ s).
Proof.
  intros fs dfg dbg l nl rest s Hf Hb P. induction P as [|p n l nl Hp P IH]; intros D L W; [exact W|].
  inversion D as [|? ? D1 D2]; inversion L as [|? ? L1 L2]; subst. unfold tags. cbn [combine flat_map map List.concat fst snd]. rewrite <- !app_assoc.
  apply (piece_written (fun _ => n) dfg dbg p); auto. eapply placed_good; eauto.
Qed.
Lemma total_about : forall n fs c k d, font fs -> extent n -> near c k d -> 0 <= k < 19 / 10 -> 0 <= d <= / 2251799813685248 ->
  about (float_repr (fadd (fmul (fmul (fofZ n) c) (fofZ fs)) (fofZ 32))) (IZR n * (IZR fs * k) + 32) (/ 1000).
Proof.
  intros n fs c k d Hf Hn C K D. destruct (total_near n fs c k d Hf Hn C K D) as [F E]. pose proof (F_bounds fs Hf) as B. unfold extent in Hn.
  assert (N0 : 0 <= IZR n <= 8192) by (split; apply IZR_le; lia).
  assert (P : 0 <= IZR n * (IZR fs * k) <= 15938560).
  { assert (0 <= IZR n * k <= 15565) by nra. replace (IZR n * (IZR fs * k)) with (IZR n * k * IZR fs) by ring. nra. }
  eapply about_near; [apply (repr_about _ F)|exact E|lra]. apply Rabs_le_inv in E. apply Rabs_def1; lra.
Qed.
Lemma export_text_spec : forall e s w h fs dfg dbg l, font fs -> extent w -> extent h -> color_ok dfg -> color_ok dbg ->
  Forall (Forall valid_cell) (sc_cells s) -> export_svg e s = Ok l -> Forall legible l -> moderate s l ->
  exists doc wt ht nl, export_text e s w h fs dfg dbg = Ok doc /\
    document (terminal_frame (dec fs) wt ht dbg l (numbered_nodes dfg dbg (combine l nl))) doc /\
    about wt (IZR w * (IZR fs * em_width) + 32) (/ 1000) /\ about ht (IZR h * (IZR fs * em_height) + 32) (/ 1000) /\
    Forall2 (placed fs) l nl.
Proof.
  intros e s w h fs dfg dbg l Hf Hw Hh Cf Cb V X L [M1 M2].
  destruct (rows_text e fs dfg dbg Hf (sc_cells s) (NInt 0) fzero 0 0 None l (or_intror (conj eq_refl eq_refl)) (at_start _) ltac:(lia) ltac:(lia) X M2) as [nl [T P]].
  assert (Aw : about (float_repr (total_width w fs)) (IZR w * (IZR fs * em_width) + 32) (/ 1000)).
  { eapply total_about; eauto; [apply width_lit|unfold em_width; lra|rewrite p54; lra]. }
  assert (Ah : about (float_repr (total_height h fs)) (IZR h * (IZR fs * em_height) + 32) (/ 1000)).
  { eapply total_about; eauto; [apply height_lit|unfold em_height; lra|rewrite p53; lra]. }
  eexists _, _, _, nl. split; [|split; [|split; [exact Aw|split; [exact Ah|exact P]]]].
  - unfold export_text, export_svg_with_styles. rewrite T. cbn [bindr fst snd]. reflexivity.
  - pose proof (export_colors e s l V X) as D.
    apply frame_spec; auto; try (eapply about_numeral; eassumption).
    + eapply reads_numeral. apply dec_reads. unfold font in Hf. lia.
    + assert (Wn : writes [Text [10%Z]] [10%Z]) by (eapply wr_tx; [discriminate|exact I|reflexivity|constructor|reflexivity]).
      destruct P as [|p n l nl Hp P].
      * eapply wr_tx; [discriminate|exact I|reflexivity|constructor|reflexivity].
      * unfold numbered_nodes. cbn [combine]. eapply wr_tx; [discriminate|exact I|reflexivity| |reflexivity].
        apply (tags_written fs dfg dbg (p :: l) (n :: nl)); auto.
Qed.
