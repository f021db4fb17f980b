(** Lemmas: color descriptions mean what the specification says. *)
From Coq Require Import ZArith List Bool String Lia Reals Lra.
From Flocq Require Import Core IEEE754.BinarySingleNaN.
From Verif Require Import PyBase PyLemmas F64 FloatLemmas SpaceModel ColorTab ColorModel ColorSpec BlendSpec ColorProofs ColorProofs2 BlendProofs
  SpanProofs ParseProofs3 DecSpec DecProofs ColorProofs3 NumSpec NumProofs NumProofs2 DescSpec.
Import ListNotations.
Open Scope Z_scope.
Open Scope list_scope.

(** * Bytes *)
Lemma valid_rgb_spec : forall r g b, valid_rgb (r, g, b) = true <-> byte r /\ byte g /\ byte b.
Proof. intros r g b. unfold valid_rgb, in_channel, byte. rewrite !andb_true_iff, !Z.leb_le, !Z.ltb_lt. lia. Qed.
Lemma holds_one : holds fone 1.
Proof.
  left. assert (E : nearest 1 = 1%R).
  { unfold nearest. apply round_generic; [auto with typeclass_instances|]. change 1%R with (bpow radix2 0). apply generic_format_bpow.
    unfold FLT_exp. cbn. lia. }
  rewrite E. split; [|exact fone_1].
  rewrite Rabs_R1. change 1%R with (bpow radix2 0). now apply bpow_lt.
Qed.
Lemma new_color_ok : forall t bg a o k c, new_color t bg a o k = Ok c <-> valid_rgb t = true /\ c = mkColor t bg a o k.
Proof.
  intros. unfold new_color. destruct (valid_rgb t); split; intro H; try discriminate; [injection H as <-; auto|destruct H as [_ ->]; reflexivity|].
  destruct H as [H _]. discriminate.
Qed.
Lemma bind_ok : forall A B (r : res A) (f : A -> res B) b, bindr r f = Ok b <-> exists a, r = Ok a /\ f a = Ok b.
Proof.
  intros A B [a|e] f b; cbn [bindr]; split; intro H; try discriminate; eauto.
  - destruct H as [x [X Y]]. congruence.
  - destruct H as [x [X Y]]. discriminate.
Qed.

(** * Hexadecimal texts *)
Lemma slices4 : forall a b c d h, slice None (Some 2) (a :: b :: c :: d :: h) = [a; b] /\
  slice (Some 2) (Some 4) (a :: b :: c :: d :: h) = [c; d] /\ slice (Some 4) None (a :: b :: c :: d :: h) = h.
Proof.
  intros a b c d h. unfold slice, clamp_index. assert (L : zlen (a :: b :: c :: d :: h) = 4 + zlen h) by (unfold zlen; cbn [List.length]; lia).
  pose proof (zlen_nonneg _ h) as N. rewrite L. change (2 <? 0) with false. change (4 <? 0) with false. cbv iota.
  replace (4 + zlen h <? 2) with false by lia. replace (4 + zlen h <? 4) with false by lia.
  change (Z.to_nat (2 - 0)) with 2%nat. change (Z.to_nat 0) with 0%nat. change (Z.to_nat (4 - 2)) with 2%nat. change (Z.to_nat 2) with 2%nat.
  change (Z.to_nat 4) with 4%nat. cbn [skipn firstn]. repeat split.
  change (4 <? 0) with false. cbv iota. change (Z.to_nat 4) with 4%nat. cbn [skipn].
  replace (4 + zlen h - 4) with (zlen h) by lia. unfold zlen. rewrite Nat2Z.id. apply firstn_all.
Qed.
Lemma from_hex_spec : forall s a c, from_hex s a = Ok c <-> exists rgb, hex_triple (lstrip_by (Z.eqb 35) s) rgb /\
  c = mkColor rgb false a TRUE_COLOR (Some (35 :: lstrip_by (Z.eqb 35) s)).
Proof.
  intros s a c. unfold from_hex. cbv zeta. generalize (lstrip_by (Z.eqb 35) s) as h. intro h.
  assert (SHORT : forall P : Prop, (List.length h < 4)%nat ->
     (bindr (py_int16 (slice None (Some 2) h)) (fun r => bindr (py_int16 (slice (Some 2) (Some 4) h)) (fun g =>
        bindr (py_int16 (slice (Some 4) None h)) (fun b => new_color (r, g, b) false a TRUE_COLOR (Some (35 :: h))))) = Ok c -> P)).
  { intros P L H. exfalso. apply bind_ok in H. destruct H as [r [_ H]]. apply bind_ok in H. destruct H as [g [_ H]]. apply bind_ok in H.
    destruct H as [b [H _]]. destruct h as [|x1 [|x2 [|x3 [|x4 h]]]]; try discriminate. cbn in L. lia. }
  destruct h as [|x1 [|x2 [|x3 [|x4 h]]]].
  1-4: split; [apply SHORT; cbn; lia|]; intros [rgb [[x [y [z [r [g [b [E [L1 [L2 [_ [_ [I _]]]]]]]]]]]] _]];
    destruct x as [|? [|? [|]]]; try discriminate; destruct y as [|? [|? [|]]]; try discriminate;
    injection E; intros; try discriminate.
  clear SHORT. destruct (slices4 x1 x2 x3 x4 h) as [-> [-> ->]]. split.
  - intro H. apply bind_ok in H. destruct H as [r [R H]]. apply bind_ok in H. destruct H as [g [G H]]. apply bind_ok in H.
    destruct H as [b [B H]]. apply new_color_ok in H. destruct H as [V ->]. apply valid_rgb_spec in V.
    exists (r, g, b). split; [|reflexivity]. exists [x1; x2], [x3; x4], h, r, g, b. rewrite py_int16_spec in R, G, B. tauto.
  - intros [rgb [[x [y [z [r [g [b [E [L1 [L2 [R [G [B [V1 [V2 [V3 ->]]]]]]]]]]]]]]] ->]].
    destruct x as [|? [|? [|]]]; try discriminate. destruct y as [|? [|? [|]]]; try discriminate. cbn [app] in E.
    injection E as <- <- <- <- <-. rewrite <- py_int16_spec in R, G, B. rewrite R, G, B. cbn [bindr]. apply new_color_ok. split; [|reflexivity].
    apply valid_rgb_spec. auto.
Qed.
Lemma lstrip_hash : forall s, (exists k h, s = repeat 35 k ++ h /\ (forall t, h <> 35 :: t) /\ lstrip_by (Z.eqb 35) s = h).
Proof.
  induction s as [|c s [k [h [E [N L]]]]].
  - exists 0%nat, []. repeat split. discriminate.
  - cbn [lstrip_by]. destruct (35 =? c) eqn:C.
    + apply Z.eqb_eq in C. subst c. exists (S k), h. split; [cbn; now rewrite <- E|]. auto.
    + exists 0%nat, (c :: s). repeat split. intros t T. injection T as -> _. discriminate.
Qed.
Lemma lstrip_repeat : forall k h, (forall t, h <> 35 :: t) -> lstrip_by (Z.eqb 35) (repeat 35 k ++ h) = h.
Proof.
  induction k as [|k IH]; intros h N; cbn [repeat app lstrip_by].
  - destruct h as [|c h]; [reflexivity|]. cbn [lstrip_by]. destruct (35 =? c) eqn:C; [|reflexivity].
    apply Z.eqb_eq in C. subst c. exfalso. exact (N h eq_refl).
  - change (35 =? 35) with true. cbv iota. now apply IH.
Qed.
Lemma hashed_spec : forall d rgb, (exists t, d = 35 :: t) -> hashed d rgb <-> hex_triple (lstrip_by (Z.eqb 35) d) rgb.
Proof.
  intros d rgb [t T]. split.
  - intros [k [h [-> [N H]]]]. now rewrite lstrip_repeat.
  - intro H. destruct (lstrip_hash d) as [k [h [E [N L]]]]. rewrite L in H. destruct k as [|k].
    + exfalso. cbn in E. subst h. exact (N t T).
    + exists k, h. auto.
Qed.
Lemma hashed_starts : forall d rgb, hashed d rgb -> exists t, d = 35 :: t.
Proof. intros d rgb [k [h [-> _]]]. cbn [repeat app]. eauto. Qed.
(** numbers of two hexadecimal characters *)
Lemma numeral_bound : forall base s ds, (base = 10 \/ base = 16) -> numeral base s ds ->
  (List.length ds <= List.length s)%nat /\ Forall (fun d => 0 <= d < base) ds.
Proof.
  intros base s ds B H. induction H as [c d H|c d u s ds H U N [IH1 IH2]].
  - split; [cbn; lia|]. constructor; [|constructor]. destruct H as [[R _]|[-> H]]; lia.
  - split; [cbn [List.length]; rewrite app_length; lia|]. constructor; [|exact IH2]. destruct H as [[R _]|[-> H]]; lia.
Qed.
Lemma int16_two : forall p q a, int_text 16 [p; q] a -> -255 <= a <= 255.
Proof.
  intros p q a [l [sg [k [pre [body [ds [r [_ [S [_ [N [_ [E ->]]]]]]]]]]]]].
  destruct (numeral_bound 16 body ds (or_intror eq_refl) N) as [L F].
  assert (LB : (List.length body <= 2)%nat).
  { apply (f_equal (@List.length Z)) in E. rewrite !app_length in E. cbn [List.length] in E. lia. }
  assert (V : 0 <= value 16 ds <= 255).
  { unfold value. destruct ds as [|x [|y [|]]]; cbn [List.length fold_left] in *; [lia| | |lia].
    - inversion F; subst. lia.
    - inversion F as [|? ? F1 F2]; subst. inversion F2; subst. lia. }
  destruct S as [[_ ->]|[_ ->]]; lia.
Qed.
Lemma alpha_byte : forall a, -255 <= a <= 255 -> holds (fdiv (fofZ a) (fofZ 255)) (IZR a / 255).
Proof.
  intros a H. assert (B : (Rabs (IZR a / 255) <= 1)%R).
  { apply Rabs_le. assert (-255 <= IZR a <= 255)%R by (split; apply IZR_le; lia). lra. }
  assert (O : (1 <= big)%R) by (unfold big; change 1%R with (bpow radix2 0); apply bpow_le; lia).
  assert (F : fin (fdiv (fofZ a) (fofZ 255)) (rnd (IZR a / 255))).
  { apply fdiv_spec; [apply fofZ_spec; lia|apply fofZ_spec; lia|lra|lra]. }
  left. split; [|exact F]. change (nearest (IZR a / 255)) with (rnd (IZR a / 255)).
  eapply Rle_lt_trans; [apply (rnd_big (IZR a / 255)); lra|]. unfold big. now apply bpow_lt.
Qed.

(** * Fields *)
Lemma semi_join : forall l, semi l = join [59] l.
Proof.
  induction l as [|a [|b l] IH]; [reflexivity|reflexivity|]. change (semi (a :: b :: l)) with (a ++ 59 :: semi (b :: l)).
  rewrite IH. reflexivity.
Qed.
Lemma fields_spec : forall d l, fields d l <-> split_on 59 d = l.
Proof.
  intros d l. unfold fields. rewrite semi_join. split.
  - intros [N [F ->]]. now apply split_on_join.
  - intros <-. split; [apply split_on_ne|]. split; [apply split_on_no_sep|]. symmetry. apply join_split_on.
Qed.
Lemma last_of_app : forall l t, last_of (l ++ [t]) = t.
Proof. intros. unfold last_of. apply last_last. Qed.
Lemma alpha_fwd : forall parts a0 v0 a core, parts <> [] -> holds a0 v0 ->
  (if contains_char 46 (last_of parts) then bindr (py_float (last_of parts)) (fun a => Ok (a, removelast parts)) else Ok (a0, parts)) = Ok (a, core) ->
  core = [] \/ exists v, takes_alpha parts v0 core v /\ holds a v.
Proof.
  intros parts a0 v0 a core N H E. destruct (exists_last N) as [q [t ->]]. rewrite last_of_app in E. rewrite removelast_last in E.
  destruct (contains_char 46 t) eqn:C.
  - apply contains_char_in in C. destruct (py_float t) as [x|] eqn:P; [|discriminate]. cbn [bindr] in E. injection E as <- <-.
    destruct (py_float_reads _ _ P) as [v [T V]]. destruct q as [|q0 q]; [now left|right]. exists v. split; [|exact V].
    left. exists t. repeat split; auto. discriminate.
  - injection E as <- <-. right. exists v0. split; [|exact H]. right. repeat split; auto. exists q, t. split; [reflexivity|].
    intro I. apply contains_char_in in I. congruence.
Qed.
Lemma alpha_bwd : forall parts a0 v0 core v, holds a0 v0 -> takes_alpha parts v0 core v -> exists a,
  (if contains_char 46 (last_of parts) then bindr (py_float (last_of parts)) (fun a => Ok (a, removelast parts)) else Ok (a0, parts)) = Ok (a, core) /\
  holds a v /\ core <> [].
Proof.
  intros parts a0 v0 core v H [[t [-> [N [I T]]]]|[-> [-> [q [t [-> I]]]]]].
  - rewrite last_of_app, removelast_last, (proj2 (contains_char_in 46 t) I). destruct (py_float_means _ _ T) as [a [-> A]].
    exists a. cbn [bindr]. auto.
  - rewrite last_of_app. destruct (contains_char 46 t) eqn:C; [apply contains_char_in in C; contradiction|].
    exists a0. split; [reflexivity|]. split; [exact H|]. intro X. apply app_eq_nil in X. destruct X as [_ X]. discriminate.
Qed.

(** * Ansi bodies *)
Definition ansi_body (ansi : str) (alpha : f64) (parts : list str) : res color :=
  match parts with
  | [] => Err IndexError
  | p0 :: _ =>
      let is_background := startswith (lit "4") p0 in
      if 3 <? zlen parts then
        let two := firstn 2 parts in
        if negb ((str_eqb (nth 0 two []) (lit "38") || str_eqb (nth 0 two []) (lit "48"))
                 && str_eqb (nth 1 two []) (lit "2"))
        then Err ValueError
        else match nth_error parts 2, nth_error parts 3, nth_error parts 4 with
             | Some a, Some b, c =>
                 let* r := py_int a in
                 let* g := py_int b in
                 match c with
                 | None => Err IndexError
                 | Some c =>
                     let* bl := py_int c in
                     new_color (r, g, bl) is_background alpha TRUE_COLOR
                       (Some (join (lit ";") parts))
                 end
             | _, _, _ => Err IndexError
             end
      else
        let* index := py_int (last_of parts) in
        let '(space, index, is_background) :=
          if zlen parts =? 1 then
            let '(index, is_background) :=
              if (30 <=? index) && (index <? 38) then (index - 30, is_background)
              else if (40 <=? index) && (index <? 48) then (index - 40, true)
              else (index, is_background) in
            let '(index, is_background) :=
              if (90 <=? index) && (index <? 98) then (index - 82, is_background)
              else if (100 <=? index) && (index <? 108) then (index - 92, true)
              else (index, is_background) in
            (STANDARD, index, is_background)
          else (EIGHT_BIT, index, is_background) in
        if negb ((0 <=? index) && (index <? 256)) then Err ValueError
        else match nth_error COLOR_TABLE (Z.to_nat index) with
             | Some rgb => new_color rgb is_background alpha space (Some ansi)
             | None => Err IndexError
             end
  end.
Lemma from_ansi_body : forall s a, from_ansi s a =
  bindr (if contains_char 46 (last_of (split_on 59 s))
         then bindr (py_float (last_of (split_on 59 s))) (fun a => Ok (a, removelast (split_on 59 s))) else Ok (a, split_on 59 s))
    (fun ap => let '(alpha, parts) := ap in ansi_body s alpha parts).
Proof. reflexivity. Qed.
Lemma four_spec : forall p, startswith (lit "4") p = true <-> four p.
Proof.
  intro p. change (lit "4") with [52]. unfold four. destruct p as [|c p]; cbn [startswith].
  - split; [discriminate|]. intros [t T]. discriminate.
  - rewrite andb_true_r. rewrite Z.eqb_eq. split; [intros <-; eauto|]. intros [t T]. congruence.
Qed.
Lemma palette_at : forall i, 0 <= i < 256 -> nth_error COLOR_TABLE (Z.to_nat i) = Some (palette_entry i) /\ valid_rgb (palette_entry i) = true.
Proof.
  intros i H. destruct (table_spec i H) as [r [g [b [E [R [G [B P]]]]]]]. rewrite E, <- P. split; [reflexivity|].
  apply valid_rgb_spec. unfold byte. unfold channel_ok in *. auto.
Qed.

(** what a single number selects *)
Definition select (n : Z) (b : bool) : Z * bool :=
  let '(index, is_background) :=
    if (30 <=? n) && (n <? 38) then (n - 30, b)
    else if (40 <=? n) && (n <? 48) then (n - 40, true)
    else (n, b) in
  if (90 <=? index) && (index <? 98) then (index - 82, is_background)
  else if (100 <=? index) && (index <? 108) then (index - 92, true)
  else (index, is_background).
Lemma select_spec : forall n b, let '(i, bg) := select n b in
  (0 <= i < 256 <-> sgr_entry n i) /\ (forall j, sgr_entry n j -> j = i) /\ (0 <= i < 256 -> (bg = true <-> 40 <= n <= 47 \/ 100 <= n <= 107 \/ b = true)).
Proof.
  intros n b. unfold select, sgr_entry, byte.
  destruct ((30 <=? n) && (n <? 38)) eqn:C1; [|destruct ((40 <=? n) && (n <? 48)) eqn:C2];
  match goal with |- context [(90 <=? ?x) && (?x <? 98)] => destruct ((90 <=? x) && (x <? 98)) eqn:C3; [|destruct ((100 <=? x) && (x <? 108)) eqn:C4] end;
  try (exfalso; lia); (split; [|split]); try (intros; lia); intros; (split; [intro B|intros [?|[?|B]]]); subst; auto; try lia.
Qed.
Lemma body_one : forall s a p, ansi_body s a [p] =
  bindr (py_int p) (fun n => let '(i, bg) := select n (startswith (lit "4") p) in
    if negb ((0 <=? i) && (i <? 256)) then Err ValueError
    else match nth_error COLOR_TABLE (Z.to_nat i) with Some rgb => new_color rgb bg a STANDARD (Some s) | None => Err IndexError end).
Proof.
  intros s a p. unfold ansi_body. change (3 <? zlen [p]) with false. change (zlen [p] =? 1) with true. change (last_of [p]) with p.
  cbv iota zeta. destruct (py_int p) as [n|]; [|reflexivity]. cbn [bindr]. unfold select.
  destruct ((30 <=? n) && (n <? 38)); [|destruct ((40 <=? n) && (n <? 48))];
  match goal with |- context [(90 <=? ?x) && (?x <? 98)] => destruct ((90 <=? x) && (x <? 98)); [|destruct ((100 <=? x) && (x <? 108))] end; reflexivity.
Qed.
Lemma body_few : forall s a p0 m p, (List.length m <= 1)%nat -> ansi_body s a (p0 :: m ++ [p]) =
  bindr (py_int p) (fun i => if negb ((0 <=? i) && (i <? 256)) then Err ValueError
    else match nth_error COLOR_TABLE (Z.to_nat i) with Some rgb => new_color rgb (startswith (lit "4") p0) a EIGHT_BIT (Some s) | None => Err IndexError end).
Proof. intros s a p0 [|x [|y m]] p L; [reflexivity|reflexivity|cbn in L; lia]. Qed.
Lemma body_fwd : forall s a parts c, ansi_body s a parts = Ok c -> ansi parts (c_rgb c) (c_bg c) (c_origin c) /\ c_alpha c = a.
Proof.
  intros s a parts c H. destruct parts as [|p0 rest]; [discriminate|].
  destruct rest as [|p1 rest].
  { rewrite body_one in H. apply bind_ok in H. destruct H as [n [P H]]. pose proof (select_spec n (startswith (lit "4") p0)) as S.
    destruct (select n (startswith (lit "4") p0)) as [i bg]. destruct ((0 <=? i) && (i <? 256)) eqn:R; [|discriminate]. cbn [negb] in H.
    assert (RI : 0 <= i < 256) by lia. destruct S as [S1 [S2 S3]]. destruct (palette_at i RI) as [E V]. rewrite E in H.
    apply new_color_ok in H. destruct H as [_ ->]. cbn [c_rgb c_bg c_origin c_alpha]. split; [|reflexivity].
    rewrite py_int_spec in P. apply (ansi_one p0 n i bg); [exact P|now apply S1|]. rewrite (S3 RI), four_spec. tauto. }
  destruct (3 <? zlen (p0 :: p1 :: rest)) eqn:L.
  - destruct rest as [|p2 [|p3 rest]]; try discriminate. unfold ansi_body in H. rewrite L in H. cbv zeta in H.
    cbn [firstn nth nth_error] in H.
    destruct (negb _) eqn:N; [discriminate|]. apply negb_false_iff, andb_true_iff in N. destruct N as [N1 N2].
    apply str_eqb_eq in N2. subst p1. apply orb_true_iff in N1.
    apply bind_ok in H. destruct H as [r [R H]]. apply bind_ok in H. destruct H as [g [G H]].
    destruct rest as [|p4 rest]; [discriminate|]. cbn [nth_error] in H.
    apply bind_ok in H. destruct H as [b [B H]]. apply new_color_ok in H. destruct H as [V ->]. apply valid_rgb_spec in V.
    cbn [c_rgb c_bg c_origin c_alpha]. split; [|reflexivity]. rewrite py_int_spec in R, G, B.
    assert (E : p0 = if startswith (lit "4") p0 then lit "48" else lit "38").
    { destruct N1 as [N1|N1]; apply str_eqb_eq in N1; subst p0; reflexivity. }
    rewrite E at 1. apply ansi_rgb; tauto.
  - assert (X : exists m p, p1 :: rest = m ++ [p] /\ (List.length m <= 1)%nat).
    { destruct rest as [|p2 rest]; [exists [], p1; cbn; split; [reflexivity|lia]|].
      destruct rest as [|p3 rest]; [exists [p1], p2; cbn; split; [reflexivity|lia]|]. exfalso.
      apply Z.ltb_ge in L. rewrite !zlen_cons in L. pose proof (zlen_nonneg _ rest). lia. }
    destruct X as [m [p [E LM]]]. rewrite E in *. rewrite body_few in H by exact LM. apply bind_ok in H. destruct H as [i [P H]].
    destruct ((0 <=? i) && (i <? 256)) eqn:R; [|discriminate]. cbn [negb] in H. assert (RI : 0 <= i < 256) by lia.
    destruct (palette_at i RI) as [EE V]. rewrite EE in H. apply new_color_ok in H. destruct H as [_ ->].
    cbn [c_rgb c_bg c_origin c_alpha]. split; [|reflexivity]. rewrite py_int_spec in P.
    apply ansi_palette; [exact LM|exact P|unfold byte; lia|]. apply four_spec.
Qed.
Lemma body_bwd : forall s a parts rgb bg sp, ansi parts rgb bg sp -> exists k, ansi_body s a parts = Ok (mkColor rgb bg a sp k).
Proof.
  intros s a parts rgb bg sp H. destruct H as [p n i bg P S B|p0 m p i bg L P R B|bg pr pg pb r g b rest R G B VR VG VB].
  - exists (Some s). rewrite body_one. rewrite <- py_int_spec in P. rewrite P. cbn [bindr].
    pose proof (select_spec n (startswith (lit "4") p)) as Q. destruct (select n (startswith (lit "4") p)) as [j bg'].
    destruct Q as [Q1 [Q2 Q3]]. pose proof (Q2 _ S). subst j. assert (RI : 0 <= i < 256) by now apply Q1.
    replace ((0 <=? i) && (i <? 256)) with true by lia. cbn [negb]. destruct (palette_at i RI) as [-> V].
    assert (E : bg' = bg).
    { specialize (Q3 RI). rewrite four_spec in Q3. destruct bg', bg; auto; [symmetry; apply B|apply Q3]; tauto. }
    rewrite E. apply new_color_ok. split; [exact V|reflexivity].
  - exists (Some s). rewrite body_few by exact L. rewrite <- py_int_spec in P. rewrite P. cbn [bindr]. unfold byte in R.
    replace ((0 <=? i) && (i <? 256)) with true by lia. cbn [negb]. assert (RI : 0 <= i < 256) by lia. destruct (palette_at i RI) as [-> V].
    assert (E : startswith (lit "4") p0 = bg).
    { pose proof (four_spec p0) as F. destruct (startswith (lit "4") p0), bg; auto; [symmetry; apply B|apply F]; tauto. }
    rewrite E. apply new_color_ok. split; [exact V|reflexivity].
  - rewrite <- py_int_spec in R, G, B.
    exists (Some (join (lit ";") ((if bg then lit "48" else lit "38") :: lit "2" :: pr :: pg :: pb :: rest))).
    unfold ansi_body. replace (3 <? zlen _) with true by (symmetry; apply Z.ltb_lt; rewrite !zlen_cons; pose proof (zlen_nonneg _ rest); lia). cbv zeta. cbn [firstn nth nth_error].
    replace (negb _) with false by (destruct bg; reflexivity). rewrite R, G, B. cbn [bindr].
    replace (startswith (lit "4") (if bg then lit "48" else lit "38")) with bg by (destruct bg; reflexivity).
    apply new_color_ok. split; [|reflexivity]. apply valid_rgb_spec. auto.
Qed.
Lemma from_ansi_reads : forall s a0 v0 c, holds a0 v0 -> from_ansi s a0 = Ok c ->
  exists l v, takes_alpha (split_on 59 s) v0 l v /\ ansi l (c_rgb c) (c_bg c) (c_origin c) /\ holds (c_alpha c) v.
Proof.
  intros s a0 v0 c H E. rewrite from_ansi_body in E. apply bind_ok in E. destruct E as [[a l] [A E]].
  destruct (body_fwd _ _ _ _ E) as [B C]. destruct (alpha_fwd _ _ _ _ _ (split_on_ne 59 s) H A) as [->|[v [T V]]]; [inversion B|].
  exists l, v. rewrite C. auto.
Qed.
Lemma from_ansi_means : forall s a0 v0 l v rgb bg sp, holds a0 v0 -> takes_alpha (split_on 59 s) v0 l v -> ansi l rgb bg sp ->
  exists a k, from_ansi s a0 = Ok (mkColor rgb bg a sp k) /\ holds a v.
Proof.
  intros s a0 v0 l v rgb bg sp H T A. destruct (alpha_bwd _ _ _ _ _ H T) as [a [E [V _]]]. destruct (body_bwd s a l rgb bg sp A) as [k K].
  exists a, k. rewrite from_ansi_body, E. cbn [bindr]. auto.
Qed.

(** * Descriptions *)
Lemma named_table : forall n h, In (n, h) NAMED_COLORS -> dict_get NAMED_COLORS n = Some h /\ ~ In 46 n /\ (forall t, n <> 35 :: t) /\
  exists t, h = 35 :: t /\ (forall u, t <> 35 :: u).
Proof.
  assert (F : forallb (fun kv => match dict_get NAMED_COLORS (fst kv) with Some h => str_eqb h (snd kv) | None => false end &&
     negb (contains_char 46 (fst kv)) && match fst kv with c :: _ => negb (c =? 35) | [] => false end &&
     match snd kv with c :: d :: _ => (c =? 35) && negb (d =? 35) | _ => false end) NAMED_COLORS = true) by (vm_compute; reflexivity).
  rewrite forallb_forall in F. intros n h I. specialize (F _ I). cbn [fst snd] in F. rewrite !andb_true_iff in F. destruct F as [[[F1 F2] F3] F4].
  destruct (dict_get NAMED_COLORS n) as [h'|] eqn:D; [|discriminate]. apply str_eqb_eq in F1. subst h'. split; [reflexivity|].
  split; [intro X; apply contains_char_in in X; rewrite X in F2; discriminate|].
  split; [intros t ->; discriminate|]. destruct h as [|c [|d h]]; try discriminate. apply andb_true_iff in F4. destruct F4 as [F4 F5].
  apply Z.eqb_eq in F4. subst c. exists (d :: h). split; [reflexivity|]. intros u E. injection E as -> _. discriminate.
Qed.
Lemma color_of_rest : forall d, startswith (lit "#") d = false -> color_of (DStr d) =
  bindr (if contains_char 46 (last_of (split_on 59 d))
         then bindr (py_float (last_of (split_on 59 d))) (fun a => Ok (a, removelast (split_on 59 d))) else Ok (fone, split_on 59 d))
    (fun ap => let '(a, l) := ap in
       match dict_get NAMED_COLORS (semi l) with Some h => from_hex h a | None => from_ansi (semi l) a end).
Proof.
  intros d S. unfold color_of. rewrite S. cbv zeta. destruct (contains_char 46 (last_of (split_on 59 d))) eqn:C.
  - destruct (py_float (last_of (split_on 59 d))) as [a|]; [|reflexivity]. cbn [bindr]. rewrite semi_join. reflexivity.
  - cbn [bindr]. rewrite semi_join, join_split_on. reflexivity.
Qed.
Lemma starts_hash : forall d, startswith (lit "#") d = true <-> exists t, d = 35 :: t.
Proof.
  intro d. change (lit "#") with [35]. destruct d as [|c d]; cbn [startswith].
  - split; [discriminate|]. intros [t T]. discriminate.
  - rewrite andb_true_r, Z.eqb_eq. split; [intros <-; eauto|]. intros [t T]. congruence.
Qed.
Lemma slice_two : forall s, zlen s = 9 -> exists p q, s = slice None (Some (-2)) s ++ [p; q] /\ slice (Some (-2)) None s = [p; q].
Proof.
  intros s L. assert (LL : List.length s = 9%nat) by (unfold zlen in L; lia).
  destruct s as [|x1 [|x2 [|x3 [|x4 [|x5 [|x6 [|x7 [|x8 [|x9 [|]]]]]]]]]]; try discriminate. exists x8, x9. split; reflexivity.
Qed.
Lemma color_reads : forall d c, color_of (DStr d) = Ok c ->
  exists v, describes d (c_rgb c) (c_bg c) (c_origin c) v /\ holds (c_alpha c) v.
Proof.
  intros d c H. destruct (startswith (lit "#") d) eqn:S.
  - cbn [color_of] in H. rewrite S in H. apply starts_hash in S. destruct (zlen d =? 9) eqn:L.
    + apply Z.eqb_eq in L. destruct (slice_two d L) as [p [q [E Q]]]. rewrite Q in H. apply bind_ok in H. destruct H as [a [A H]].
      apply from_hex_spec in H. destruct H as [rgb [T ->]]. cbn [c_rgb c_bg c_origin c_alpha]. rewrite py_int16_spec in A.
      exists (IZR a / 255)%R. split; [|apply alpha_byte; now apply (int16_two p q)].
      apply (by_hex_alpha d (slice None (Some (-2)) d) p q); auto; [unfold zlen in L; lia|].
      apply hashed_spec; [|exact T]. destruct S as [t S]. clear - E S L.
      destruct (slice None (Some (-2)) d) as [|x l].
      * exfalso. rewrite E in L. discriminate.
      * rewrite E in S. injection S as -> _. eauto.
    + apply Z.eqb_neq in L. apply from_hex_spec in H. destruct H as [rgb [T ->]]. cbn [c_rgb c_bg c_origin c_alpha].
      exists 1%R. split; [|exact holds_one]. apply by_hex; [unfold zlen in L; lia|]. now apply hashed_spec.
  - rewrite color_of_rest in H by exact S. apply bind_ok in H. destruct H as [[a l] [A H]].
    assert (NS : forall t, d <> 35 :: t) by (intros t ->; discriminate).
    destruct (alpha_fwd _ _ _ _ _ (split_on_ne 59 d) holds_one A) as [->|[v [T V]]].
    { cbn in H. discriminate. }
    destruct (dict_get NAMED_COLORS (semi l)) as [h|] eqn:D.
    + apply dict_get_in in D. destruct (named_table _ _ D) as [_ [_ [_ [t [-> N]]]]]. apply from_hex_spec in H. destruct H as [rgb [TR ->]].
      assert (EL : lstrip_by (Z.eqb 35) (35 :: t) = t) by exact (lstrip_repeat 1 t N).
      rewrite EL in TR. cbn [c_rgb c_bg c_origin c_alpha]. exists v. split; [|exact V].
      apply (by_name d (split_on 59 d) l v t); auto. now apply fields_spec.
    + destruct (from_ansi_reads _ _ _ _ V H) as [l2 [v2 [T2 [AN V2]]]]. exists v2. split; [|exact V2].
      assert (SP : split_on 59 (semi l) = l).
      { apply fields_spec. pose proof (split_on_no_sep 59 d) as F. destruct T as [[t [E [N _]]]|[-> _]].
        - rewrite E in F. apply Forall_app in F. split; [exact N|]. split; [tauto|reflexivity].
        - split; [apply split_on_ne|]. split; [exact F|reflexivity]. }
      rewrite SP in T2. apply (by_ansi d (split_on 59 d) l l2 v v2); auto; [now apply fields_spec|].
      intros [h I]. destruct (named_table _ _ I) as [X _]. congruence.
Qed.
Lemma color_means : forall d rgb bg sp v, describes d rgb bg sp v ->
  exists c, color_of (DStr d) = Ok c /\ c_rgb c = rgb /\ c_bg c = bg /\ c_origin c = sp /\ holds (c_alpha c) v.
Proof.
  intros d rgb bg sp v H. destruct H as [rgb L H|d' p q rgb a E L H A|l l1 v h rgb F T N H|l l1 l2 v1 v rgb bg sp NH F T N T2 A].
  - pose proof (hashed_starts _ _ H) as S. apply hashed_spec in H; [|exact S]. eexists. split.
    + unfold color_of. rewrite (proj2 (starts_hash d) S). replace (zlen d =? 9) with false by (symmetry; apply Z.eqb_neq; unfold zlen; lia).
      apply from_hex_spec. exists rgb. split; [exact H|reflexivity].
    + cbn [c_rgb c_bg c_origin c_alpha]. repeat split. exact holds_one.
  - pose proof (hashed_starts _ _ H) as S'. assert (S : exists t, d = 35 :: t) by (destruct S' as [t ->]; subst d; cbn [app]; eauto).
    apply hashed_spec in H; [|exact S']. assert (LZ : zlen d = 9) by (unfold zlen; lia).
    destruct (slice_two d LZ) as [p' [q' [E' Q]]]. assert (EQ : d' = slice None (Some (-2)) d /\ [p; q] = [p'; q']).
    { rewrite E' in E at 1. symmetry in E. change [p; q] with ([p] ++ [q]) in E. change [p'; q'] with ([p'] ++ [q']) in E. rewrite !app_assoc in E.
      apply app_inj_tail in E. destruct E as [E ->]. apply app_inj_tail in E. destruct E as [E ->]. auto. }
    destruct EQ as [-> EQ]. injection EQ as <- <-. eexists. split.
    + unfold color_of. rewrite (proj2 (starts_hash d) S), LZ. change (9 =? 9) with true. cbv iota. rewrite Q.
      pose proof A as A'. rewrite <- py_int16_spec in A'. rewrite A'. cbn [bindr]. apply from_hex_spec. exists rgb. split; [exact H|reflexivity].
    + cbn [c_rgb c_bg c_origin c_alpha]. repeat split. apply alpha_byte. now apply (int16_two p q).
  - assert (F' := F). apply fields_spec in F. destruct (named_table _ _ N) as [D [_ [NN [t [E NT]]]]]. injection E as <-.
    assert (S : startswith (lit "#") d = false).
    { destruct (startswith (lit "#") d) eqn:S; [|reflexivity]. exfalso. apply starts_hash in S. destruct S as [t S].
      assert (X : exists u, semi l1 = 35 :: u).
      { destruct F' as [_ [_ F']]. destruct T as [[w [-> [NE _]]]|[-> _]]; [|exists t; congruence].
        destruct l1 as [|x l1]; [congruence|]. rewrite S in F'. destruct l1 as [|y l1].
        - cbn [app semi] in F'. destruct x as [|c x]; [discriminate F'|]. injection F' as <- _. cbn. eauto.
        - cbn [app] in F'. change (semi (x :: y :: l1 ++ [w])) with (x ++ 59 :: semi (y :: l1 ++ [w])) in F'.
          change (semi (x :: y :: l1)) with (x ++ 59 :: semi (y :: l1)). destruct x as [|c x]; [discriminate F'|]. injection F' as <- _. cbn. eauto. }
      destruct X as [u X]. exact (NN u X). }
    rewrite <- F in T. destruct (alpha_bwd _ _ _ _ _ holds_one T) as [a [EA [V _]]]. eexists. split.
    + rewrite color_of_rest by exact S. rewrite EA. cbn [bindr]. rewrite D. apply from_hex_spec. exists rgb.
      assert (EL : lstrip_by (Z.eqb 35) (35 :: h) = h) by exact (lstrip_repeat 1 h NT).
      rewrite EL. split; [exact H|reflexivity].
    + cbn [c_rgb c_bg c_origin c_alpha]. auto.
  - assert (F' := F). apply fields_spec in F. assert (S : startswith (lit "#") d = false).
    { destruct (startswith (lit "#") d) eqn:S; [|reflexivity]. exfalso. apply starts_hash in S. destruct S as [t S]. exact (NH t S). }
    assert (SP : split_on 59 (semi l1) = l1).
    { apply fields_spec. destruct F' as [NE [F' _]]. destruct T as [[t [E [N' _]]]|[-> _]].
      - rewrite E in F'. apply Forall_app in F'. split; [exact N'|]. split; [tauto|reflexivity].
      - split; [exact NE|]. split; [exact F'|reflexivity]. }
    rewrite <- F in T. destruct (alpha_bwd _ _ _ _ _ holds_one T) as [a [EA [V _]]].
    rewrite <- SP in T2. destruct (from_ansi_means _ _ _ _ _ _ _ _ V T2 A) as [a2 [k [E2 V2]]]. eexists. split.
    + rewrite color_of_rest by exact S. rewrite EA. cbn [bindr].
      destruct (dict_get NAMED_COLORS (semi l1)) as [h|] eqn:D; [|exact E2]. exfalso. apply N. exists h. now apply dict_get_in.
    + cbn [c_rgb c_bg c_origin c_alpha]. auto.
Qed.
