(** Proofs about input that is not UTF-8. *)
From Coq Require Import ZArith List Bool Lia String.
From Verif Require Import PyBase PyLemmas CoreModel KeySpec KeyProofs KeyProofs3 Utf8Spec.
Import ListNotations.
Open Scope Z_scope.
Open Scope list_scope.

Lemma byte_repr_shown : forall b, 0 <= b < 256 -> byte_shown b (byte_repr b).
Proof.
  intros b H. unfold byte_repr. destruct (b =? 39) eqn:E1; [apply Z.eqb_eq in E1; subst; constructor|]. apply Z.eqb_neq in E1.
  destruct (b =? 92) eqn:E2; [apply Z.eqb_eq in E2; subst; apply shown_backslash|]. apply Z.eqb_neq in E2.
  destruct (b =? 9) eqn:E3; [apply Z.eqb_eq in E3; subst; apply shown_tab|]. apply Z.eqb_neq in E3.
  destruct (b =? 10) eqn:E4; [apply Z.eqb_eq in E4; subst; apply shown_newline|]. apply Z.eqb_neq in E4.
  destruct (b =? 13) eqn:E5; [apply Z.eqb_eq in E5; subst; apply shown_return|]. apply Z.eqb_neq in E5.
  destruct ((32 <=? b) && (b <? 127)) eqn:E6.
  - apply andb_prop in E6. destruct E6 as [A B]. apply Z.leb_le in A. apply Z.ltb_lt in B. apply shown_printable; lia.
  - assert (R : 0 <= b < 32 \/ 127 <= b < 256) by (apply andb_false_iff in E6; destruct E6 as [A|A]; [apply Z.leb_gt in A|apply Z.ltb_ge in A]; lia).
    assert (D : forall d, 0 <= d < 16 -> lower_hex (hex_lower d) /\ hex_num (hex_lower d) = d).
    { intros d Hd. unfold hex_lower, lower_hex, hex_num. destruct (d <? 10) eqn:L; [apply Z.ltb_lt in L|apply Z.ltb_ge in L].
      - split; [lia|]. destruct (Z.leb_spec (48 + d) 57); lia.
      - split; [lia|]. destruct (Z.leb_spec (87 + d) 57); lia. }
    assert (Q1 : 0 <= b / 16 < 16) by (split; [apply Z.div_pos; lia|apply Z.div_lt_upper_bound; lia]).
    assert (Q2 : 0 <= b mod 16 < 16) by (apply Z.mod_pos_bound; lia).
    destruct (D _ Q1) as [A1 A2]. destruct (D _ Q2) as [B1 B2].
    change (lit "b'" ++ [92; 120; hex_lower (b / 16); hex_lower (b mod 16)] ++ lit "'") with (lit "b'\x" ++ [hex_lower (b / 16); hex_lower (b mod 16)] ++ lit "'").
    apply shown_hex; auto. rewrite A2, B2. pose proof (Z.div_mod b 16). lia.
Qed.

(** * Encodings *)
Lemma encode2 : forall a b, 194 <= a <= 223 -> 128 <= b <= 191 -> exists c, scalar c /\ utf8 c = [a; b].
Proof.
  intros a b Ha Hb. exists ((a - 192) * 64 + (b - 128)). split; [unfold scalar; lia|]. unfold utf8.
  rewrite (proj2 (Z.ltb_ge _ 128)), (proj2 (Z.ltb_lt _ 2048)) by lia. repeat f_equal; Z.to_euclidean_division_equations; lia.
Qed.
Lemma encode3 : forall a b c, 224 <= a <= 239 -> 128 <= b <= 191 -> (a = 224 -> 160 <= b) -> (a = 237 -> b <= 159) -> 128 <= c <= 191 ->
  exists d, scalar d /\ utf8 d = [a; b; c].
Proof.
  intros a b c Ha Hb H1 H2 Hc. exists ((a - 224) * 4096 + (b - 128) * 64 + (c - 128)). split; [unfold scalar; lia|]. unfold utf8.
  rewrite (proj2 (Z.ltb_ge _ 128)), (proj2 (Z.ltb_ge _ 2048)), (proj2 (Z.ltb_lt _ 65536)) by lia. repeat f_equal; Z.to_euclidean_division_equations; lia.
Qed.
Lemma encode4 : forall a b c d, 240 <= a <= 244 -> 128 <= b <= 191 -> (a = 240 -> 144 <= b) -> (a = 244 -> b <= 143) -> 128 <= c <= 191 -> 128 <= d <= 191 ->
  exists x, scalar x /\ utf8 x = [a; b; c; d].
Proof.
  intros a b c d Ha Hb H1 H2 Hc Hd. exists ((a - 240) * 262144 + (b - 128) * 4096 + (c - 128) * 64 + (d - 128)). split; [unfold scalar; lia|]. unfold utf8.
  rewrite (proj2 (Z.ltb_ge _ 128)), (proj2 (Z.ltb_ge _ 2048)), (proj2 (Z.ltb_ge _ 65536)) by lia. repeat f_equal; Z.to_euclidean_division_equations; lia.
Qed.
Lemma first_byte : forall a, 194 <= a <= 244 -> utf8_prefix [a].
Proof.
  intros a H. destruct (Z.le_gt_cases a 223) as [L|L].
  - destruct (encode2 a 128) as [c [S E]]; try lia. exists c, [128]. now split.
  - destruct (Z.le_gt_cases a 239) as [M|M].
    + destruct (encode3 a (if a =? 224 then 160 else 128) 128) as [c [S E]]; try lia; try (destruct (Z.eqb_spec a 224); lia). eexists c, _. split; [exact S|exact E].
    + destruct (encode4 a (if a =? 240 then 144 else 128) 128 128) as [c [S E]]; try lia; try (destruct (Z.eqb_spec a 240); lia). eexists c, _. split; [exact S|exact E].
Qed.
(** what a step accepts is the beginning of a character, given that what came before is *)
Lemma is_cont_iff : forall b, is_cont b = true <-> 128 <= b <= 191.
Proof. intro b. unfold is_cont. rewrite andb_true_iff, !Z.leb_le. lia. Qed.
Lemma second_ok_iff : forall a b, second_ok a b = true -> 128 <= b <= 191 /\ (a = 224 -> 160 <= b) /\ (a = 237 -> b <= 159) /\ (a = 240 -> 144 <= b) /\ (a = 244 -> b <= 143).
Proof.
  intros a b H. unfold second_ok in H. apply andb_prop in H. destruct H as [A B]. apply is_cont_iff in A. split; [exact A|].
  destruct (Z.eqb_spec a 224); [apply Z.leb_le in B; lia|]. destruct (Z.eqb_spec a 237); [apply Z.leb_le in B; lia|].
  destruct (Z.eqb_spec a 240); [apply Z.leb_le in B; lia|]. destruct (Z.eqb_spec a 244); [apply Z.leb_le in B; lia|]. lia.
Qed.
Lemma begins_iff : forall a b, begins_surrogate a b = true <-> a = 237 /\ 160 <= b <= 191.
Proof. intros a b. unfold begins_surrogate. rewrite !andb_true_iff, Z.eqb_eq, !Z.leb_le. tauto. Qed.
(** the shapes of encodings *)
Lemma utf8_cases : forall c, scalar c ->
  (exists a, utf8 c = [a] /\ 0 <= a < 128) \/
  (exists a b, utf8 c = [a; b] /\ 194 <= a <= 223 /\ 128 <= b <= 191) \/
  (exists a b d, utf8 c = [a; b; d] /\ 224 <= a <= 239 /\ 128 <= b <= 191 /\ (a = 224 -> 160 <= b) /\ (a = 237 -> b <= 159) /\ 128 <= d <= 191) \/
  (exists a b d f, utf8 c = [a; b; d; f] /\ 240 <= a <= 244 /\ 128 <= b <= 191 /\ (a = 240 -> 144 <= b) /\ (a = 244 -> b <= 143) /\ 128 <= d <= 191 /\ 128 <= f <= 191).
Proof.
  intros c S. unfold scalar in S. unfold utf8. destruct (Z.ltb_spec c 128); [left; exists c; split; [reflexivity|lia]|].
  destruct (Z.ltb_spec c 2048); [right; left; do 2 eexists; split; [reflexivity|]; Z.to_euclidean_division_equations; lia|].
  destruct (Z.ltb_spec c 65536); [right; right; left; do 3 eexists; split; [reflexivity|]; Z.to_euclidean_division_equations; lia|].
  right; right; right; do 4 eexists; split; [reflexivity|]; Z.to_euclidean_division_equations; lia.
Qed.
Lemma step_accepts : forall p b x, 0 <= b < 256 -> utf8_prefix p -> utf8_step p b = Some x -> (exists c, scalar c /\ utf8 c = p) \/ utf8_prefix (p ++ [b]) \/ surrogate_begin (p ++ [b]).
Proof.
  intros p b x Hb [c [t [S E]]] H. destruct (utf8_cases c S) as [[a [U R]]|[[a [d [U [R1 R2]]]]|[[a [d [f [U [R1 [R2 [R3 [R4 R5]]]]]]]]|[a [d [f [g [U [R1 [R2 [R3 [R4 [R5 R6]]]]]]]]]]]]]; rewrite U in E;
    (destruct p as [|p1 p];
      [right; unfold utf8_step in H; cbn [app] in H |- *; destruct (Z.ltb_spec b 128);
         [left; exists b, []; split; [unfold scalar; lia|unfold utf8; rewrite (proj2 (Z.ltb_lt b 128)) by lia; reflexivity]|];
         destruct ((194 <=? b) && (b <=? 244)) eqn:Q; [|discriminate H]; apply andb_prop in Q; destruct Q as [Q1 Q2]; apply Z.leb_le in Q1, Q2; left; apply first_byte; lia|]);
    cbn [app] in E; injection E as <- E.
  - left. symmetry in E. apply app_eq_nil in E. destruct E as [-> _]. exists c. now split.
  - destruct p as [|p2 p]; cbn [app] in E.
    + right. cbn [app]. unfold utf8_step in H. cbn [app] in H. rewrite (proj2 (Z.leb_le a 223)) in H by lia. destruct (is_cont b) eqn:Q; [|discriminate]. left. apply is_cont_iff in Q.
      destruct (encode2 a b R1 Q) as [y [Y1 Y2]]. exists y, []. now split.
    + injection E as <- E. left. symmetry in E. apply app_eq_nil in E. destruct E as [-> _]. exists c. now split.
  - destruct p as [|p2 p]; cbn [app] in E.
    + right. cbn [app]. unfold utf8_step in H. cbn [app] in H. rewrite (proj2 (Z.leb_gt a 223)) in H by lia. destruct (second_ok a b) eqn:Q;
      [|destruct (begins_surrogate a b) eqn:Q2; [|discriminate]; right; apply begins_iff in Q2; destruct Q2 as [-> Q2]; exists b; now split]. left. apply second_ok_iff in Q.
      destruct (encode3 a b 128) as [y [Y1 Y2]]; try lia. exists y, [128]. now split.
    + injection E as <- E. destruct p as [|p3 p]; cbn [app] in E.
      * right. cbn [app]. unfold utf8_step in H. cbn [app] in H. rewrite (proj2 (Z.leb_le a 239)) in H by lia. destruct (is_cont b) eqn:Q; [|discriminate]. left. apply is_cont_iff in Q.
        destruct (encode3 a d b) as [y [Y1 Y2]]; try lia. exists y, []. now split.
      * injection E as <- E. left. symmetry in E. apply app_eq_nil in E. destruct E as [-> _]. exists c. now split.
  - destruct p as [|p2 p]; cbn [app] in E.
    + right. cbn [app]. unfold utf8_step in H. cbn [app] in H. rewrite (proj2 (Z.leb_gt a 223)) in H by lia. destruct (second_ok a b) eqn:Q;
      [|destruct (begins_surrogate a b) eqn:Q2; [|discriminate]; apply begins_iff in Q2; lia]. left. apply second_ok_iff in Q.
      destruct (encode4 a b 128 128) as [y [Y1 Y2]]; try lia. exists y, [128; 128]. now split.
    + injection E as <- E. destruct p as [|p3 p]; cbn [app] in E.
      * right. cbn [app]. unfold utf8_step in H. cbn [app] in H. rewrite (proj2 (Z.leb_gt a 239)) in H by lia. destruct (is_cont b) eqn:Q; [|discriminate]. left. apply is_cont_iff in Q.
        destruct (encode4 a d b 128) as [y [Y1 Y2]]; try lia. exists y, [128]. now split.
      * injection E as <- E. destruct p as [|p4 p]; cbn [app] in E.
        -- right. cbn [app]. unfold utf8_step in H. cbn [app] in H. destruct (is_cont b) eqn:Q; [|discriminate]. left. apply is_cont_iff in Q.
           destruct (encode4 a d f b) as [y [Y1 Y2]]; try lia. exists y, []. now split.
        -- injection E as <- E. left. symmetry in E. apply app_eq_nil in E. destruct E as [-> _]. exists c. now split.
Qed.

(** * Reading *)
Lemma step_proper : forall c p x r, scalar c -> utf8 c = p ++ x :: r -> r <> [] -> utf8_step p x = Some ([], p ++ [x]).
Proof.
  intros c p x r S E N. destruct (utf8_cases c S) as [[a [U R]]|[[a [d [U [R1 R2]]]]|[[a [d [f [U [R1 [R2 [R3 [R4 R5]]]]]]]]|[a [d [f [g [U [R1 [R2 [R3 [R4 [R5 R6]]]]]]]]]]]]]; rewrite U in E.
  - destruct p as [|p1 p]; cbn [app] in E; injection E as E1 E2; [congruence|]. destruct p; discriminate.
  - destruct p as [|p1 p]; cbn [app] in E; injection E as <- E.
    + unfold utf8_step. cbn [app]. rewrite (proj2 (Z.ltb_ge a 128)), (proj2 (Z.leb_le 194 a)), (proj2 (Z.leb_le a 244)) by lia. reflexivity.
    + destruct p as [|p2 p]; cbn [app] in E; injection E as E1 E2; [congruence|destruct p; discriminate].
  - destruct p as [|p1 p]; cbn [app] in E; injection E as <- E.
    + unfold utf8_step. cbn [app]. rewrite (proj2 (Z.ltb_ge a 128)), (proj2 (Z.leb_le 194 a)), (proj2 (Z.leb_le a 244)) by lia. reflexivity.
    + destruct p as [|p2 p]; cbn [app] in E; injection E as <- E.
      * unfold utf8_step. cbn [app]. rewrite (proj2 (Z.leb_gt a 223)) by lia.
        assert (Q : second_ok a d = true); [|now rewrite Q].
        unfold second_ok. rewrite (proj2 (is_cont_iff d) R2). cbn [andb].
        destruct (Z.eqb_spec a 224); [apply Z.leb_le; lia|]. destruct (Z.eqb_spec a 237); [apply Z.leb_le; lia|].
        destruct (Z.eqb_spec a 240); [lia|]. destruct (Z.eqb_spec a 244); [lia|reflexivity].
      * destruct p as [|p3 p]; cbn [app] in E; injection E as E1 E2; [congruence|destruct p; discriminate].
  - destruct p as [|p1 p]; cbn [app] in E; injection E as <- E.
    + unfold utf8_step. cbn [app]. rewrite (proj2 (Z.ltb_ge a 128)), (proj2 (Z.leb_le 194 a)), (proj2 (Z.leb_le a 244)) by lia. reflexivity.
    + destruct p as [|p2 p]; cbn [app] in E; injection E as <- E.
      * unfold utf8_step. cbn [app]. rewrite (proj2 (Z.leb_gt a 223)) by lia.
        assert (Q : second_ok a d = true); [|now rewrite Q].
        unfold second_ok. rewrite (proj2 (is_cont_iff d) R2). cbn [andb].
        destruct (Z.eqb_spec a 224); [lia|]. destruct (Z.eqb_spec a 237); [lia|].
        destruct (Z.eqb_spec a 240); [apply Z.leb_le; lia|]. destruct (Z.eqb_spec a 244); [apply Z.leb_le; lia|reflexivity].
      * destruct p as [|p3 p]; cbn [app] in E; injection E as <- E.
        -- unfold utf8_step. cbn [app]. rewrite (proj2 (Z.leb_gt a 239)) by lia. now rewrite (proj2 (is_cont_iff f) R5).
        -- destruct p as [|p4 p]; cbn [app] in E; injection E as E1 E2; [congruence|destruct p; discriminate].
Qed.
Lemma read1_buffered : forall eof c p r rest, scalar c -> utf8 c = p ++ r -> r <> [] -> forall q s, p = q ++ s -> read1 eof q (s ++ rest) = read1 eof p rest.
Proof.
  intros eof c p r rest S E N q s. revert q. induction s as [|x s IH]; intros q H.
  - rewrite app_nil_r in H. now subst.
  - cbn [app read1]. rewrite (step_proper c q x (s ++ r) S); [|now rewrite E, H, <- app_assoc|destruct s; [exact N|discriminate]].
    apply IH. now rewrite <- app_assoc.
Qed.
Lemma utf8_prefix_free : forall c d p r, scalar c -> scalar d -> utf8 c = p ++ r -> utf8 d = p -> r = [].
Proof.
  intros c d p r Sc Sd Ec Ed. pose proof (read1_utf8 false d r Sd) as A. pose proof (read1_utf8 false c [] Sc) as B.
  rewrite app_nil_r, Ec in B. rewrite Ed in A. rewrite A in B. now injection B.
Qed.
Lemma step_rejects : forall c p r b, scalar c -> utf8 c = p ++ r -> r <> [] -> 0 <= b < 256 -> ~ utf8_prefix (p ++ [b]) -> ~ surrogate_begin (p ++ [b]) -> utf8_step p b = None.
Proof.
  intros c p r b S E N Hb H H'. destruct (utf8_step p b) as [x|] eqn:Q; [|reflexivity]. exfalso.
  destruct (step_accepts p b x Hb (ex_intro _ c (ex_intro _ r (conj S E))) Q) as [[d [Sd Ed]]|[P|P]]; [|now apply H|now apply H'].
  apply N. exact (utf8_prefix_free c d p r S Sd E Ed).
Qed.
Lemma read1_invalid : forall eof c p r b rest, scalar c -> utf8 c = p ++ r -> r <> [] -> 0 <= b < 256 -> ~ utf8_prefix (p ++ [b]) -> ~ surrogate_begin (p ++ [b]) ->
  read1 eof [] (p ++ b :: rest) = Returned (byte_repr b, p, rest).
Proof.
  intros. rewrite (read1_buffered eof c p r (b :: rest) H H0 H1 [] p eq_refl). cbn [read1]. now rewrite (step_rejects c p r b).
Qed.
Lemma read1_resume : forall eof c p r rest, scalar c -> utf8 c = p ++ r -> r <> [] -> read1 eof p (r ++ rest) = Returned ([c], [], rest).
Proof.
  intros eof c p r rest S E N. rewrite <- (read1_buffered eof c p r (r ++ rest) S E N [] p eq_refl). rewrite app_assoc, <- E. now apply read1_utf8.
Qed.
Lemma read1_shorter : forall eof input buf t b rest, read1 eof buf input = Returned (t, b, rest) -> (List.length rest < List.length input)%nat.
Proof.
  intros eof input. induction input as [|x input IH]; intros buf t b rest H; cbn [read1] in H; [destruct eof; discriminate|].
  cbn [List.length]. destruct (utf8_step buf x) as [[[|y u] b']|]; [apply IH in H; lia|injection H as _ _ <-; lia|injection H as _ _ <-; lia].
Qed.
Lemma ready_fuel : forall eof n input acc buf f1 f2, (List.length input <= n)%nat -> (List.length input <= f1)%nat -> (List.length input <= f2)%nat ->
  read_ready f1 eof acc buf input = read_ready f2 eof acc buf input.
Proof.
  intros eof n. induction n as [|n IH]; intros input acc buf f1 f2 H H1 H2.
  - destruct input; [|cbn in H; lia]. destruct f1, f2; reflexivity.
  - destruct input as [|x input]; [destruct f1, f2; reflexivity|]. cbn [List.length] in *. destruct f1 as [|f1]; [lia|]. destruct f2 as [|f2]; [lia|]. cbn [read_ready].
    destruct (read1 eof buf (x :: input)) as [[[t b] rest]| |] eqn:E; auto. pose proof (read1_shorter _ _ _ _ _ _ E) as L. cbn [List.length] in L. apply IH; lia.
Qed.
Definition ready (acc : str) (buf input : list Z) : outcome str := read_ready (List.length input) false acc buf input.
Lemma ready_step : forall acc buf input t b rest, read1 false buf input = Returned (t, b, rest) -> ready acc buf input = ready (acc ++ t) b rest.
Proof.
  intros acc buf input t b rest H. pose proof (read1_shorter _ _ _ _ _ _ H) as L. unfold ready. destruct input as [|x input]; [cbn in L; lia|].
  cbn [List.length read_ready]. rewrite H. cbn [List.length] in L. apply (ready_fuel false (List.length rest)); lia.
Qed.
Lemma ready_nil : forall acc buf, ready acc buf [] = Returned acc.
Proof. reflexivity. Qed.
Lemma burst_ready : forall input, input <> [] -> read_burst false input = ready [] [] input.
Proof.
  intros input N. unfold read_burst. destruct (read1 false [] input) as [[[t b] rest]| |] eqn:E.
  - now rewrite (ready_step [] [] input t b rest E).
  - unfold ready. destruct input; [congruence|]. cbn [List.length read_ready]. now rewrite E.
  - unfold ready. destruct input; [congruence|]. cbn [List.length read_ready]. now rewrite E.
Qed.
Lemma ready_chars : forall cs acc rest, Forall scalar cs -> ready acc [] (flat_map utf8 cs ++ rest) = ready (acc ++ cs) [] rest.
Proof.
  induction cs as [|c cs IH]; intros acc rest H; [now rewrite app_nil_r|]. inversion H as [|? ? Hc Hcs]; subst.
  cbn [flat_map]. rewrite <- app_assoc. rewrite (ready_step acc [] _ [c] [] (flat_map utf8 cs ++ rest) (read1_utf8 false c _ Hc)).
  rewrite IH by assumption. now rewrite <- app_assoc.
Qed.

Lemma getch_burst : forall M (cb : M -> M) mode raw input t, read_burst false input = Returned t ->
  getch cb mode true raw None sio_empty false input = (sio_empty, mode, Returned (decode_key raw t)).
Proof. intros M cb mode raw input t H. unfold getch, getch_posix. cbn [negb sio_text sio_empty]. now rewrite H. Qed.
Lemma getch_invalid : forall M (cb : M -> M) mode raw cs p b r c cs', Forall scalar cs -> Forall scalar cs' -> scalar c -> utf8 c = p ++ r -> r <> [] ->
  0 <= b < 256 -> ~ utf8_prefix (p ++ [b]) -> ~ surrogate_begin (p ++ [b]) ->
  exists t, byte_shown b t /\
  getch cb mode true raw None sio_empty false (flat_map utf8 cs ++ p ++ b :: r ++ flat_map utf8 cs') = (sio_empty, mode, Returned (decode_key raw (cs ++ t ++ c :: cs'))) /\
  getch cb mode true raw None sio_empty false (flat_map utf8 cs ++ p ++ [b]) = (sio_empty, mode, Returned (decode_key raw (cs ++ t))).
Proof.
  intros M cb mode raw cs p b r c cs' Hcs Hcs' Hc E N Hb H Hs. exists (byte_repr b). split; [now apply byte_repr_shown|]. split; apply getch_burst.
  - rewrite burst_ready by (destruct (flat_map utf8 cs), p; discriminate). rewrite ready_chars by assumption. cbn [app].
    rewrite (ready_step cs [] _ (byte_repr b) p (r ++ flat_map utf8 cs') (read1_invalid false c p r b _ Hc E N Hb H Hs)).
    rewrite (ready_step _ p _ [c] [] (flat_map utf8 cs') (read1_resume false c p r _ Hc E N)).
    pose proof (ready_chars cs' ((cs ++ byte_repr b) ++ [c]) [] Hcs') as R. rewrite app_nil_r in R. rewrite R, ready_nil. f_equal. now rewrite <- !app_assoc.
  - rewrite burst_ready by (destruct (flat_map utf8 cs), p; discriminate). rewrite ready_chars by assumption. cbn [app].
    rewrite (ready_step cs [] _ (byte_repr b) p [] (read1_invalid false c p r b [] Hc E N Hb H Hs)). now rewrite ready_nil.
Qed.
Lemma surrogate_dec : forall p, surrogate_begin p \/ ~ surrogate_begin p.
Proof.
  intro p. destruct p as [|a [|b [|]]]; try (right; intros [x [E _]]; discriminate E).
  destruct (begins_surrogate a b) eqn:Q; [left|right].
  - apply begins_iff in Q. destruct Q as [-> Q]. exists b. now split.
  - intros [x [E R]]. injection E as -> ->. rewrite (proj2 (begins_iff 237 x)) in Q by auto. discriminate.
Qed.
(** every input that is not UTF-8 has such a byte *)
Lemma invalid_split : forall input, Forall (fun b => 0 <= b < 256) input ->
  (exists cs p c r, Forall scalar cs /\ scalar c /\ utf8 c = p ++ r /\ r <> [] /\ input = flat_map utf8 cs ++ p) \/
  (exists cs p b c r rest, Forall scalar cs /\ scalar c /\ utf8 c = p ++ r /\ r <> [] /\ ~ utf8_prefix (p ++ [b]) /\ input = flat_map utf8 cs ++ p ++ b :: rest).
Proof.
  intros input B.
  assert (G : forall s q, Forall (fun b => 0 <= b < 256) s -> (exists c r, scalar c /\ utf8 c = q ++ r /\ r <> []) ->
    (exists cs p c r, Forall scalar cs /\ scalar c /\ utf8 c = p ++ r /\ r <> [] /\ q ++ s = flat_map utf8 cs ++ p) \/
    (exists cs p b c r rest, Forall scalar cs /\ scalar c /\ utf8 c = p ++ r /\ r <> [] /\ ~ utf8_prefix (p ++ [b]) /\ q ++ s = flat_map utf8 cs ++ p ++ b :: rest)).
  { induction s as [|x s IH]; intros q Bs [c [r [S [E N]]]].
    - left. exists [], q, c, r. rewrite app_nil_r. repeat split; auto.
    - inversion Bs as [|? ? Bx Bs']; subst.
      destruct (surrogate_dec (q ++ [x])) as [[bs [Es Rs]]|NS].
      { right. exists [], q, x, c, r, s. repeat split; auto. intros [d [u [Sd Ed]]]. rewrite Es in Ed.
        destruct (utf8_cases d Sd) as [X|[X|[X|X]]]; [destruct X as [a [U R]]|destruct X as [a [a2 [U R]]]|destruct X as [a [a2 [a3 [U R]]]]|destruct X as [a [a2 [a3 [a4 [U R]]]]]]; rewrite U in Ed; try discriminate Ed; injection Ed as ? ?; lia. }
      destruct (utf8_step q x) as [[t b']|] eqn:St.
      + assert (P : utf8_prefix (q ++ [x])).
        { destruct (step_accepts q x _ Bx (ex_intro _ c (ex_intro _ r (conj S E))) St) as [[d [Sd Ed]]|[P|P]]; [|exact P|contradiction].
          exfalso. apply N. exact (utf8_prefix_free c d q r S Sd E Ed). }
        destruct P as [d [u [Sd Ed]]]. destruct u as [|y u].
        * assert (E0 : exists c r, scalar c /\ utf8 c = [] ++ r /\ r <> []) by (exists 0, [0]; repeat split; [unfold scalar; lia|discriminate]).
          rewrite app_nil_r in Ed.
          destruct (IH [] Bs' E0) as [[cs [p [c1 [r1 [A1 [A2 [A3 [A4 A5]]]]]]]]|[cs [p [b [c1 [r1 [rest [A1 [A2 [A3 [A4 [A5 A6]]]]]]]]]]]]; cbn [app] in *.
          -- left. exists (d :: cs), p, c1, r1. repeat split; auto. cbn [flat_map]. rewrite Ed, A5, <- !app_assoc. reflexivity.
          -- right. exists (d :: cs), p, b, c1, r1, rest. repeat split; auto. cbn [flat_map]. rewrite Ed, A6, <- !app_assoc. reflexivity.
        * assert (EQ : exists c r, scalar c /\ utf8 c = (q ++ [x]) ++ r /\ r <> []) by (exists d, (y :: u); repeat split; auto; discriminate).
          destruct (IH (q ++ [x]) Bs' EQ) as [A|A]; rewrite <- app_assoc in A; [now left|now right].
      + right. exists [], q, x, c, r, s. repeat split; auto. intros [d [u [Sd Ed]]]. destruct u as [|y u].
        * pose proof (read1_utf8 false d [] Sd) as RD. rewrite app_nil_r in Ed. rewrite app_nil_r, Ed in RD.
          rewrite (read1_buffered false c q r [x] S E N [] q eq_refl) in RD. cbn [read1] in RD. rewrite St in RD. injection RD as R1 R2. clear R1.
          subst q. cbn [app] in *. destruct (utf8_cases d Sd) as [X|[X|[X|X]]]; [destruct X as [a [U R]]|destruct X as [a [a2 [U R]]]|destruct X as [a [a2 [a3 [U R]]]]|destruct X as [a [a2 [a3 [a4 [U R]]]]]]; rewrite U in Ed; try discriminate Ed.
          injection Ed as ->. rewrite utf8_step_1 in St by lia. discriminate.
        * rewrite <- app_assoc in Ed. cbn [app] in Ed. rewrite (step_proper d q x (y :: u) Sd Ed) in St by discriminate. discriminate. }
  destruct (G input [] B) as [A|A]; [exists 0, [0]; repeat split; [unfold scalar; lia|discriminate]|now left|now right].
Qed.

(** * Every input *)
Definition pending (p : list Z) : Prop := (exists c r, scalar c /\ utf8 c = p ++ r /\ r <> []) \/ surrogate_begin p.
Lemma not_pending_char : forall c p, scalar c -> utf8 c = p -> ~ surrogate_begin p.
Proof.
  intros c p S E [b [Eb R]]. subst p. destruct (utf8_cases c S) as [X|[X|[X|X]]]; [destruct X as [a [U R']]|destruct X as [a [a2 [U R']]]|destruct X as [a [a2 [a3 [U R']]]]|destruct X as [a [a2 [a3 [a4 [U R']]]]]]; rewrite U in Eb; try discriminate Eb; injection Eb as ? ?; lia.
Qed.
Lemma surrogate_stuck : forall p b, surrogate_begin p -> utf8_step p b = None /\ ~ utf8_prefix (p ++ [b]) /\ ~ surrogate_begin (p ++ [b]).
Proof.
  intros p b [d [-> R]]. split; [|split].
  - unfold utf8_step. cbn [app]. change (237 <=? 239) with true. cbn [andb]. rewrite (proj2 (begins_iff 237 d)) by auto. cbn [negb]. now rewrite andb_false_r.
  - intros [c [t [S E]]]. destruct (utf8_cases c S) as [X|[X|[X|X]]]; [destruct X as [a [U R']]|destruct X as [a [a2 [U R']]]|destruct X as [a [a2 [a3 [U R']]]]|destruct X as [a [a2 [a3 [a4 [U R']]]]]]; rewrite U in E; try discriminate E; injection E as ? ?; lia.
  - intros [x [E _]]. discriminate E.
Qed.
Lemma step_class : forall p b, 0 <= b < 256 -> pending p ->
  (exists c, scalar c /\ utf8 c = p ++ [b] /\ utf8_step p b = Some ([c], [])) \/
  (continues p b /\ pending (p ++ [b]) /\ utf8_step p b = Some ([], p ++ [b])) \/
  (~ utf8_prefix (p ++ [b]) /\ ~ surrogate_begin (p ++ [b]) /\ utf8_step p b = None).
Proof.
  intros p b Hb [[c [r [S [E N]]]]|Sb].
  - destruct (surrogate_dec (p ++ [b])) as [Sb|NS].
    { right; left. split; [now right|]. split; [now right|]. destruct Sb as [d [Ed Rd]]. destruct p as [|p1 [|p2 [|]]]; try discriminate Ed. injection Ed as -> ->.
      unfold utf8_step. cbn [app]. change (237 <=? 223) with false. cbn iota. rewrite (proj2 (begins_iff 237 d)) by auto. now rewrite orb_true_r. }
    destruct (utf8_step p b) as [x|] eqn:Q.
    + destruct (step_accepts p b x Hb (ex_intro _ c (ex_intro _ r (conj S E))) Q) as [[d [Sd Ed]]|[[d [u [Sd Ed]]]|P]]; [|clear c r S E N|contradiction].
      * exfalso. apply N. exact (utf8_prefix_free c d p r S Sd E Ed).
      * rewrite <- app_assoc in Ed. cbn [app] in Ed. destruct u as [|y u].
        -- left. exists d. split; [exact Sd|]. split; [exact Ed|].
           pose proof (read1_utf8 false d [] Sd) as RD. rewrite app_nil_r, Ed in RD.
           assert (Np : [b] <> []) by discriminate.
           rewrite (read1_buffered false d p [b] [b] Sd Ed Np [] p eq_refl) in RD. cbn [read1] in RD. rewrite Q in RD. destruct x as [[|t0 t] b']; [discriminate RD|]. now injection RD as -> -> ->.
        -- right; left. assert (C : exists c r, scalar c /\ utf8 c = p ++ b :: r /\ r <> []) by (exists d, (y :: u); repeat split; auto; discriminate).
           split; [now left|]. split; [left; destruct C as [c1 [r1 [C1 [C2 C3]]]]; exists c1, r1; repeat split; auto; rewrite <- app_assoc; exact C2|].
           pose proof (step_proper d p b (y :: u) Sd Ed ltac:(discriminate)) as SP. congruence.
    + right; right. split; [|split; [exact NS|reflexivity]]. intros [d [u [Sd Ed]]]. rewrite <- app_assoc in Ed. cbn [app] in Ed. destruct u as [|y u].
      * pose proof (read1_utf8 false d [] Sd) as RD. rewrite app_nil_r, Ed in RD. assert (Np : [b] <> []) by discriminate.
        rewrite (read1_buffered false d p [b] [b] Sd Ed Np [] p eq_refl) in RD. cbn [read1] in RD. rewrite Q in RD. injection RD as R1 R2.
        subst p. cbn [app] in Ed. destruct (utf8_cases d Sd) as [X|[X|[X|X]]]; [destruct X as [a [U R]]|destruct X as [a [a2 [U R]]]|destruct X as [a [a2 [a3 [U R]]]]|destruct X as [a [a2 [a3 [a4 [U R]]]]]]; rewrite U in Ed; try discriminate Ed.
        injection Ed as ->. rewrite utf8_step_1 in Q by lia. discriminate.
      * rewrite (step_proper d p b (y :: u) Sd Ed) in Q by discriminate. discriminate.
  - right; right. destruct (surrogate_stuck p b Sb) as [A [B C]]. auto.
Qed.
Lemma pending_nil : pending [].
Proof. left. exists 0, [0]. repeat split; [unfold scalar; lia|discriminate]. Qed.
Lemma understood_all : forall input p, Forall (fun b => 0 <= b < 256) input -> pending p -> exists t w, understood p input t w.
Proof.
  induction input as [|b input IH]; intros p B P; [exists [], false; constructor|]. inversion B as [|? ? Hb B']; subst.
  destruct (step_class p b Hb P) as [[c [Sc [Ec St]]]|[[C [P' St]]|[N1 [N2 St]]]].
  - destruct (IH [] B' pending_nil) as [t [w H]]. exists (c :: t), w. now constructor.
  - destruct input as [|b' input]; [exists [], true; now constructor|]. destruct (IH (p ++ [b]) B' P') as [t [w H]]. exists t, w. now constructor.
  - destruct (IH p B' P) as [t [w H]]. exists (byte_repr b ++ t), w. constructor; auto. now apply byte_repr_shown.
Qed.
Lemma byte_shown_fun : forall b s s', byte_shown b s -> byte_shown b s' -> s = s'.
Proof.
  intros b s s' H H'. inversion H; subst; inversion H'; subst; try reflexivity; try lia.
  assert (forall x y u v, lower_hex x -> lower_hex y -> lower_hex u -> lower_hex v -> hex_num x * 16 + hex_num y = hex_num u * 16 + hex_num v -> x = u /\ y = v) as I.
  { intros x y u v X Y U V Q. unfold lower_hex, hex_num in *. destruct (Z.leb_spec x 57), (Z.leb_spec y 57), (Z.leb_spec u 57), (Z.leb_spec v 57); lia. }
  match goal with Q : hex_num ?x * 16 + hex_num ?y = hex_num ?u * 16 + hex_num ?v |- _ => destruct (I x y u v) as [-> ->]; auto end.
Qed.
Lemma ready_cons : forall f eof acc buf x input, read_ready (S f) eof acc buf (x :: input) =
  match read1 eof buf (x :: input) with Returned (t, buf', rest) => read_ready f eof (acc ++ t) buf' rest | Waits => Waits | Spins => Spins end.
Proof. reflexivity. Qed.
Lemma ready_understood : forall input p t w, Forall (fun b => 0 <= b < 256) input -> pending p -> understood p input t w -> forall acc,
  ready acc p input = if w then Waits else Returned (acc ++ t).
Proof.
  intros input p t w B P U. revert B P. induction U; intros B P acc.
  - rewrite ready_nil, app_nil_r. reflexivity.
  - inversion B as [|? ? Hb B']; subst. destruct (step_class p b Hb P) as [[c' [Sc' [Ec' St]]]|[[C [P' St]]|[N1 [N2 St]]]].
    + assert (R : read1 false p (b :: rest) = Returned ([c'], [], rest)) by (cbn [read1]; now rewrite St).
      assert (c' = c).
      { pose proof (read1_utf8 false c [] H) as R1. pose proof (read1_utf8 false c' [] Sc') as R2. rewrite H0 in R1. rewrite Ec', R1 in R2. now injection R2. }
      subst c'. rewrite (ready_step acc p _ [c] [] rest R). rewrite IHU; [|assumption|apply pending_nil]. now rewrite <- app_assoc.
    + exfalso. destruct P' as [[d [u [Sd [Ed Nd]]]]|Sb]; [|exact (not_pending_char c _ H H0 Sb)].
      apply Nd. exact (utf8_prefix_free d c _ u Sd H Ed H0).
    + exfalso. apply N1. exists c, []. now rewrite app_nil_r.
  - inversion B as [|? ? Hb B']; subst. destruct (step_class p b Hb P) as [[c' [Sc' [Ec' St]]]|[[C [P' St]]|[N1 [N2 St]]]].
    + exfalso. destruct H as [[d [u [Sd [Ed Nd]]]]|Sb]; [|exact (not_pending_char c' _ Sc' Ec' Sb)].
      apply Nd. apply (utf8_prefix_free d c' (p ++ [b]) u Sd Sc'); [now rewrite <- app_assoc|exact Ec'].
    + unfold ready. cbn [List.length read_ready read1]. now rewrite St.
    + exfalso. destruct H as [[d [u [Sd [Ed Nd]]]]|Sb]; [|contradiction]. apply N1. exists d, u. split; [exact Sd|]. now rewrite <- app_assoc.
  - inversion B as [|? ? Hb B']; subst. destruct (step_class p b Hb P) as [[c' [Sc' [Ec' St]]]|[[C [P' St]]|[N1 [N2 St]]]].
    + exfalso. destruct H as [[d [u [Sd [Ed Nd]]]]|Sb]; [|exact (not_pending_char c' _ Sc' Ec' Sb)].
      apply Nd. apply (utf8_prefix_free d c' (p ++ [b]) u Sd Sc'); [now rewrite <- app_assoc|exact Ec'].
    + rewrite <- (IHU B' P' acc). assert (E : read1 false p (b :: b' :: rest) = read1 false (p ++ [b]) (b' :: rest)) by (cbn [read1]; rewrite St; reflexivity).
      destruct (read1 false (p ++ [b]) (b' :: rest)) as [[[t' q] r']| |] eqn:E'.
      * now rewrite (ready_step acc p _ _ _ _ E), (ready_step acc (p ++ [b]) _ _ _ _ E').
      * unfold ready. cbn [List.length]. now rewrite !ready_cons, E, E'.
      * unfold ready. cbn [List.length]. now rewrite !ready_cons, E, E'.
    + exfalso. destruct H as [[d [u [Sd [Ed Nd]]]]|Sb]; [|contradiction]. apply N1. exists d, u. split; [exact Sd|]. now rewrite <- app_assoc.
  - inversion B as [|? ? Hb B']; subst. destruct (step_class p b Hb P) as [[c' [Sc' [Ec' St]]]|[[C [P' St]]|[N1 [N2 St]]]].
    + exfalso. apply H. exists c', []. now rewrite app_nil_r.
    + exfalso. destruct C as [[d [u [Sd [Ed Nd]]]]|Sb]; [|contradiction]. apply H. exists d, u. split; [exact Sd|]. now rewrite <- app_assoc.
    + assert (R : read1 false p (b :: rest) = Returned (s, p, rest)).
      { cbn [read1]. rewrite St. now rewrite (byte_shown_fun b (byte_repr b) s (byte_repr_shown b Hb) H1). }
      rewrite (ready_step acc p _ s p rest R). rewrite IHU by assumption. now rewrite <- app_assoc.
Qed.
Lemma getch_understood : forall M (cb : M -> M) mode raw input, Forall (fun b => 0 <= b < 256) input -> input <> [] ->
  exists t w, understood [] input t w /\
  getch cb mode true raw None sio_empty false input =
    if w then (sio_empty, cb mode, Waits) else (sio_empty, mode, Returned (decode_key raw t)).
Proof.
  intros M cb mode raw input B N. destruct (understood_all input [] B pending_nil) as [t [w U]]. exists t, w. split; [exact U|].
  pose proof (ready_understood input [] t w B pending_nil U []) as R. rewrite <- (burst_ready input N) in R.
  unfold getch, getch_posix. cbn [negb sio_text sio_empty]. rewrite R. destruct w; reflexivity.
Qed.
Lemma understood_fun : forall input p t w t' w', Forall (fun b => 0 <= b < 256) input -> pending p -> understood p input t w -> understood p input t' w' -> w = w' /\ (w = false -> t = t').
Proof.
  intros input p t w t' w' B P U U'. pose proof (ready_understood input p t w B P U []) as R. rewrite (ready_understood input p t' w' B P U' []) in R.
  destruct w, w'; try discriminate R; split; auto; try discriminate. intros _. now injection R.
Qed.
Lemma getch_surrogate : forall M (cb : M -> M) mode raw cs b rest ts, Forall scalar cs -> 160 <= b <= 191 -> Forall (fun b => 0 <= b < 256) rest ->
  Forall2 byte_shown rest ts ->
  getch cb mode true raw None sio_empty false (flat_map utf8 cs ++ 237 :: b :: rest) =
    match rest with
    | [] => (sio_empty, cb mode, Waits)
    | _ => (sio_empty, mode, Returned (decode_key raw (cs ++ List.concat ts)))
    end.
Proof.
  intros M cb mode raw cs b rest ts Hcs Rb B F.
  assert (Sb : surrogate_begin [237; b]) by (exists b; now split).
  assert (B2 : Forall (fun b => 0 <= b < 256) (237 :: b :: rest)) by (constructor; [lia|constructor; [lia|exact B]]).
  assert (U : forall r ts, Forall2 byte_shown r ts -> understood [237; b] r (List.concat ts) false).
  { intros r l H. induction H as [|x y r l X H IH]; [constructor|]. cbn [List.concat]. destruct (surrogate_stuck [237; b] x Sb) as [_ [A C]]. now constructor. }
  assert (C1 : continues [] 237).
  { left. destruct (encode3 237 128 128) as [c [Sc Ec]]; try lia. exists c, [128; 128]. repeat split; auto. discriminate. }
  assert (C2 : continues [237] b) by (right; exact Sb).
  assert (U2 : understood [] (237 :: b :: rest) (List.concat ts) (match rest with [] => true | _ => false end)).
  { apply u_more; [exact C1|]. cbn [app]. destruct rest as [|x rest].
    - inversion F; subst. cbn [List.concat]. now apply u_more_end.
    - apply u_more; [exact C2|]. cbn [app]. now apply U. }
  pose proof (ready_understood _ _ _ _ B2 pending_nil U2 cs) as R.
  assert (NE : flat_map utf8 cs ++ 237 :: b :: rest <> []) by (destruct (flat_map utf8 cs); discriminate).
  unfold getch, getch_posix. cbn [negb sio_text sio_empty]. rewrite (burst_ready _ NE), ready_chars by assumption. cbn [app]. rewrite R.
  destruct rest; reflexivity.
Qed.
