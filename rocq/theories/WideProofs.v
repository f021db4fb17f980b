(** Wide characters: proofs. *)
From Coq Require Import ZArith Reals List Bool Lia String Permutation Sorting.Sorted.
From Verif Require Import PyBase PyLemmas F64 SpaceModel ColorModel ColorSpec ColorProofs AnsiRe SpanModel Vt SpanSpec
  SpanProofs SpanProofs2 ScreenModel ScreenSpec ScreenProofs ScreenProofs2 ScreenProofs3 ScreenProofs4 ScreenProofs5 ScreenProofs6 ScreenProofs7 ScreenProofs8 DrawSpec DrawProofs DrawProofs2 WideSpec.
Import ListNotations.
Open Scope Z_scope.

Section Wide.
Variable wd : Z -> Z.
Hypothesis Hwd : terminal_widths wd.

Lemma vtw_app : forall a b m, vtw wd (a ++ b) m = vtw wd b (vtw wd a m).
Proof. intros. unfold vtw. apply fold_left_app. Qed.
Lemma feedw_narrow : forall c m, wd c = 1 -> feedw wd m c = feed1 m c.
Proof.
  intros c m H. unfold feedw. destruct (e_parse m) eqn:E; auto. destruct (is_ctl c) eqn:Ec; [reflexivity|].
  unfold print. rewrite H. change (1 =? 0) with false. change (1 =? 2) with false. cbv iota.
  unfold feed1. rewrite E, Ec. unfold is_ctl in Ec. apply orb_false_iff in Ec. destruct Ec as [Ec _]. apply Z.ltb_ge in Ec.
  rewrite (proj2 (Z.eqb_neq c 27)), (proj2 (Z.eqb_neq c 10)), (proj2 (Z.eqb_neq c 13)) by lia. reflexivity.
Qed.
Lemma vtw_narrow : forall s m, narrow wd s -> vtw wd s m = vt s m.
Proof.
  intros s m H. revert m. induction H as [|c s Hc Hs IH]; intro m; [reflexivity|].
  unfold vtw, vt in *. cbn [fold_left]. rewrite feedw_narrow by exact Hc. apply IH.
Qed.
Definition ascii (s : str) : Prop := Forall (fun c => 0 <= c < 128) s.
Lemma ascii_narrow : forall s, ascii s -> narrow wd s.
Proof. intros s H. eapply Forall_impl; [|exact H]. intros c Hc. now apply Hwd. Qed.
Lemma ascii_app : forall a b, ascii a -> ascii b -> ascii (a ++ b).
Proof. intros. apply Forall_app. auto. Qed.
Lemma params_ascii : forall b, forallb param_char b = true -> ascii b.
Proof.
  intros b H. apply Forall_forall. intros c Hc. rewrite forallb_forall in H. specialize (H c Hc). unfold param_char, is_digit in H.
  apply orb_true_iff in H. rewrite andb_true_iff, !Z.leb_le, Z.eqb_eq in H. lia.
Qed.
Ltac ascii_tac := unfold ascii, ESC; cbn; repeat (apply Forall_cons; [lia|]); apply Forall_nil.
Lemma csi_ascii : forall b, forallb param_char b = true -> ascii (csi_m b).
Proof.
  intros b H. unfold csi_m. apply ascii_app; [ascii_tac|]. apply ascii_app; [now apply params_ascii|]. ascii_tac.
Qed.
Lemma lead_ascii : forall f, ascii (lead f).
Proof.
  intro f. unfold lead, csi_or_empty. destruct (colorless_body f) as [|a b] eqn:E; [constructor|]. rewrite <- E. apply csi_ascii. apply colorless_params.
Qed.
Lemma reset_ascii : ascii RESET. Proof. unfold RESET, csi_m. ascii_tac. Qed.
Lemma move_ascii : forall x y, 0 <= x -> 0 <= y -> ascii (move_to x y).
Proof.
  intros x y Hx Hy. unfold move_to. destruct (dec_params x Hx) as [P1 _]. destruct (dec_params y Hy) as [P2 _].
  apply ascii_app; [ascii_tac|]. apply ascii_app; [now apply params_ascii|]. apply ascii_app; [ascii_tac|].
  apply ascii_app; [now apply params_ascii|]. ascii_tac.
Qed.

(** * One cell *)
Lemma drawn_split : forall e sh c v, shades e sh -> shows sh c v ->
  exists pre post, drawn e c = pre ++ fst v :: post /\ ascii pre /\ ascii post /\
    (forall m, e_parse m = PGround -> e_rend m = rend0 -> vt pre m = set_rend (snd v) m) /\
    (forall m, e_parse m = PGround -> e_rend m = snd v -> vt post m = set_rend rend0 m).
Proof.
  intros e sh [[t fg] bg] [g rd] Hsh [Hf [Hb [Hg [f [r [Et [Hr [Erd Hn]]]]]]]]. cbn [fst snd] in *. unfold drawn.
  destruct (colors_body e sh fg bg rend0 Hsh Hf Hb) as [P [N S]].
  match goal with |- context [str_eqb ?b []] => set (cs := b) in * end.
  destruct (str_eqb cs []) eqn:E.
  - apply str_eqb_eq in E. apply N in E. destruct E as [-> ->]. destruct (Hn eq_refl eq_refl) as [-> ->].
    subst t. exists [], []. cbn [shade_o option_map] in Erd. rewrite styled_none in Erd. subst rd.
    split; [reflexivity|]. split; [constructor|]. split; [constructor|].
    split; intros m Hm Hp; rewrite <- Hp, set_rend_id; reflexivity.
  - apply str_eqb_neq in E. specialize (S E).
    exists (csi_m cs ++ lead f), (r ++ RESET). subst t.
    split; [unfold csi_m; rewrite <- !app_assoc; reflexivity|].
    split; [apply ascii_app; [now apply csi_ascii|apply lead_ascii]|].
    split; [apply ascii_app; [destruct Hr as [-> | ->]; [constructor|apply reset_ascii]|apply reset_ascii]|].
    split; intros m Hm Hp.
    + rewrite vt_app, vt_csi_m by auto. rewrite Hp, S, vt_lead by exact Hm. cbn [e_rend set_rend]. rewrite styled_trans, <- Erd, set_rend2. reflexivity.
    + rewrite vt_app. destruct Hr as [-> | ->]; [cbn [vt fold_left]; now rewrite vt_reset|].
      rewrite (vt_reset m Hm), vt_reset by exact Hm. reflexivity.
Qed.

Lemma line_feed_same : forall m, e_parse (line_feed m) = e_parse m /\ e_rend (line_feed m) = e_rend m /\ e_link (line_feed m) = e_link m /\
  e_w (line_feed m) = e_w m /\ e_h (line_feed m) = e_h m.
Proof. intro m. unfold line_feed. destruct (_ <? _); cbn; auto. Qed.
Lemma put_same : forall c m, e_parse (put_char c m) = e_parse m /\ e_rend (put_char c m) = e_rend m /\ e_link (put_char c m) = e_link m /\
  e_w (put_char c m) = e_w m /\ e_h (put_char c m) = e_h m.
Proof.
  intros c m. unfold put_char.
  assert (L : forall b, let t := if b : bool then line_feed (carriage_return m) else m in
     e_parse t = e_parse m /\ e_rend t = e_rend m /\ e_link t = e_link m /\ e_w t = e_w m /\ e_h t = e_h m).
  { intros [|]; cbv zeta; [|auto]. destruct (line_feed_same (carriage_return m)) as [A [B [C [D E]]]]. rewrite A, B, C, D, E. cbn. auto. }
  specialize (L (e_wrap m)). cbv zeta in L. destruct (if e_wrap m then _ else _) as [a1 a2 a3 a4 a5 a6 a7 a8 a9 a10 a11 a12].
  cbn in L |- *. destruct (_ <? _); cbn; exact L.
Qed.
Lemma room_same : forall m, e_parse (make_room m) = e_parse m /\ e_rend (make_room m) = e_rend m /\ e_link (make_room m) = e_link m /\
  e_w (make_room m) = e_w m /\ e_h (make_room m) = e_h m.
Proof.
  intro m. unfold make_room. destruct (_ && _); [|auto]. destruct (line_feed_same (carriage_return m)) as [A [B [C [D E]]]].
  rewrite A, B, C, D, E. cbn. auto.
Qed.
Lemma print_same : forall c m, e_parse (print wd c m) = e_parse m /\ e_rend (print wd c m) = e_rend m /\ e_link (print wd c m) = e_link m /\
  e_w (print wd c m) = e_w m /\ e_h (print wd c m) = e_h m.
Proof.
  intros c m. unfold print. destruct (wd c =? 0); [auto|]. destruct (wd c =? 2); [|apply put_same].
  destruct (put_same TAIL (put_char c (make_room m))) as [A [B [C [D E]]]].
  destruct (put_same c (make_room m)) as [A1 [B1 [C1 [D1 E1]]]]. destruct (room_same m) as [A2 [B2 [C2 [D2 E2]]]].
  repeat split; congruence.
Qed.

Lemma vtw_drawn : forall e sh c v m, shades e sh -> shows sh c v -> e_parse m = PGround -> e_rend m = rend0 ->
  vtw wd (drawn e c) m = set_rend rend0 (print wd (fst v) (set_rend (snd v) m)).
Proof.
  intros e sh c v m Hsh Hs Hm Hp. destruct (drawn_split e sh c v Hsh Hs) as [pre [post [-> [A1 [A2 [V1 V2]]]]]].
  assert (Hg : is_ctl (fst v) = false) by (destruct c as [[t fg] bg]; apply Hs).
  rewrite vtw_app, (vtw_narrow pre) by now apply ascii_narrow. rewrite V1 by auto.
  change (fst v :: post) with ([fst v] ++ post). rewrite vtw_app.
  assert (E : vtw wd [fst v] (set_rend (snd v) m) = print wd (fst v) (set_rend (snd v) m)).
  { unfold vtw. cbn [fold_left]. unfold feedw. cbn [e_parse set_rend]. rewrite Hm, Hg. reflexivity. }
  rewrite E. destruct (print_same (fst v) (set_rend (snd v) m)) as [P1 [P2 _]].
  rewrite vtw_narrow by now apply ascii_narrow. apply V2; [rewrite P1; exact Hm|rewrite P2; reflexivity].
Qed.

(** * All pending cells: the terminal is left at rest *)
Lemma vtw_items_rest : forall e sh w h ox oy G, shades e sh -> 1 <= ox -> 1 <= oy -> forall items prev m, Forall (shows_item e sh w h G) items -> at_rest m ->
  at_rest (vtw wd (emit ox oy prev items) m) /\ e_w (vtw wd (emit ox oy prev items) m) = e_w m /\ e_h (vtw wd (emit ox oy prev items) m) = e_h m.
Proof.
  intros e sh w h ox oy G Hsh Hox Hoy. induction items as [|[q t] items IH]; intros prev m Hi Hm; [cbn; auto|].
  inversion Hi as [|? ? H1 H2]; subst. destruct H1 as [[Q1 Q2] [c [Et Hc]]]. cbn [fst snd] in *.
  assert (E : emit ox oy prev ((q, t) :: items) = (if follows prev q then [] else move_to (fst q + ox) (snd q + oy)) ++ t ++ emit ox oy (Some q) items).
  { unfold emit. cbn [map combine List.concat fst]. rewrite <- app_assoc. reflexivity. }
  rewrite E, !vtw_app. destruct Hm as [M1 [M2 M3]].
  match goal with |- context [vtw wd t ?x] => set (m1 := x) end.
  assert (R1 : at_rest m1 /\ e_w m1 = e_w m /\ e_h m1 = e_h m).
  { unfold m1. destruct (follows prev q); [cbn; repeat split; auto|].
    rewrite vtw_narrow by (apply ascii_narrow, move_ascii; lia). rewrite vt_move by (auto; lia). cbn. repeat split; auto. }
  destruct R1 as [[R1 [R2 R3]] [R4 R5]]. rewrite Et, (vtw_drawn e sh c (G q) m1) by auto.
  destruct (print_same (fst (G q)) (set_rend (snd (G q)) m1)) as [P1 [P2 [P3 [P4 P5]]]].
  destruct (IH (Some q) (set_rend rend0 (print wd (fst (G q)) (set_rend (snd (G q)) m1))) H2) as [S1 [S2 S3]].
  { repeat split; cbn [set_rend e_parse e_rend e_link]; [rewrite P1|rewrite P3]; auto. }
  split; [exact S1|]. split.
  - rewrite S2. cbn [set_rend e_w]. rewrite P4. exact R4.
  - rewrite S3. cbn [set_rend e_h]. rewrite P5. exact R5.
Qed.

(** ... and, if all of them are narrow, it is the terminal of Vt.v *)
Lemma item_narrow : forall e sh w h G i, shades e sh -> shows_item e sh w h G i -> wd (fst (G (fst i))) = 1 -> narrow wd (snd i).
Proof.
  intros e sh w h G [q t] Hsh [_ [c [E Hc]]] Hn. cbn [fst snd] in *. subst t.
  destruct (drawn_split e sh c (G q) Hsh Hc) as [pre [post [-> [A1 [A2 _]]]]].
  apply Forall_app. split; [now apply ascii_narrow|]. constructor; [exact Hn|now apply ascii_narrow].
Qed.
Lemma emit_narrow : forall e sh w h ox oy G, shades e sh -> 1 <= ox -> 1 <= oy -> forall items prev, Forall (shows_item e sh w h G) items ->
  (forall q, on_screen w h q -> wd (fst (G q)) = 1) -> narrow wd (emit ox oy prev items).
Proof.
  intros e sh w h ox oy G Hsh Hox Hoy. induction items as [|[q t] items IH]; intros prev Hi Hn; [constructor|].
  inversion Hi as [|? ? H1 H2]; subst. pose proof H1 as H1'. destruct H1 as [Hq _]. cbn [fst] in Hq.
  assert (E : emit ox oy prev ((q, t) :: items) = (if follows prev q then [] else move_to (fst q + ox) (snd q + oy)) ++ t ++ emit ox oy (Some q) items).
  { unfold emit. cbn [map combine List.concat fst]. rewrite <- app_assoc. reflexivity. }
  rewrite E. apply Forall_app. split.
  - destruct (follows prev q); [constructor|]. apply ascii_narrow, move_ascii; unfold on_screen in Hq; lia.
  - apply Forall_app. split; [|now apply IH]. exact (item_narrow e sh w h G (q, t) Hsh H1' (Hn q Hq)).
Qed.
End Wide.
