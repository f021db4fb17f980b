(** Proofs about the commands in what is drawn. *)
From Coq Require Import ZArith List Bool Lia String Permutation.
From Verif Require Import PyBase PyLemmas F64 SpaceModel ColorModel AnsiRe SpanModel SpanSpec Vt SpanProofs ScreenModel ScreenProofs ScreenProofs7 CommandSpec.
Import ListNotations.
Open Scope Z_scope.

(** * Scanning *)
Lemma scan_app : forall c1 u v q, scan c1 q (u ++ v) =
  (fst (scan c1 q u) ++ fst (scan c1 (snd (scan c1 q u)) v), snd (scan c1 (snd (scan c1 q u)) v)).
Proof.
  induction u as [|c u IH]; intros v q; cbn [app scan].
  - cbn. now destruct (scan c1 q v).
  - destruct (step c1 q c) as [a q']. rewrite IH. destruct (scan c1 q' u) as [b q'']. cbn.
    destruct (scan c1 q'' v). cbn. now rewrite app_assoc.
Qed.

Section Tame.
Variable c1 : bool.
Variable ctl : Z -> Prop.
Variable extra : list Z.
Hypothesis Hnl : ctl NL.
Notation P := (draws_only ctl extra).

Definition tame (q : cstate) (u : str) (q' : cstate) : Prop :=
  Forall P (fst (scan c1 q u)) /\ snd (scan c1 q u) = q'.
Lemma tame_nil : forall q, tame q [] q.
Proof. intro q. split; cbn; auto. Qed.
Lemma tame_app : forall q u q' v q'', tame q u q' -> tame q' v q'' -> tame q (u ++ v) q''.
Proof.
  intros q u q' v q'' [A B] [C D]. unfold tame. rewrite scan_app. cbn. rewrite B. split; auto. now apply Forall_app.
Qed.

(** characters that may stand in a code *)
Definition okc (c : Z) : Prop :=
  48 <= c <= 59 \/ c = 43 \/ (45 <= c <= 46) \/ c = 32 \/ 160 <= c \/ ((c = 95 \/ c = 69 \/ c = 101) /\ In c extra) \/ ((9 <= c <= 13 \/ c = 133) /\ ctl c).
Definition coding (q : cstate) : Prop := q = Ground \/ exists buf, q = InCsi buf /\ unmarked buf = true.
Definition loose (q : cstate) : Prop := match q with InText _ b => b = [] | _ => True end.

Lemma step_code : forall q c, coding q -> okc c -> Forall P (fst (step c1 q c)) /\ coding (snd (step c1 q c)).
Proof.
  intros q c Hq Hc. unfold step.
  assert (N : c <> 27 /\ c <> 24 /\ c <> 26 /\ c <> 127) by (unfold okc in Hc; lia). destruct N as [N1 [N2 [N3 N4]]].
  rewrite (proj2 (Z.eqb_neq c 27)), (proj2 (Z.eqb_neq c 24)), (proj2 (Z.eqb_neq c 26)) by auto. cbn [orb].
  destruct (Z.eq_dec c 133) as [E|N5].
  - subst c. assert (ctl 133) by (unfold okc in Hc; destruct Hc as [|[|[|[|[|[[? ?]|[_ ?]]]]]]]; try lia; auto).
    destruct c1; cbn.
    + split; [|now left]. destruct Hq as [->|[b [-> _]]]; cbn; repeat constructor; auto.
    + destruct Hq as [->|[b [-> U]]]; cbn; (split; [repeat constructor|]); [now left|]. right. exists (b ++ [133]). split; auto.
      unfold unmarked in *. rewrite forallb_app, U. reflexivity.
  - replace (c1 && (128 <=? c) && (c <=? 159)) with false.
    2:{ destruct c1; auto. cbn. destruct (Z.leb_spec 128 c); auto. cbn. symmetry. apply Z.leb_gt. unfold okc in Hc. lia. }
    assert (C : c < 32 -> ctl c) by (unfold okc in Hc; intro; destruct Hc as [|[|[|[|[|[[? ?]|[_ ?]]]]]]]; try lia; auto).
    destruct Hq as [->|[b [-> U]]].
    + cbn. split; [|now left]. constructor; auto. rewrite (proj2 (Z.eqb_neq c 127)), orb_false_r by auto.
      destruct (Z.ltb_spec c 32); cbn; auto.
    + destruct (Z.ltb_spec c 32); [cbn; split; [repeat constructor; cbn; auto|right; eauto]|].
      rewrite (proj2 (Z.eqb_neq c 127)) by auto.
      destruct ((64 <=? c) && (c <=? 126)) eqn:F.
      * apply andb_true_iff in F. destruct F as [F1 F2]. apply Z.leb_le in F1, F2. cbn.
        unfold okc in Hc. destruct Hc as [|[|[|[|[|[[? ?]|[? ?]]]]]]]; try lia. split; [|now left].
        constructor; [|constructor]. split; [exact U|]. right. right. auto.
      * cbn. split; [constructor|]. right. exists (b ++ [c]). split; auto. unfold unmarked in *. rewrite forallb_app, U. cbn.
        rewrite andb_true_r. apply negb_true_iff. apply andb_false_iff. unfold okc in Hc.
        destruct (Z.leb_spec 60 c); [|now left]. right. apply Z.leb_gt. lia.
Qed.
Lemma scan_code : forall u q, Forall okc u -> coding q -> Forall P (fst (scan c1 q u)) /\ coding (snd (scan c1 q u)).
Proof.
  induction u as [|c u IH]; intros q Hu Hq; cbn [scan]; [cbn; auto|].
  pose proof (Forall_inv Hu) as Hc. apply Forall_inv_tail in Hu.
  destruct (step_code q c Hq Hc) as [A B]. destruct (step c1 q c) as [a q']. cbn in A, B.
  destruct (IH q' Hu B) as [C D]. destruct (scan c1 q' u). cbn in *. split; auto. now apply Forall_app.
Qed.
Lemma leave_loose : forall q, loose q -> Forall P (leave q).
Proof. intros [] H; cbn in *; auto. Qed.

Lemma csi_tame : forall f u q, f = 72 \/ f = 109 -> Forall okc u -> loose q -> tame q ([ESC; 91] ++ u ++ [f]) Ground.
Proof.
  intros f u q Hf Hu Hq. apply tame_app with (q' := InCsi []).
  - split; cbn.
    + destruct c1; cbn; rewrite ?app_nil_r; now apply leave_loose.
    + destruct c1; reflexivity.
  - destruct (scan_code u (InCsi []) Hu) as [A B]; [right; exists []; auto|].
    eapply tame_app; [split; [exact A|reflexivity]|].
    destruct B as [->|[b [-> U]]]; destruct Hf as [->| ->]; unfold tame; cbn; rewrite andb_false_r; cbn;
      (split; [constructor; [|constructor]|reflexivity]); try exact I; (split; [exact U|cbn; auto]).
Qed.
Lemma reset_tame : forall q, loose q -> tame q RESET Ground.
Proof. intros q H. apply (csi_tame 109 (lit "0") q); auto. constructor; [unfold okc; cbn; lia|constructor]. Qed.
Lemma nl_tame : tame Ground [NL] Ground.
Proof. split; cbn; destruct c1; cbn; auto; repeat constructor; auto. Qed.
Lemma nls_tame : forall n, tame Ground (repeat NL n) Ground.
Proof.
  induction n; [apply tame_nil|]. change (repeat NL (S n)) with ([NL] ++ repeat NL n). eapply tame_app; eauto. apply nl_tame.
Qed.
(** any character at all *)
Lemma char_tame : forall c, (control_char c -> ctl c) -> exists q, loose q /\ tame Ground [c] q.
Proof.
  intros c H. unfold tame. cbn [scan]. unfold step.
  destruct (Z.eqb_spec c 27); [exists (InEscape []); cbn; auto|].
  destruct ((c =? 24) || (c =? 26)) eqn:E1.
  { exists Ground. cbn. split; auto. split; auto. repeat constructor. apply H. left.
    apply orb_true_iff in E1. destruct E1 as [E1|E1]; apply Z.eqb_eq in E1; lia. }
  destruct (c1 && (128 <=? c) && (c <=? 159)) eqn:E2.
  { apply andb_true_iff in E2. destruct E2 as [E2 E3]. apply andb_true_iff in E2. destruct E2 as [_ E2].
    apply Z.leb_le in E2, E3.
    destruct (c - 64 =? 91); [exists (InCsi []); cbn; auto|].
    destruct (c - 64 =? 92); [exists Ground; cbn; auto|].
    destruct (opens_text (c - 64)); [exists (InText (c - 64) []); cbn; auto|].
    exists Ground. cbn. split; auto. split; auto. repeat constructor. apply H. right. lia. }
  exists Ground. cbn. split; auto. split; auto. constructor; auto.
  destruct ((c <? 32) || (c =? 127)) eqn:E3; cbn; auto. apply H. apply orb_true_iff in E3.
  destruct E3 as [E3|E3]; [apply Z.ltb_lt in E3; now left|apply Z.eqb_eq in E3; right; lia].
Qed.
Lemma fill_tame : forall t, controls (fun _ => False) t -> tame Ground t Ground.
Proof.
  induction t as [|c t IH]; intro H; [apply tame_nil|]. change (c :: t) with ([c] ++ t). apply tame_app with (q' := Ground).
  - assert (N : ~ control_char c) by (intro K; exact (H c (or_introl eq_refl) K)). unfold control_char in N.
    unfold tame. cbn [scan]. unfold step.
    rewrite (proj2 (Z.eqb_neq c 27)), (proj2 (Z.eqb_neq c 24)), (proj2 (Z.eqb_neq c 26)) by lia. cbn [orb].
    replace (c1 && (128 <=? c) && (c <=? 159)) with false.
    2:{ destruct c1; auto. cbn. destruct (Z.leb_spec 128 c); auto. cbn. symmetry. apply Z.leb_gt. lia. }
    cbn. split; auto. repeat constructor. rewrite (proj2 (Z.ltb_ge c 32)), (proj2 (Z.eqb_neq c 127)) by lia. exact I.
  - apply IH. intros d Hd. apply H. now right.
Qed.

(** * Codes *)
Lemma digits_okc : forall u, forallb is_digit u = true -> Forall okc u.
Proof.
  intros u H. apply Forall_forall. intros c Hc. pose proof (forallb_digit_In _ _ H Hc). unfold okc. lia.
Qed.
Lemma dec_okc : forall n, Forall okc (dec n).
Proof.
  intro n. destruct (Z.ltb_spec n 0).
  - unfold dec. rewrite (proj2 (Z.ltb_lt n 0)) by auto. constructor; [unfold okc; lia|].
    apply digits_okc. apply dec_nonneg_spec. lia.
  - apply digits_okc. now apply dec_digits.
Qed.
Definition code_ok (c : color) : Prop :=
  match c_ctor c with
  | None => True
  | Some k => startswith (lit "#") k = true \/ (k <> [] /\ Forall okc k)
  end.
Lemma color_okc : forall e c, code_ok c -> Forall okc (color_ansi e c) /\ color_ansi e c <> [].
Proof.
  intros e c H. unfold color_ansi.
  assert (L : forall a, Forall okc a -> Forall okc (dec (lead c) ++ a) /\ dec (lead c) ++ a <> []).
  { intros a Ha. split; [apply Forall_app; split; auto; apply dec_okc|]. intro K. apply app_eq_nil in K. destruct K as [K _].
    revert K. unfold lead. destruct (c_bg c); discriminate. }
  assert (D : forall (ck : bool) k, (ck = true -> c_ctor c = Some k /\ startswith (lit "#") k = false) ->
    Forall okc (if ck then k else
      let ld := dec (lead c) in
      match env_cs e with
      | TRUE_COLOR => let '(r, g, b) := c_rgb c in ld ++ lit ";2;" ++ join (lit ";") [dec r; dec g; dec b]
      | NO_COLOR => ld ++ lit ";5;" ++ dec (grey_index e (c_rgb c))
      | EIGHT_BIT => ld ++ lit ";5;" ++ dec (eight_bit_index (c_rgb c))
      | STANDARD =>
          let index := nearest_standard (c_rgb c) in
          let index := if 7 <? index then index + 82 else index + 30 in
          let index := if c_bg c then index + 10 else index in
          dec index
      end) /\ (if ck then k else
      let ld := dec (lead c) in
      match env_cs e with
      | TRUE_COLOR => let '(r, g, b) := c_rgb c in ld ++ lit ";2;" ++ join (lit ";") [dec r; dec g; dec b]
      | NO_COLOR => ld ++ lit ";5;" ++ dec (grey_index e (c_rgb c))
      | EIGHT_BIT => ld ++ lit ";5;" ++ dec (eight_bit_index (c_rgb c))
      | STANDARD =>
          let index := nearest_standard (c_rgb c) in
          let index := if 7 <? index then index + 82 else index + 30 in
          let index := if c_bg c then index + 10 else index in
          dec index
      end) <> []).
  { intros [] k Hk.
    - destruct (Hk eq_refl) as [E N]. unfold code_ok in H. rewrite E in H. destruct H as [H|[H1 H2]]; [congruence|auto].
    - clear Hk. cbv zeta.
      assert (S5 : Forall okc (lit ";5;") /\ Forall okc (lit ";2;") /\ Forall okc (lit ";")) by (repeat split; (cbn; repeat (apply Forall_cons; [unfold okc; lia|]); apply Forall_nil)).
      destruct S5 as [S5 [S2 S1]].
      destruct (env_cs e).
      4:{ destruct (c_rgb c) as [[r g] b]. apply L. apply Forall_app. split; auto. cbn [join]. rewrite !Forall_app. repeat split; auto; apply dec_okc. }
      all: try (apply L; apply Forall_app; split; auto; apply dec_okc).
      split; [apply dec_okc|apply dec_ne]. }
  destruct (cs_ge (env_cs e) (ArgSpace (c_origin c))) as [[]|] eqn:G; destruct (c_ctor c) as [k|] eqn:K.
  all: try exact (D false [] (fun X => ltac:(discriminate X))).
  destruct (startswith (lit "#") k) eqn:S; cbn [negb].
  - exact (D false [] (fun X => ltac:(discriminate X))).
  - exact (D true k (fun _ => conj eq_refl S)).
Qed.
(** * Cells *)
Definition cellish (ch : str) : Prop := exists pre c (reset : bool) n,
  ch = pre ++ [c] ++ (if reset then RESET else []) ++ repeat NL n /\ (control_char c -> ctl c) /\
  (pre = [] \/ exists b, pre = csi_m b /\ Forall okc b).

Lemma rstrip_nls : forall n u, rstrip_by is_nl (u ++ repeat NL n) = rstrip_by is_nl u.
Proof.
  induction n as [|n IH]; intro u; cbn [repeat]; [now rewrite app_nil_r|].
  change (NL :: repeat NL n) with ([NL] ++ repeat NL n). rewrite app_assoc, IH.
  unfold rstrip_by. rewrite rev_app_distr. reflexivity.
Qed.
Lemma rstrip_end : forall u c, c <> NL -> rstrip_by is_nl (u ++ [c]) = u ++ [c].
Proof.
  intros u c H. unfold rstrip_by. rewrite rev_app_distr. cbn [rev app lstrip_by]. unfold is_nl at 1.
  rewrite (proj2 (Z.eqb_neq c NL)) by auto. cbn [rev]. rewrite rev_involutive. reflexivity.
Qed.
Lemma csi_m_end : forall b, csi_m b = ([ESC; 91] ++ b) ++ [109].
Proof. intro b. unfold csi_m. now rewrite app_assoc. Qed.
Lemma pre_tame : forall pre q, (pre = [] \/ exists b, pre = csi_m b /\ Forall okc b) -> q = Ground -> tame q pre Ground.
Proof. intros pre q [->|[b [-> H]]] ->; [apply tame_nil|]. apply csi_tame; auto. exact I. Qed.
Lemma cellish_tame : forall ch, cellish ch -> exists q, loose q /\ tame Ground (rstrip_by is_nl ch) q.
Proof.
  intros ch [pre [c [reset [n [-> [Hc Hp]]]]]]. rewrite !app_assoc, rstrip_nls.
  assert (T : exists q, loose q /\ tame Ground (pre ++ [c]) q).
  { destruct (char_tame c Hc) as [q [L T]]. exists q. split; auto. eapply tame_app; eauto. now apply pre_tame. }
  destruct reset.
  - replace (rstrip_by is_nl ((pre ++ [c]) ++ RESET)) with ((pre ++ [c]) ++ RESET).
    + destruct T as [q [L T]]. exists Ground. split; [exact I|]. eapply tame_app; eauto. now apply reset_tame.
    + unfold RESET. rewrite csi_m_end, app_assoc. symmetry. now apply rstrip_end.
  - rewrite app_nil_r. destruct (Z.eq_dec c NL) as [->|N].
    + change [NL] with (repeat NL 1). rewrite rstrip_nls. exists Ground. split; [exact I|].
      destruct Hp as [->|[b [-> Hb]]]; [apply tame_nil|]. rewrite csi_m_end, rstrip_end by discriminate.
      rewrite <- csi_m_end. apply csi_tame; auto. exact I.
    + rewrite rstrip_end by auto. exact T.
Qed.
Lemma append_cellish : forall chars chars', append_nl chars = Ok chars' -> Forall cellish chars -> Forall cellish chars'.
Proof.
  intros chars chars' H Hc. unfold append_nl in H. destruct (rev chars) as [|l r] eqn:E; [discriminate|]. injection H as <-.
  assert (K : chars = rev r ++ [l]) by (rewrite <- (rev_involutive chars), E; reflexivity).
  rewrite K in Hc. apply Forall_app in Hc. destruct Hc as [A B]. apply Forall_inv in B. cbn [rev].
  apply Forall_app. split; auto. constructor; auto. destruct B as [pre [c [reset [n [-> [Hc Hp]]]]]].
  exists pre, c, reset, (S n). split; auto. cbn [repeat]. rewrite repeat_cons, !app_assoc. auto.
Qed.
Lemma colorless_pre : forall s, span_colorless s = [] \/ exists b, span_colorless s = csi_m b /\ Forall okc b.
Proof.
  intro s. unfold span_colorless. pose proof (colorless_params (s_flags s)) as H.
  destruct (colorless_body (s_flags s)) as [|c b]; [now left|]. right. exists (c :: b). split; auto.
  rewrite forallb_forall in H. apply Forall_forall. intros d Hd. specialize (H d Hd). unfold param_char in H.
  apply orb_true_iff in H. unfold okc. left. destruct H as [H|H]; [unfold is_digit in H; apply andb_true_iff in H; destruct H as [H1 H2]; apply Z.leb_le in H1, H2; lia|apply Z.eqb_eq in H; lia].
Qed.
Lemma init_cellish : forall t seqs, (seqs = [] \/ exists b, seqs = csi_m b /\ Forall okc b) -> controls ctl t ->
  Forall cellish (fst (chars_init seqs true t)) /\ snd (chars_init seqs true t) = seqs.
Proof.
  induction t as [|c t IH]; intros seqs Hs Ht; cbn [chars_init]; [cbn; auto|].
  destruct (IH seqs Hs) as [A B]; [intros d Hd; apply Ht; now right|].
  destruct (chars_init seqs true t) as [l r]. cbn in *. split; auto. constructor; auto.
  exists seqs, c, false, 0%nat. cbn. split; auto. split; auto. apply Ht. now left.
Qed.
Lemma removelast_In : forall (c : Z) t, In c (removelast t) -> In c t.
Proof.
  induction t as [|a t IH]; cbn; auto. destruct t; [contradiction|]. intros [->|H]; auto.
Qed.
Lemma characters_cellish : forall e s, controls ctl (s_text s) -> Forall cellish (get_characters e s true true).
Proof.
  intros e s H. unfold get_characters.
  destruct (init_cellish (removelast (s_text s)) (span_colorless s) (colorless_pre s)) as [A B].
  { intros d Hd. apply H. now apply removelast_In. }
  destruct (chars_init (span_colorless s) true (removelast (s_text s))) as [chars rem]. cbn in A, B. subst rem.
  destruct (rev (s_text s)) as [|c r] eqn:E; auto.
  assert (K : control_char c -> ctl c). { apply H. apply in_rev. rewrite E. now left. }
  apply Forall_app. split; auto. constructor; auto.
  destruct (negb (str_eqb (span_colorless s) []) && s_reset s).
  - exists (span_colorless s), c, true, 0%nat. cbn [repeat]. rewrite app_nil_r. split; auto. split; auto. apply colorless_pre.
  - exists [], c, false, 0%nat. cbn. auto.
Qed.

(** * Matrices *)
Definition all {A} (Q : A -> Prop) (m : list (list A)) : Prop := Forall (Forall Q) m.
Lemma mget_all : forall A (Q : A -> Prop) m x y v, all Q m -> mget m x y = Some v -> Q v.
Proof.
  intros A Q m x y v H E. unfold mget in E. destruct (nth_error m (Z.to_nat y)) as [r|] eqn:F; [|discriminate].
  eapply Forall_forall in H; [|eapply nth_error_In; exact F]. eapply Forall_forall in H; [|eapply nth_error_In; exact E]. auto.
Qed.
Lemma upd_all : forall A (Q : A -> Prop) n (f : A -> A) l, (forall a, Q a -> Q (f a)) -> Forall Q l -> Forall Q (upd_nth n f l).
Proof. induction n as [|n IH]; intros f [|a l] Hf H; cbn; auto; inversion H; subst; constructor; auto. Qed.
Lemma set_all : forall A (Q : A -> Prop) n v l, Q v -> Forall Q l -> Forall Q (set_nth n v l).
Proof. induction n as [|n IH]; intros v [|a l] Hv H; cbn; auto; inversion H; subst; constructor; auto. Qed.
Lemma mset_all : forall A (Q : A -> Prop) m x y v, all Q m -> Q v -> all Q (mset m x y v).
Proof. intros. unfold mset. apply upd_all; auto. intros. now apply set_all. Qed.
Lemma blank_all : forall A (Q : A -> Prop) w h a, Q a -> all Q (blank_matrix w h a).
Proof.
  intros. unfold blank_matrix, all. apply Forall_forall. intros r Hr. apply in_map_iff in Hr. destruct Hr as [i [<- _]].
  apply Forall_forall. intros b Hb. apply in_map_iff in Hb. destruct Hb as [j [<- _]]. auto.
Qed.

(** * Writing *)
Definition ocode (o : option color) : Prop := forall c, o = Some c -> code_ok c.
Definition span_ok (s : span) : Prop := ocode (s_fg s) /\ ocode (s_bg s) /\ controls ctl (s_text s).
Definition wcell_ok (o : option wcell) : Prop :=
  match o with None => True | Some (ch, fg, bg, _) => cellish ch /\ ocode fg /\ ocode bg end.
Definition cache_ok (c : ccache) : Prop := Forall (fun kv : cache_key * list str => Forall cellish (snd kv)) c.
Record state_ok (st : wstate) : Prop := {
  so_wm : all wcell_ok (ws_wm st); so_am : all (Forall code_ok) (ws_am st); so_cache : cache_ok (ws_cache st)
}.

Lemma put_ok : forall e k v c, Forall cellish v -> cache_ok c -> cache_ok (cache_put e k v c).
Proof.
  intros e k v c Hv Hc. unfold cache_put, cache_ok. apply Forall_forall. intros x Hx.
  assert (I : In x ((k, v) :: cache_del e k c)).
  { revert Hx. generalize ((k, v) :: cache_del e k c). generalize 128%nat. induction n; intros [|a l]; cbn; auto; try contradiction.
    intros [->|H]; auto. }
  destruct I as [<-|I]; auto. unfold cache_del in I. apply filter_In in I. destruct I as [I _]. eapply Forall_forall in Hc; eauto.
Qed.
Lemma cached_cellish : forall e c s, cache_ok c -> controls ctl (s_text s) ->
  Forall cellish (fst (cached_characters e c s true true)) /\ cache_ok (snd (cached_characters e c s true true)).
Proof.
  intros e c s Hc Hs. unfold cached_characters. destruct (cache_find e (s, true, true) c) as [v|] eqn:F.
  - assert (V : Forall cellish v).
    { clear -Hc F. induction c as [|[k u] c IH]; cbn [cache_find] in F; [discriminate|].
      destruct (key_eqb e k (s, true, true)); [injection F as <-; exact (Forall_inv Hc)|]. apply IH; auto. now apply Forall_inv_tail in Hc. }
    cbn. split; auto. now apply put_ok.
  - cbn. pose proof (characters_cellish e s Hs). split; auto. now apply put_ok.
Qed.
Lemma over_ok : forall s ch old, span_ok s -> cellish ch -> wcell_ok old ->
  wcell_ok (Some (fst (over s ch old))) /\ ocode (snd (over s ch old)).
Proof.
  intros s ch old [A [B C]] Hc Ho. assert (N : ocode None) by (intros c K; discriminate). unfold over.
  destruct old as [[[[och ofg] obg] obl]|]; [|cbn; auto]. destruct Ho as [O1 [O2 O3]].
  destruct (s_bg s) as [b|] eqn:E; [|cbn; auto]. destruct (alpha_not_one b); [|cbn; auto].
  destruct (char_empty ch && negb (fl_opaque (s_flags s))); cbn; auto.
Qed.
Lemma place_ok : forall w h s chars i n x y lst wm am, span_ok s -> Forall cellish chars -> all wcell_ok wm -> all (Forall code_ok) am ->
  forall x' y' lst' wm' am', place w h s chars i n x y lst wm am = (x', y', lst', wm', am') -> all wcell_ok wm' /\ all (Forall code_ok) am'.
Proof.
  intros w h s. induction chars as [|ch chars IH]; intros i n x y lst wm am Hs Hc Hw Ha x' y' lst' wm' am'; cbn [place].
  - intro E. injection E as <- <- <- <- <-. auto.
  - pose proof (Forall_inv Hc) as Hch. apply Forall_inv_tail in Hc.
    destruct ((w <=? x) || (x <? 0) || (h <=? y) || (y <? 0)); [intro E; injection E as <- <- <- <- <-; auto|].
    destruct (str_eqb ch [NL]); [intro E; eapply IH; [..|exact E]; eauto|].
    destruct (if w <=? x + 1 then (0, y + 1) else (x + 1, y)) as [nx ny].
    assert (Ho : wcell_ok (match mget wm x y with Some o => o | None => None end)).
    { destruct (mget wm x y) eqn:E; [|exact I]. eapply mget_all; eauto. }
    pose proof (over_ok s ch _ Hs Hch Ho) as Hov. destruct (over s ch _) as [c push]. cbn in Hov. destruct Hov as [O1 O2].
    intro E. eapply IH; [..|exact E]; eauto.
    + apply mset_all; auto.
    + destruct push as [b|]; cbn [am_push]; auto. apply upd_all; auto. intros r Hr. apply upd_all; auto.
      intros l Hl. apply Forall_app. split; auto.
Qed.
Lemma place_line_ok : forall e w h line i x y lst st, Forall span_ok line -> state_ok st ->
  state_ok (fst (place_line e w h line i x y lst st)).
Proof.
  intros e w h. induction line as [|s line IH]; intros i x y lst st Hl Hst; cbn [place_line]; auto.
  pose proof (Forall_inv Hl) as Hs. apply Forall_inv_tail in Hl. destruct Hst as [W A C].
  destruct (cached_cellish e (ws_cache st) s C (proj2 (proj2 Hs))) as [C1 C2].
  destruct (cached_characters e (ws_cache st) s true true) as [chars cache]. cbn [fst snd] in C1, C2. cbv zeta.
  cbn [ws_wm ws_am ws_cells ws_off ws_cache].
  assert (G : forall st' chars', Forall cellish chars' -> state_ok st' ->
    state_ok (fst (let y := y - ws_off st' in
      let '(x, y, lst, wm, am) := place w h s chars' 0 (zlen chars) x y lst (ws_wm st') (ws_am st') in
      place_line e w h line (i + 1) x y lst (mkW wm am (ws_cells st') (ws_off st') (ws_cache st'))))).
  { intros st' chars' H1 [W' A' C']. cbv zeta.
    destruct (place w h s chars' 0 (zlen chars) x (y - ws_off st') lst (ws_wm st') (ws_am st')) as [[[[x1 y1] l1] wm1] am1] eqn:E.
    destruct (place_ok _ _ _ _ _ _ _ _ _ _ _ Hs H1 W' A' _ _ _ _ _ E) as [W1 A1]. apply IH; auto. constructor; auto. }
  destruct ((i =? lst) && (h - 1 <? y - ws_off st)).
  - destruct (append_nl chars) as [chars'|ex] eqn:E.
    + pose proof (append_cellish _ _ E C1) as C1'. destruct (ws_cells st) as [|row cells].
      * cbn. constructor; cbn; auto. now apply put_ok.
      * apply G; auto. constructor; cbn; auto. now apply put_ok.
    + cbn. constructor; cbn; auto.
  - apply G; auto. constructor; cbn; auto.
Qed.
Lemma place_all_ok : forall e w h data st, Forall (fun en : pos * list span => Forall span_ok (snd en)) data -> state_ok st ->
  state_ok (fst (place_all e w h data st)).
Proof.
  intros e w h. induction data as [|[[x y] line] data IH]; intros st Hd Hst; cbn [place_all]; auto.
  pose proof (Forall_inv Hd) as Hl. apply Forall_inv_tail in Hd. cbn in Hl.
  pose proof (place_line_ok e w h line 0 x y (zlen line - 1) st Hl Hst) as K.
  destruct (place_line e w h line 0 x y (zlen line - 1) st) as [st' [u|ex]]; cbn in *; auto.
Qed.

(** * Committing *)
Lemma blended_ok : forall a b bg f r, ocode a -> ocode b -> get_blended a b bg f = Ok r -> ocode r /\ (a <> None -> r <> None).
Proof.
  intros a b bg f r Ha Hb. unfold get_blended. destruct a as [a|]; destruct b as [b|]; try (intro E; injection E as <-; split; auto; congruence).
  destruct (feqb (c_alpha b) fone); [intro E; injection E as <-; split; auto; congruence|].
  unfold blend. destruct (c_rgb a) as [[r1 g1] b1]. destruct (c_rgb b) as [[r2 g2] b2].
  destruct (blend_channel r1 r2 _) as [r'|]; cbn; [|discriminate].
  destruct (blend_channel g1 g2 _) as [g'|]; cbn; [|discriminate].
  destruct (blend_channel b1 b2 _) as [b'|]; cbn; [|discriminate].
  unfold plain_color, new_color. destruct (valid_rgb (r', g', b')); cbn; [|discriminate]. intro E. injection E as <-.
  split; [|congruence]. intros c K. injection K as <-. exact I.
Qed.
Lemma stack_ok : forall bleed stack lst bl fg bl' fg', Forall code_ok stack -> ocode bl -> ocode fg ->
  blend_stack stack lst bl fg bleed = Ok (bl', fg') -> ocode bl' /\ ocode fg' /\ (fg <> None -> fg' <> None).
Proof.
  intro bleed. induction stack as [|c stack IH]; intros lst bl fg bl' fg' Hs Hb Hf; cbn [blend_stack].
  - intro E. injection E as <- <-. auto.
  - pose proof (Forall_inv Hs) as Hc. apply Forall_inv_tail in Hs.
    assert (Hc' : ocode (Some c)) by (intros d K; injection K as <-; auto).
    destruct (match lst with Some l => color_eqb c l | None => false end); [apply IH; auto|].
    destruct (get_blended bl (Some c) None (flit 1 10)) as [bl1|] eqn:E1; cbn [bindr]; [|discriminate].
    apply blended_ok in E1; auto. destruct E1 as [E1 _]. destruct bleed.
    + destruct (get_blended fg (Some c) None (flit 1 10)) as [fg1|] eqn:E2; cbn [bindr]; [|discriminate].
      apply blended_ok in E2; auto. destruct E2 as [E2 E3]. intro E. apply IH in E; auto. destruct E as [A [B C]]. auto.
    + cbn [bindr]. apply IH; auto.
Qed.
Lemma finish_ok : forall e tb c stack new nl, wcell_ok (Some c) -> Forall code_ok stack -> code_ok tb ->
  finish_cell tb c stack = Ok (new, nl) -> tame Ground (cell_entry e new nl) Ground.
Proof.
  intros e tb [[[ch fg] bg] bleed] stack new nl [Hc [Hf Hb]] Hs Ht. unfold finish_cell.
  set (fg0 := match fg with Some f => Some f | None => Some WHITE end).
  assert (F0 : ocode fg0 /\ fg0 <> None).
  { unfold fg0. destruct fg as [f|]; split; auto; try congruence. intros d K. injection K as <-. exact I. }
  destruct F0 as [F0 F1]. destruct (blend_stack stack bg bg fg0 bleed) as [[bl fg1]|] eqn:E; cbn [bindr]; [|discriminate].
  apply stack_ok in E; auto. destruct E as [B1 [F2 F3]]. specialize (F3 F1).
  set (rb := if bg_has_alpha bl then get_blended (Some tb) bl None (flit 1 10) else Ok bl).
  assert (R : forall b, rb = Ok b -> ocode b).
  { unfold rb. intros b K. destruct (bg_has_alpha bl); [|injection K as <-; auto].
    assert (TB : ocode (Some tb)) by (intros d D; injection D as <-; auto). exact (proj1 (blended_ok _ _ _ _ _ TB B1 K)). }
  destruct rb as [b|]; cbn [bindr]; [|discriminate]. specialize (R b eq_refl).
  set (rf := if bg_has_alpha fg1 then get_blended fg1 b None fzero else Ok fg1).
  assert (R' : forall f, rf = Ok f -> ocode f /\ f <> None).
  { unfold rf. intros f K. destruct (bg_has_alpha fg1); [|injection K as <-; auto].
    destruct (blended_ok _ _ _ _ _ F2 R K). auto. }
  destruct rf as [f|]; cbn [bindr]; [|discriminate]. destruct (R' f eq_refl) as [R1 R2]. intro K. injection K as <- <-.
  unfold cell_entry.
  destruct f as [f|]; [|congruence]. cbn [opt_list map app].
  destruct (color_okc e f (R1 f eq_refl)) as [O1 O2].
  assert (J : Forall okc (join (lit ";") (color_ansi e f :: map (color_ansi e) (opt_list b))) /\ join (lit ";") (color_ansi e f :: map (color_ansi e) (opt_list b)) <> []).
  { destruct b as [b|]; cbn [opt_list map join]; auto. destruct (color_okc e b (R b eq_refl)) as [O3 O4]. split.
    - rewrite !Forall_app. repeat split; auto. constructor; [unfold okc; cbn; lia|constructor].
    - destruct (color_ansi e f); [congruence|discriminate]. }
  destruct J as [J1 J2]. set (code := join (lit ";") (color_ansi e f :: map (color_ansi e) (opt_list b))) in *.
  clearbody code. destruct code as [|k0 code]; [congruence|].
  apply tame_app with (q' := Ground).
  - apply tame_app with (q' := Ground); [apply csi_tame; auto; exact I|].
    destruct (cellish_tame ch Hc) as [q [L T]]. eapply tame_app; [exact T|]. now apply reset_tame.
  - destruct (endswith [NL] ch); [apply nl_tame|apply tame_nil].
Qed.
Definition buf_ok (d : buffer) : Prop := Forall (fun kv : pos * str => tame Ground (snd kv) Ground) d.
Lemma buf_set_ok : forall k v d, tame Ground v Ground -> buf_ok d -> buf_ok (buf_set k v d).
Proof.
  intros k v. induction d as [|[k' v'] d IH]; intros Hv Hd; cbn [buf_set]; [repeat constructor; auto; apply Hv|].
  pose proof (Forall_inv Hd). apply Forall_inv_tail in Hd. destruct (pos_eqb k' k); constructor; auto.
  apply IH; auto.
Qed.
Lemma commit_row_ok : forall e tb row arow x y cells buf n, code_ok tb -> Forall wcell_ok row -> Forall (Forall code_ok) arow -> buf_ok buf ->
  forall cells' buf' n' ex, commit_row e tb row arow x y cells buf n = (cells', buf', n', ex) -> buf_ok buf'.
Proof.
  intros e tb. induction row as [|o row IH]; intros arow x y cells buf n Ht Hr Ha Hb cells' buf' n' ex; cbn [commit_row].
  - intro E. injection E as <- <- <- <-. auto.
  - pose proof (Forall_inv Hr) as Ho. apply Forall_inv_tail in Hr.
    assert (Ha' : Forall (Forall code_ok) (tl arow)) by (destruct arow; auto; now apply Forall_inv_tail in Ha).
    assert (Hh : Forall code_ok (hd [] arow)) by (destruct arow; cbn; auto; exact (Forall_inv Ha)).
    destruct o as [c|]; [|apply IH; auto].
    destruct (finish_cell tb c (hd [] arow)) as [[new nl]|x0] eqn:F; [|intro E; injection E as <- <- <- <-; auto].
    destruct (mget cells x y) as [old|]; [|intro E; injection E as <- <- <- <-; auto].
    destruct (cell_eqb new old); [apply IH; auto|]. apply IH; auto. apply buf_set_ok; auto. eapply finish_ok; eauto.
Qed.
Lemma commit_ok : forall e tb wm am y cells buf n, code_ok tb -> all wcell_ok wm -> all (Forall code_ok) am -> buf_ok buf ->
  forall cells' buf' n' ex, commit e tb wm am y cells buf n = (cells', buf', n', ex) -> buf_ok buf'.
Proof.
  intros e tb. induction wm as [|row wm IH]; intros am y cells buf n Ht Hw Ha Hb cells' buf' n' ex; cbn [commit].
  - intro E. injection E as <- <- <- <-. auto.
  - pose proof (Forall_inv Hw) as Hr. apply Forall_inv_tail in Hw.
    assert (Ha' : all (Forall code_ok) (tl am)) by (destruct am; auto; now apply Forall_inv_tail in Ha).
    assert (Hh : Forall (Forall code_ok) (hd [] am)) by (destruct am; cbn; auto; exact (Forall_inv Ha)).
    destruct (commit_row e tb row (hd [] am) 0 y cells buf n) as [[[c1' b1] n1] [x|]] eqn:E.
    + intro K. injection K as <- <- <- <-. eapply commit_row_ok; [..|exact E]; auto.
    + apply IH; auto. eapply commit_row_ok; [..|exact E]; auto.
Qed.
Lemma write_ok : forall e c s data tb force, Forall (fun en : pos * list span => Forall span_ok (snd en)) data -> code_ok tb ->
  cache_ok c -> buf_ok (sc_buf s) ->
  forall s' c' r, write_bulk e c s data tb force = (s', c', r) -> cache_ok c' /\ buf_ok (sc_buf s').
Proof.
  intros e c s data tb force Hd Ht Hc Hb s' c' r. unfold write_bulk.
  set (st := mkW _ _ _ _ c).
  assert (S : state_ok st).
  { constructor; cbn; auto; apply blank_all; cbn; auto. }
  pose proof (place_all_ok e (sc_w s) (sc_h s) data st Hd S) as K.
  destruct (place_all e (sc_w s) (sc_h s) data st) as [st' [u|x]]; cbn in K; destruct K as [W A C].
  - destruct (commit e tb (ws_wm st') (ws_am st') 0 (ws_cells st') (sc_buf s) 0) as [[[cells buf] n] ex] eqn:E.
    intro K. injection K as <- <- <-. split; auto. cbn. eapply commit_ok; [..|exact E]; auto.
  - intro K. injection K as <- <- <-. auto.
Qed.

(** * Rendering *)
Lemma cup_tame : forall x y, tame Ground (cup x y) Ground.
Proof.
  intros x y. unfold cup. rewrite !(app_assoc (dec y)), !(app_assoc (dec y ++ _)).
  change (lit "H") with [72]. apply csi_tame; auto; [|exact I]. rewrite !Forall_app. repeat split; try apply dec_okc.
  constructor; [unfold okc; cbn; lia|constructor].
Qed.
Lemma items_tame : forall ox oy items prev, buf_ok items -> tame Ground (render_items ox oy prev items) Ground.
Proof.
  intros ox oy. induction items as [|[[x y] ch] items IH]; intros prev H; cbn [render_items]; [apply tame_nil|].
  pose proof (Forall_inv H) as Hc. apply Forall_inv_tail in H. cbn in Hc. apply tame_app with (q' := Ground); [|apply IH; auto].
  destruct (match prev with Some (px, py) => _ | None => false end); auto. eapply tame_app; eauto. apply cup_tame.
Qed.
Lemma render_tame : forall s origin, buf_ok (sc_buf s) -> tame Ground (fst (render s origin false)) Ground.
Proof.
  intros s [ox oy] H. unfold render.
  assert (T : tame Ground (render_items ox oy None (gather (sc_buf s))) Ground).
  { apply items_tame. unfold buf_ok in *. rewrite Forall_forall in *. intros kv Hk. apply H.
    eapply Permutation_in; [apply gather_perm|exact Hk]. }
  cbn [fst]. destruct (endswith RESET _); auto. eapply tame_app; eauto. apply reset_tame. exact I.
Qed.
Lemma fill_ok : forall w h fill d, controls (fun _ => False) fill -> buf_ok d -> buf_ok (fill_buffer w h fill d).
Proof.
  intros w h fill d Hf. unfold fill_buffer. pose proof (fill_tame fill Hf) as T. revert d.
  induction (range h) as [|y l IH]; intros d Hd; cbn [fold_left]; auto. apply IH. clear IH. revert d Hd.
  induction (range w) as [|x k IH]; intros d Hd; cbn [fold_left]; auto. apply IH. now apply buf_set_ok.
Qed.
End Tame.
