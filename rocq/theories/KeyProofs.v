(** Mouse reports, keys, the feeder, reading. *)
From Coq Require Import ZArith List Bool String Lia.
From Verif Require Import PyBase PyLemmas SplitLemmas F64 SpaceModel ColorModel ColorSpec ColorProofs ColorProofs2 KeyTab CoreModel KeySpec.
Open Scope Z_scope.

(** * Lookup in dict literals *)
Lemma dict_get_app : forall A (d : list (str * A)) k acc,
  fold_left (fun acc kv => if str_eqb (fst kv) k then Some (snd kv) else acc) d acc =
  match dict_get d k with Some v => Some v | None => acc end.
Proof.
  intros A d k. unfold dict_get. induction d as [|[k' v] d IH]; intro acc; simpl; auto.
  rewrite IH. rewrite (IH (if str_eqb k' k then Some v else None)).
  destruct (fold_left _ d None); auto. destruct (str_eqb k' k); auto.
Qed.
Lemma dict_get_cons : forall A (d : list (str * A)) k k' v,
  dict_get ((k', v) :: d) k = match dict_get d k with Some w => Some w | None => if str_eqb k' k then Some v else None end.
Proof. intros. unfold dict_get at 1. simpl. now rewrite dict_get_app. Qed.
Lemma dict_get_none : forall A (d : list (str * A)) k, dict_get d k = None <-> ~ In k (map fst d).
Proof.
  intros A d k. induction d as [|[k' v] d IH].
  - unfold dict_get. simpl. tauto.
  - rewrite dict_get_cons. simpl. destruct (dict_get d k) eqn:E.
    + split; [discriminate|]. intro H. exfalso. apply H. right. apply Decidable.not_not.
      * destruct (in_dec (list_eq_dec Z.eq_dec) k (map fst d)); [now left|now right].
      * intro N. destruct IH as [_ IH]. specialize (IH N). discriminate.
    + destruct (str_eqb k' k) eqn:EK.
      * apply str_eqb_eq in EK. subst. split; [discriminate|tauto].
      * apply str_eqb_neq in EK. tauto.
Qed.
Lemma dict_get_in : forall A (d : list (str * A)) k v, dict_get d k = Some v -> In (k, v) d.
Proof.
  intros A d k v. induction d as [|[k' v'] d IH]; [discriminate|]. rewrite dict_get_cons.
  destruct (dict_get d k) eqn:E.
  - intro H. injection H as ->. right. auto.
  - destruct (str_eqb k' k) eqn:EK; [|discriminate]. apply str_eqb_eq in EK. intro H. injection H as ->. left. now subst.
Qed.

(** * Mouse reports *)
Definition name_as (pressed : bool) (name : str) : str :=
  if pressed then name else replace (lit "click") (lit "release") name.

Lemma mouse_table : forallb (fun n => forallb (fun pressed =>
    match option_map (name_as pressed) (dict_get MOUSE_EVENTS (dec n)), mouse_event n pressed with
    | Some a, Some b => str_eqb a b | None, None => true | _, _ => false end) [true; false]) (range 128) = true.
Proof. vm_compute. reflexivity. Qed.
Lemma mouse_keys : forallb (fun k => existsb (fun n => str_eqb (dec n) k) (range 128)) (map fst MOUSE_EVENTS) = true.
Proof. vm_compute. reflexivity. Qed.

Lemma mouse_lookup : forall n pressed, 0 <= n < 128 ->
  option_map (name_as pressed) (dict_get MOUSE_EVENTS (dec n)) = mouse_event n pressed.
Proof.
  intros n pressed H. pose proof mouse_table as T. rewrite forallb_forall in T.
  specialize (T n (proj2 (in_range 128 n) H)). rewrite forallb_forall in T.
  specialize (T pressed ltac:(destruct pressed; simpl; auto)). 
  destruct (option_map _ _); destruct (mouse_event n pressed); try discriminate; auto.
  apply str_eqb_eq in T. now subst.
Qed.
Lemma mouse_unknown : forall k, (forall n, 0 <= n < 128 -> k <> dec n) -> dict_get MOUSE_EVENTS k = None.
Proof.
  intros k H. apply dict_get_none. intro I. pose proof mouse_keys as T. rewrite forallb_forall in T.
  specialize (T k I). apply existsb_exists in T. destruct T as [n [R E]]. apply str_eqb_eq in E. apply in_range in R.
  apply (H n R). now symmetry.
Qed.
Lemma mouse_lookup_any : forall n pressed, 0 <= n ->
  option_map (name_as pressed) (dict_get MOUSE_EVENTS (dec n)) = mouse_event n pressed.
Proof.
  intros n pressed H. destruct (Z_lt_ge_dec n 128) as [L|L]; [apply mouse_lookup; lia|].
  rewrite mouse_unknown.
  - unfold mouse_event. replace (n <? 128) with false by (symmetry; apply Z.ltb_ge; lia). now rewrite andb_false_r.
  - intros m Hm E. apply dec_inj in E; lia.
Qed.

Lemma slice_init : forall y c, slice None (Some (-1)) (y ++ [c]) = y.
Proof.
  intros y c. unfold slice. rewrite zlen_app, zlen_cons, zlen_nil. unfold clamp_index. change (-1 <? 0) with true.
  cbv iota. replace (-1 + (zlen y + (1 + 0))) with (zlen y) by lia. pose proof (zlen_nonneg _ y).
  replace (zlen y <? 0) with false by (symmetry; apply Z.ltb_ge; lia).
  replace (zlen y + (1 + 0) <? zlen y) with false by (symmetry; apply Z.ltb_ge; lia).
  cbv iota. rewrite Z.sub_0_r. unfold zlen. rewrite Nat2Z.id. simpl. rewrite firstn_app, Nat.sub_diag, firstn_all. simpl.
  now rewrite app_nil_r.
Qed.
Lemma index_last : forall y c, index (-1) (y ++ [c]) = Ok [c].
Proof.
  intros y c. unfold index. rewrite zlen_app, zlen_cons, zlen_nil. change (-1 <? 0) with true. cbv iota.
  pose proof (zlen_nonneg _ y). replace (-1 + (zlen y + (1 + 0))) with (zlen y) by lia.
  replace (zlen y <? 0) with false by (symmetry; apply Z.ltb_ge; lia).
  replace (zlen y + (1 + 0) <=? zlen y) with false by (symmetry; apply Z.leb_gt; lia). simpl.
  unfold zlen. rewrite Nat2Z.id, nth_error_app2, Nat.sub_diag by lia. reflexivity.
Qed.

Lemma count_char_app : forall c a b, count_char c (a ++ b) = count_char c a + count_char c b.
Proof. intros. unfold count_char. now rewrite filter_app, zlen_app. Qed.
Lemma count_char_none : forall c s, ~ In c s <-> count_char c s = 0.
Proof.
  intros c s. unfold count_char. induction s as [|a s IH]; simpl; [rewrite zlen_nil; tauto|].
  destruct (Z.eqb_spec c a) as [E|E].
  - rewrite zlen_cons. pose proof (zlen_nonneg _ (filter (Z.eqb c) s)) as P. split; [|lia]. intro H. exfalso. apply H. now left.
  - rewrite <- IH. split; [tauto|]. intros H [H1|H1]; [congruence|tauto].
Qed.

Lemma lstrip_spec : forall f s, exists lead rest, s = lead ++ rest /\ lstrip_by f s = rest /\
  (forall c, In c lead -> f c = true) /\ match rest with [] => True | c :: _ => f c = false end.
Proof.
  intros f s. induction s as [|a s IH].
  - exists [], []. repeat split; intros c [].
  - simpl. destruct (f a) eqn:E.
    + destruct IH as [lead [rest [-> [E1 [E2 E3]]]]]. exists (a :: lead), rest. split; [reflexivity|]. split; [exact E1|].
      split; [|exact E3]. intros c [<-|I]; auto.
    + exists [], (a :: s). repeat split; [intros c []|exact E].
Qed.

(** The whole function: what is not exactly three fields is no mouse event; three fields decode to
    the event named by the first, the last character telling press from release *)
Lemma parse_mouse_spec : forall code,
  (count_char 59 code <> 2 /\ parse_mouse_event code = Ok None) \/
  exists lead event x y, code = lead ++ event ++ [59] ++ x ++ [59] ++ y /\
    ~ In 59 event /\ ~ In 59 x /\ ~ In 59 y /\ (forall c, In c lead -> In c [27; 91; 60]) /\
    match event with [] => True | c :: _ => ~ In c [27; 91; 60] end /\
    match rev y with
    | [] => parse_mouse_event code = Err IndexError
    | final :: ry => mouse_reading event x (rev ry) final (parse_mouse_event code)
    end.
Proof.
  intro code. unfold parse_mouse_event. destruct (Z.eq_dec (count_char 59 code) 2) as [C|C].
  2: { left. split; auto. rewrite (proj2 (Z.eqb_neq _ _) C). now rewrite orb_true_r. }
  right. rewrite (proj2 (Z.eqb_eq _ _) C). rewrite orb_false_r.
  assert (NE : str_eqb code [ESC] = false).
  { apply str_eqb_neq. intros ->. discriminate. }
  rewrite NE. destruct (lstrip_spec is_mouse_lead code) as [lead [rest [E [E1 [E2 E3]]]]]. rewrite E1.
  assert (LD : forall c, is_mouse_lead c = true <-> In c [27; 91; 60]).
  { intro c. unfold is_mouse_lead, ESC. rewrite !orb_true_iff, !Z.eqb_eq. simpl. intuition auto. }
  assert (C0 : count_char 59 lead = 0).
  { apply count_char_none. intro I. apply E2 in I. discriminate. }
  assert (CR : count_char 59 rest = 2) by (rewrite E, count_char_app in C; lia).
  pose proof (split_on_length 59 rest) as L. rewrite CR in L.
  pose proof (split_on_no_sep 59 rest) as NS. pose proof (join_split_on 59 rest) as J.
  destruct (split_on 59 rest) as [|event [|x [|y [|z l]]]] eqn:S; try discriminate; rewrite ?zlen_cons, ?zlen_nil in L;
    try (pose proof (zlen_nonneg _ l); lia); try lia.
  simpl in J. exists lead, event, x, y.
  inversion NS as [|? ? N1 NS1]. inversion NS1 as [|? ? N2 NS2]. inversion NS2 as [|? ? N3 NS3]. subst.
  split; [simpl in *; congruence|]. split; [auto|]. split; [auto|]. split; [auto|].
  split; [intros c I; apply LD; auto|]. split.
  { destruct event as [|c event]; auto. simpl in E3. rewrite <- LD. congruence. }
  destruct y as [|c y] using rev_ind.
  { reflexivity. }
  rewrite slice_init, index_last. cbn [bindr]. rewrite rev_app_distr. cbn [rev app]. rewrite rev_involutive.
  assert (EP : str_eqb [c] (lit "M") = (c =? 77)) by (simpl; now rewrite andb_true_r). rewrite EP.
  destruct (existsb (fun n => str_eqb (dec n) event) (range 128)) eqn:X.
  - left. apply existsb_exists in X. destruct X as [n [R X]]. apply str_eqb_eq in X. apply in_range in R. exists n. split; [lia|].
    split; [now symmetry|]. subst event. pose proof (mouse_lookup n (c =? 77) R) as M. unfold name_as in M.
    destruct (dict_get MOUSE_EVENTS (dec n)); simpl in M; rewrite <- M; reflexivity.
  - right. assert (U : forall n, 0 <= n < 128 -> event <> dec n).
    { intros n R ->. rewrite <- not_true_iff_false in X. apply X. apply existsb_exists. exists n.
      split; [now apply in_range|]. now apply str_eqb_eq. }
    split; [exact U|]. now rewrite (mouse_unknown _ U).
Qed.

(** Reports of the protocol *)
Lemma parse_report : forall n x y final, 0 <= n -> ~ In 59 x -> ~ In 59 y -> final <> 59 ->
  parse_mouse_event (mouse_report (dec n) x y final) =
  match mouse_event n (final =? 77) with
  | Some ev => Ok (Some (event_text ev x y))
  | None => Err KeyError
  end.
Proof.
  intros n x y final Hn Hx Hy Hf. unfold parse_mouse_event, mouse_report.
  set (code := [27; 91; 60] ++ dec n ++ [59] ++ x ++ [59] ++ y ++ [final]).
  assert (C : count_char 59 code = 2).
  { unfold code. rewrite !count_char_app. rewrite (proj1 (count_char_none 59 x) Hx), (proj1 (count_char_none 59 y) Hy).
    rewrite (proj1 (count_char_none 59 (dec n))) by (apply dec_no_char; lia).
    rewrite (proj1 (count_char_none 59 [final])) by (simpl; intuition congruence). reflexivity. }
  rewrite C. assert (NE : str_eqb code [ESC] = false) by reflexivity. rewrite NE. simpl (negb (2 =? 2)). cbv iota. simpl orb. cbv iota.
  assert (LS : lstrip_by is_mouse_lead code = dec n ++ 59 :: (x ++ 59 :: (y ++ [final]))).
  { unfold code. simpl. destruct (dec n) as [|d l] eqn:E; [now apply dec_ne in E|]. simpl.
    assert (D : 48 <= d <= 57).
    { apply (forallb_digit_In (dec n)); [now apply dec_digits|rewrite E; now left]. }
    unfold is_mouse_lead, ESC. rewrite !(proj2 (Z.eqb_neq d _)) by lia. reflexivity. }
  rewrite LS. rewrite split_on_app by (apply dec_no_char; lia). rewrite split_on_app by assumption.
  rewrite split_on_single.
  2: { rewrite in_app_iff. simpl. intuition congruence. }
  rewrite slice_init, index_last. cbn [bindr].
  assert (EP : str_eqb [final] (lit "M") = (final =? 77)) by (simpl; now rewrite andb_true_r). rewrite EP.
  pose proof (mouse_lookup_any n (final =? 77) Hn) as M. unfold name_as in M.
  destruct (dict_get MOUSE_EVENTS (dec n)); simpl in M; rewrite <- M; reflexivity.
Qed.

(** * Keys *)
Lemma last_split_tail : forall a t, ~ In ESC t -> last (split_on ESC (a ++ ESC :: t)) [] = t.
Proof.
  intros a t N. induction a as [|c a IH].
  - change ([] ++ ESC :: t) with (ESC :: t). cbn [split_on]. rewrite Z.eqb_refl. rewrite split_on_single by assumption. reflexivity.
  - cbn [app split_on]. destruct (c =? ESC).
    + destruct (split_on ESC (a ++ ESC :: t)) eqn:E; [now apply split_on_ne in E|]. exact IH.
    + destruct (split_on ESC (a ++ ESC :: t)) as [|h [|h' r]] eqn:E; [now apply split_on_ne in E| |exact IH].
      exfalso. pose proof (split_on_length ESC (a ++ ESC :: t)) as L. rewrite E, zlen_cons, zlen_nil in L.
      rewrite count_char_app in L. change (ESC :: t) with ([ESC] ++ t) in L. rewrite count_char_app in L.
      change (count_char ESC [ESC]) with 1 in L. unfold count_char in L.
      pose proof (zlen_nonneg _ (filter (Z.eqb ESC) a)). pose proof (zlen_nonneg _ (filter (Z.eqb ESC) t)). lia.
Qed.
Lemma last_esc : forall k, In ESC k -> exists a t, k = a ++ ESC :: t /\ ~ In ESC t.
Proof.
  induction k as [|c k IH]; intros H; [destruct H|].
  destruct (in_dec Z.eq_dec ESC k) as [J|J].
  - destruct (IH J) as [a [t [-> N]]]. exists (c :: a), t. auto.
  - destruct H as [->|H]; [|tauto]. exists [], k. auto.
Qed.


Lemma decode_keyboard : forall k, keyboard k ->
  decode_key false k = match dict_get POSIX_KEY_NAMES k with Some names => Ok names | None => Ok [k] end.
Proof.
  intros k H. unfold decode_key, last_of.
  assert (C : count_char 59 (ESC :: last (split_on ESC k) []) <> 2).
  { change (ESC :: last (split_on ESC k) []) with ([ESC] ++ last (split_on ESC k) []).
    rewrite count_char_app. change (count_char 59 [ESC]) with 0. rewrite Z.add_0_l.
    destruct (in_dec Z.eq_dec ESC k) as [I|I].
    - destruct (last_esc k I) as [a [t [-> N]]]. rewrite last_split_tail by assumption. apply (H a); auto.
    - rewrite split_on_single by assumption. simpl. apply (H [] k); auto. }
  unfold parse_mouse_event. rewrite (proj2 (Z.eqb_neq _ _) C). rewrite orb_true_r. reflexivity.
Qed.

Lemma decode_plain : forall k, keyboard k -> dict_get POSIX_KEY_NAMES k = None -> decode_key false k = Ok [k].
Proof. intros k H E. rewrite decode_keyboard by assumption. now rewrite E. Qed.

(** a report is decoded whatever precedes it *)
Lemma decode_report : forall before n x y final, 0 <= n -> ~ In 59 x -> ~ In 59 y -> ~ In ESC x -> ~ In ESC y ->
  final <> 59 -> final <> ESC ->
  decode_key false (before ++ mouse_report (dec n) x y final) =
  match mouse_event n (final =? 77) with
  | Some ev => Ok [event_text ev x y]
  | None => Err KeyError
  end.
Proof.
  intros before n x y final Hn Hx Hy Ex Ey Hf Ef. unfold decode_key, last_of.
  change (mouse_report (dec n) x y final) with (ESC :: ([91; 60] ++ dec n ++ [59] ++ x ++ [59] ++ y ++ [final])).
  rewrite last_split_tail.
  - change (ESC :: ([91; 60] ++ dec n ++ [59] ++ x ++ [59] ++ y ++ [final])) with (mouse_report (dec n) x y final).
    rewrite parse_report by assumption. destruct (mouse_event n (final =? 77)); reflexivity.
  - unfold ESC in *. rewrite !in_app_iff. simpl. pose proof (dec_no_char n 27 Hn ltac:(lia)). intuition congruence.
Qed.

Lemma posix_names_ok : forallb (fun kv => match snd kv with [] => false | _ => true end) POSIX_KEY_NAMES = true.
Proof. vm_compute. reflexivity. Qed.
Lemma posix_seq_keyboard : forallb (fun kv => count_char 59 (fst kv) <? 2) POSIX_KEY_NAMES = true.
Proof. vm_compute. reflexivity. Qed.

Lemma keyboard_few : forall k, count_char 59 k < 2 -> keyboard k.
Proof.
  intros k H a t [E|E] _; subst; [|lia]. change (ESC :: t) with ([ESC] ++ t) in H.
  rewrite !count_char_app in H. change (count_char 59 [ESC]) with 0 in H.
  assert (0 <= count_char 59 a) by (unfold count_char; apply zlen_nonneg). lia.
Qed.

Lemma decode_known : forall k names, dict_get POSIX_KEY_NAMES k = Some names ->
  decode_key false k = Ok names /\ (forall n, In n names -> key_eqb_str names n = true) /\
  exists first, key_str names = Ok first /\ In first names.
Proof.
  intros k names H. pose proof (dict_get_in _ _ _ _ H) as I.
  pose proof posix_names_ok as P. rewrite forallb_forall in P. specialize (P _ I).
  pose proof posix_seq_keyboard as Q. rewrite forallb_forall in Q. specialize (Q _ I). apply Z.ltb_lt in Q.
  cbn [fst snd] in *. split; [rewrite decode_keyboard by (now apply keyboard_few); now rewrite H|].
  split; [intros n Hn; now apply str_in_In|]. destruct names as [|f names]; [discriminate|].
  exists f. split; [reflexivity|now left].
Qed.

(** * The feeder *)
Lemma feed_then_getch : forall M (cb : M -> M) mode intr t eof input, t <> [] ->
  getch_posix cb mode intr (feed t sio_empty) eof input = (sio_empty, mode, Returned (Ok t)).
Proof.
  intros M cb mode intr t eof input N. unfold feed, sio_write, sio_seek, sio_empty. simpl.
  assert (E : t ++ skipn (List.length t) [] = t) by (rewrite skipn_nil; apply app_nil_r). rewrite E.
  unfold getch_posix. simpl. destruct t; [congruence|]. reflexivity.
Qed.
Lemma feed_twice : forall t1 t2,
  sio_text (feed t2 (feed t1 sio_empty)) = t2 ++ skipn (List.length t2) t1 /\ sio_pos (feed t2 (feed t1 sio_empty)) = 0.
Proof.
  intros t1 t2. unfold feed, sio_write, sio_seek, sio_empty. simpl. rewrite skipn_nil, app_nil_r. auto.
Qed.

(** * UTF-8 *)
Lemma utf8_step_1 : forall b, b < 128 -> utf8_step [] b = Some ([b], []).
Proof. intros b H. unfold utf8_step. simpl. rewrite (proj2 (Z.ltb_lt b 128)) by lia. reflexivity. Qed.

Ltac zb := repeat match goal with
  | |- context [?a <? ?b] => first [rewrite (proj2 (Z.ltb_lt a b)) by lia | rewrite (proj2 (Z.ltb_ge a b)) by lia]
  | |- context [?a <=? ?b] => first [rewrite (proj2 (Z.leb_le a b)) by lia | rewrite (proj2 (Z.leb_gt a b)) by lia]
  | |- context [?a =? ?b] => first [rewrite (proj2 (Z.eqb_eq a b)) by lia | rewrite (proj2 (Z.eqb_neq a b)) by lia]
  end.

Lemma read1_utf8 : forall eof c rest, scalar c -> read1 eof [] (utf8 c ++ rest) = Returned ([c], [], rest).
Proof.
  intros eof c rest H. unfold scalar in H. unfold utf8.
  destruct (Z.ltb_spec c 128); [|destruct (Z.ltb_spec c 2048); [|destruct (Z.ltb_spec c 65536)]].
  - simpl. rewrite utf8_step_1 by lia. reflexivity.
  - pose proof (Z.div_mod c 64 ltac:(lia)). pose proof (Z.mod_pos_bound c 64 ltac:(lia)).
    set (a := c / 64) in *. set (b := c mod 64) in *. clearbody a b.
    cbn [app read1]. unfold utf8_step at 1. cbn [app]. zb. cbn [andb].
    cbn [app read1]. unfold utf8_step. cbn [app]. unfold is_cont. zb. cbn [andb].
    do 4 f_equal. lia.
  - pose proof (Z.div_mod c 64 ltac:(lia)). pose proof (Z.mod_pos_bound c 64 ltac:(lia)).
    pose proof (Z.div_mod (c / 64) 64 ltac:(lia)). pose proof (Z.mod_pos_bound (c / 64) 64 ltac:(lia)).
    assert (D : c / 4096 = c / 64 / 64) by (rewrite Z.div_div by lia; reflexivity). rewrite D.
    set (a := c / 64) in *. set (b := c mod 64) in *. set (d := a / 64) in *. set (e := a mod 64) in *. clearbody a b d e.
    cbn [app read1]. unfold utf8_step at 1. cbn [app]. zb. cbn [andb].
    cbn [app read1]. unfold utf8_step at 1. cbn [app].
    assert (SO : second_ok (224 + d) (128 + e) = true).
    { unfold second_ok, is_cont. zb. cbn [andb].
      destruct (Z.eqb_spec (224 + d) 224); [zb; reflexivity|].
      destruct (Z.eqb_spec (224 + d) 237); [zb; reflexivity|]. zb. reflexivity. }
    assert (NS : begins_surrogate (224 + d) (128 + e) = false).
    { unfold begins_surrogate. destruct (Z.eqb_spec (224 + d) 237); [zb; reflexivity|reflexivity]. }
    rewrite SO. cbn [orb]. zb. cbn [app read1]. unfold utf8_step. cbn [app]. unfold is_cont. rewrite NS. zb. cbn [andb negb].
    do 4 f_equal. lia.
  - pose proof (Z.div_mod c 64 ltac:(lia)). pose proof (Z.mod_pos_bound c 64 ltac:(lia)).
    pose proof (Z.div_mod (c / 64) 64 ltac:(lia)). pose proof (Z.mod_pos_bound (c / 64) 64 ltac:(lia)).
    pose proof (Z.div_mod (c / 64 / 64) 64 ltac:(lia)). pose proof (Z.mod_pos_bound (c / 64 / 64) 64 ltac:(lia)).
    assert (D : c / 4096 = c / 64 / 64) by (rewrite Z.div_div by lia; reflexivity). rewrite D.
    assert (D' : c / 262144 = c / 64 / 64 / 64) by (rewrite !Z.div_div by lia; reflexivity). rewrite D'.
    set (a := c / 64) in *. set (b := c mod 64) in *. set (d := a / 64) in *. set (e := a mod 64) in *.
    set (g := d / 64) in *. set (h := d mod 64) in *. clearbody a b d e g h.
    cbn [app read1]. unfold utf8_step at 1. cbn [app]. zb. cbn [andb].
    cbn [app read1]. unfold utf8_step at 1. cbn [app].
    assert (SO : second_ok (240 + g) (128 + h) = true).
    { unfold second_ok, is_cont. zb. cbn [andb].
      destruct (Z.eqb_spec (240 + g) 240); [zb; reflexivity|].
      destruct (Z.eqb_spec (240 + g) 244); [zb; reflexivity|]. reflexivity. }
    rewrite SO. cbn [orb]. zb. cbn [app read1]. unfold utf8_step at 1. cbn [app]. unfold is_cont. zb. cbn [andb].
    cbn [app read1]. unfold utf8_step. cbn [app]. unfold is_cont. zb. cbn [andb].
    do 4 f_equal. lia.
Qed.

Lemma utf8_ne : forall c, utf8 c <> [].
Proof. intro c. unfold utf8. destruct (c <? 128), (c <? 2048), (c <? 65536); discriminate. Qed.
Lemma utf8_len : forall c, (1 <= List.length (utf8 c))%nat.
Proof. intro c. pose proof (utf8_ne c). destruct (utf8 c); [congruence|]. simpl. lia. Qed.

Lemma read_ready_utf8 : forall cs fuel acc, Forall scalar cs ->
  (List.length (flat_map utf8 cs) <= fuel)%nat ->
  read_ready fuel false acc [] (flat_map utf8 cs) = Returned (acc ++ cs).
Proof.
  induction cs as [|c cs IH]; intros fuel acc H L.
  - destruct fuel; simpl; now rewrite app_nil_r.
  - inversion H; subst. cbn [flat_map] in *. rewrite app_length in L. pose proof (utf8_len c).
    destruct fuel as [|f]; [lia|].
    assert (E : read_ready (S f) false acc [] (utf8 c ++ flat_map utf8 cs) =
       match read1 false [] (utf8 c ++ flat_map utf8 cs) with
       | Returned (t, buf', rest) => read_ready f false (acc ++ t) buf' rest | Waits => Waits | Spins => Spins end).
    { destruct (utf8 c ++ flat_map utf8 cs) eqn:E; [|reflexivity]. exfalso. apply app_eq_nil in E. destruct E as [E _]. now apply utf8_ne in E. }
    rewrite E, read1_utf8 by assumption. rewrite IH by (auto; lia). now rewrite <- app_assoc.
Qed.
Lemma read_burst_utf8 : forall cs, cs <> [] -> Forall scalar cs -> read_burst false (flat_map utf8 cs) = Returned cs.
Proof.
  intros cs N H. destruct cs as [|c cs]; [congruence|]. inversion H; subst. unfold read_burst. cbn [flat_map].
  rewrite read1_utf8 by assumption. rewrite read_ready_utf8 by auto. reflexivity.
Qed.

(** at end of file nothing is ever returned *)
Lemma read_ready_eof : forall fuel acc buf input, read_ready fuel true acc buf input = Spins.
Proof.
  assert (R1 : forall input buf, read1 true buf input = Spins \/ exists t b r, read1 true buf input = Returned (t, b, r)).
  { induction input as [|b input IH]; intro buf; simpl; auto.
    destruct (utf8_step buf b) as [[[|x t] b']|]; eauto. }
  induction fuel as [|f IH]; intros acc buf input; destruct input as [|b input]; try reflexivity.
  cbn [read_ready]. destruct (R1 (b :: input) buf) as [->|[t [b' [r ->]]]]; auto.
Qed.
Lemma read_burst_eof : forall input, read_burst true input = Spins.
Proof.
  intro input. unfold read_burst.
  destruct (read1 true [] input) as [[[t b] r]| |] eqn:E; auto using read_ready_eof.
  exfalso. assert (R1 : forall input buf, read1 true buf input <> Waits).
  { induction input0 as [|b0 i IH]; intro buf; simpl; [discriminate|].
    destruct (utf8_step buf b0) as [[[|x t] b']|]; auto; discriminate. }
  now apply (R1 input []).
Qed.

(** a character whose bytes have not all arrived is waited for *)
Lemma read1_partial : forall c p r, scalar c -> utf8 c = p ++ r -> p <> [] -> r <> [] -> read1 false [] p = Waits.
Proof.
  intros c p r H E Np Nr. pose proof (read1_utf8 false c [] H) as F. rewrite app_nil_r, E in F.
  assert (G : forall p r buf t b rest, r <> [] -> read1 false buf (p ++ r) = Returned (t, b, rest) ->
     rest = [] -> read1 false buf p = Waits).
  { clear. induction p as [|x p IH]; intros r buf t b rest Nr F E; [reflexivity|].
    cbn [app read1] in *. destruct (utf8_step buf x) as [[[|y t'] b']|].
    - eapply IH; eauto.
    - injection F as _ _ F. exfalso. rewrite E in F. apply app_eq_nil in F. tauto.
    - injection F as _ _ F. exfalso. rewrite E in F. apply app_eq_nil in F. tauto. }
  eapply G; eauto.
Qed.
Lemma read_ready_partial : forall cs c p r fuel acc, Forall scalar cs -> scalar c -> utf8 c = p ++ r -> p <> [] -> r <> [] ->
  (List.length (flat_map utf8 cs ++ p) <= fuel)%nat ->
  read_ready fuel false acc [] (flat_map utf8 cs ++ p) = Waits.
Proof.
  induction cs as [|d cs IH]; intros c p r fuel acc H Hc E Np Nr L.
  - simpl in *. destruct p as [|x p]; [congruence|]. destruct fuel as [|f]; [simpl in L; lia|].
    cbn [read_ready]. rewrite (read1_partial c (x :: p) r Hc E Np Nr). reflexivity.
  - inversion H; subst. cbn [flat_map] in *. rewrite <- app_assoc in *. rewrite app_length in L. pose proof (utf8_len d).
    destruct fuel as [|f]; [lia|].
    assert (EE : read_ready (S f) false acc [] (utf8 d ++ flat_map utf8 cs ++ p) =
       match read1 false [] (utf8 d ++ flat_map utf8 cs ++ p) with
       | Returned (t, buf', rest) => read_ready f false (acc ++ t) buf' rest | Waits => Waits | Spins => Spins end).
    { destruct (utf8 d ++ flat_map utf8 cs ++ p) eqn:E'; [|reflexivity]. exfalso. apply app_eq_nil in E'. destruct E' as [E' _]. now apply utf8_ne in E'. }
    rewrite EE, read1_utf8 by assumption. apply (IH c p r); auto. lia.
Qed.
Lemma read_burst_partial : forall cs c p r, Forall scalar cs -> scalar c -> utf8 c = p ++ r -> p <> [] -> r <> [] ->
  read_burst false (flat_map utf8 cs ++ p) = Waits.
Proof.
  intros cs c p r H Hc E Np Nr. unfold read_burst. destruct cs as [|d cs].
  - simpl. now rewrite (read1_partial c p r).
  - inversion H; subst. cbn [flat_map]. rewrite <- app_assoc, read1_utf8 by assumption. apply (read_ready_partial cs c p r); auto.
Qed.
