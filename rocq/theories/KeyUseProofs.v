(** Lemmas about the names of keys, Key objects, [repr] and the commands. *)
From Coq Require Import ZArith List Bool String Lia.
From Verif Require Import PyBase PyLemmas SplitLemmas F64 SpaceModel ColorModel AnsiRe SpanModel KeyTab CoreModel MainModel
  KeySpec KeyProofs KeyProofs2 Vt KeyUseModel KeyUseSpec.
Import ListNotations.
Open Scope Z_scope.
Open Scope list_scope.

(** * Names *)
Definition all_buttons : list button :=
  flat_map (fun m => map (Arrow (m + 1)) [Up; Down; Right_; Left_]) (range 8) ++
  map (fun n => Function (n + 1)) (range 12) ++ map (fun c => Ctrl (c + 97)) (range 26) ++
  [Insert; Delete; Home; End_; PageUp; PageDown; Tab; BackTab; Enter; Escape; Backspace; AltBackspace].
Lemma all_buttons_in : forall b, on_keyboard b -> In b all_buttons.
Proof.
  intros b H. unfold all_buttons. rewrite !in_app_iff.
  destruct b; cbn [on_keyboard] in H; try (right; right; right; cbn [In]; tauto).
  - left. apply in_flat_map. exists (modifiers - 1). split; [apply in_range; lia|].
    replace (modifiers - 1 + 1) with modifiers by lia. destruct d; cbn [map In]; tauto.
  - right. left. apply in_map_iff. exists (n - 1). split; [f_equal; lia|apply in_range; lia].
  - right. right. left. apply in_map_iff. exists (letter - 97). split; [f_equal; lia|apply in_range; lia].
Qed.

Definition good (b : button) : bool := tabled b && negb (swapped b).
Definition names_of (k : str) : list str := match dict_get POSIX_KEY_NAMES k with Some l => l | None => [] end.
Lemma sent_named : forallb (fun b => negb (good b) || forallb (fun k => str_in (called b) (names_of k)) (sends b)) all_buttons = true.
Proof. vm_compute. reflexivity. Qed.
Lemma sent_unnamed : forallb (fun b => tabled b || forallb (fun k => (count_char 59 k <? 2) && negb (str_in k (map fst POSIX_KEY_NAMES))) (sends b)) all_buttons = true.
Proof. vm_compute. reflexivity. Qed.
Lemma named_sent : forallb (fun b => negb (good b) || forallb (fun kv => negb (str_in (called b) (snd kv)) || str_in (fst kv) (sends b)) POSIX_KEY_NAMES) all_buttons = true.
Proof. vm_compute. reflexivity. Qed.
Lemma called_text : forallb (fun b => (count_char 59 (called b) <? 2) && negb (str_in (called b) (map fst POSIX_KEY_NAMES)) &&
  negb (startswith (lit "mouse:") (called b))) all_buttons = true.
Proof. vm_compute. reflexivity. Qed.
Lemma called_facts : forall b, on_keyboard b -> keyboard (called b) /\ dict_get POSIX_KEY_NAMES (called b) = None /\
  startswith (lit "mouse:") (called b) = false.
Proof.
  intros b H. pose proof called_text as T. rewrite forallb_forall in T. specialize (T b (all_buttons_in b H)).
  rewrite !andb_true_iff, !negb_true_iff in T. destruct T as [[T1 T2] T3]. apply Z.ltb_lt in T1.
  split; [now apply keyboard_few|]. split; [|exact T3]. apply dict_get_none. intro I. apply str_in_In in I. congruence.
Qed.

Lemma names_ok : forall k n, In n (names_of k) -> decode_key false k = Ok (names_of k).
Proof.
  intros k n. unfold names_of. destruct (dict_get POSIX_KEY_NAMES k) as [l|] eqn:E; [|intros []].
  intros _. apply (decode_known k l E).
Qed.
Lemma button_named : forall b k, on_keyboard b -> tabled b = true -> swapped b = false -> In k (sends b) ->
  exists names, decode_key false k = Ok names /\ key_eq names (OStr (called b)) = true.
Proof.
  intros b k H T S I. pose proof sent_named as F. rewrite forallb_forall in F. specialize (F b (all_buttons_in b H)).
  unfold good in F. rewrite T, S in F. cbn [negb orb andb] in F. rewrite forallb_forall in F. specialize (F k I).
  exists (names_of k). split; [|exact F]. apply (names_ok k (called b)). now apply str_in_In.
Qed.
Lemma button_unnamed : forall b k, on_keyboard b -> tabled b = false -> In k (sends b) -> decode_key false k = Ok [k].
Proof.
  intros b k H T I. pose proof sent_unnamed as F. rewrite forallb_forall in F. specialize (F b (all_buttons_in b H)).
  rewrite T in F. cbn [orb] in F. rewrite forallb_forall in F. specialize (F k I).
  rewrite andb_true_iff, negb_true_iff in F. destruct F as [F1 F2]. apply Z.ltb_lt in F1.
  apply decode_plain; [now apply keyboard_few|]. apply dict_get_none. intro J. apply str_in_In in J. congruence.
Qed.
Lemma event_is_mouse : forall ev x y, startswith (lit "mouse:") (event_text ev x y) = true.
Proof. intros ev x y. unfold event_text. reflexivity. Qed.
Lemma parse_is_mouse : forall code t, parse_mouse_event code = Ok (Some t) -> startswith (lit "mouse:") t = true.
Proof.
  intros code t H. destruct (parse_mouse_spec code) as [[_ E]|[lead [event [x [y [_ [_ [_ [_ [_ [_ R]]]]]]]]]]]; [congruence|].
  destruct (rev y) as [|f ry]; [congruence|]. destruct R as [[n [_ [_ R]]]|[_ R]]; [|congruence].
  rewrite R in H. destruct (mouse_event n (f =? 77)); [|discriminate]. injection H as <-. apply event_is_mouse.
Qed.
Lemma decode_cases : forall k names, decode_key false k = Ok names ->
  (exists t, names = [t] /\ startswith (lit "mouse:") t = true) \/ dict_get POSIX_KEY_NAMES k = Some names \/ names = [k].
Proof.
  intros k names. unfold decode_key. destruct (parse_mouse_event _) as [[t|]|] eqn:E; cbn [bindr].
  - intro H. injection H as <-. left. exists t. split; [reflexivity|]. now apply parse_is_mouse in E.
  - destruct (dict_get POSIX_KEY_NAMES k) as [l|]; intro H; injection H as <-; auto.
  - discriminate.
Qed.
Lemma button_only : forall b k, on_keyboard b -> tabled b = true -> swapped b = false ->
  ((exists names, decode_key false k = Ok names /\ key_eq names (OStr (called b)) = true) <-> In k (sends b) \/ k = called b).
Proof.
  intros b k H T S. destruct (called_facts b H) as [K [N M]]. split.
  - intros [names [D E]]. cbn [key_eq] in E. apply str_in_In in E.
    destruct (decode_cases k names D) as [[t [-> P]]|[P| ->]].
    + destruct E as [->|[]]. congruence.
    + left. pose proof named_sent as F. rewrite forallb_forall in F. specialize (F b (all_buttons_in b H)).
      unfold good in F. rewrite T, S in F. cbn [negb orb andb] in F. rewrite forallb_forall in F.
      specialize (F _ (dict_get_in _ _ _ _ P)). cbn [fst snd] in F. rewrite orb_true_iff, negb_true_iff in F.
      destruct F as [F|F]; [apply str_in_In in E; congruence|now apply str_in_In].
    + right. destruct E as [->|[]]. reflexivity.
  - intros [I| ->]; [now apply button_named|]. exists [called b]. split; [now apply decode_plain|].
    cbn [key_eq key_eqb_str]. apply str_in_In. now left.
Qed.
Lemma typed_name : forall b, on_keyboard b -> decode_key false (called b) = Ok [called b] /\ key_eq [called b] (OStr (called b)) = true.
Proof.
  intros b H. destruct (called_facts b H) as [K [N M]]. split; [now apply decode_plain|]. apply str_in_In. now left.
Qed.

(** * Key objects *)
Lemma in_list_spec : forall k l, in_list k l = true <-> exists n, In n k /\ In n l.
Proof.
  intros k l. unfold in_list. rewrite existsb_exists. split.
  - intros [s [I E]]. exists s. split; [now apply str_in_In|exact I].
  - intros [n [I J]]. exists n. split; [exact J|now apply str_in_In].
Qed.

(** * repr *)
Lemma digit16_hex : forall n, 0 <= n < 16 -> digit16 (hex_char n) = Some n.
Proof.
  intros n H. unfold hex_char, digit16. destruct (Z.ltb_spec n 10).
  - rewrite (proj2 (Z.leb_le 48 _)), (proj2 (Z.leb_le _ 57)) by lia. cbn [andb]. f_equal. lia.
  - rewrite (proj2 (Z.leb_gt _ 57)) by lia. rewrite andb_false_r.
    rewrite (proj2 (Z.leb_le 97 _)), (proj2 (Z.leb_le _ 102)) by lia. cbn [andb]. f_equal. lia.
Qed.
Lemma number16_app : forall a acc b, number16 acc (a ++ b) = match number16 acc a with Some v => number16 v b | None => None end.
Proof.
  induction a as [|c a IH]; intros acc b; [reflexivity|]. cbn [app number16]. destruct (digit16 c); [apply IH|reflexivity].
Qed.
Lemma number16_hex : forall d n, 0 <= n < 16 ^ Z.of_nat d -> number16 0 (hex_pad d n) = Some n.
Proof.
  induction d as [|d IH]; intros n H.
  - cbn [hex_pad number16]. change (16 ^ Z.of_nat 0) with 1 in H. f_equal. lia.
  - cbn [hex_pad]. rewrite number16_app. rewrite Nat2Z.inj_succ, Z.pow_succ_r in H by lia.
    rewrite IH by (split; [apply Z.div_pos; lia|apply Z.div_lt_upper_bound; lia]).
    cbn [number16]. rewrite digit16_hex by (apply Z.mod_pos_bound; lia). f_equal. pose proof (Z.div_mod n 16). lia.
Qed.
Lemma hex_char_plain : forall n, 0 <= n < 16 -> is_ctl (hex_char n) = false.
Proof.
  intros n H. unfold hex_char, is_ctl. destruct (Z.ltb_spec n 10);
  (rewrite (proj2 (Z.ltb_ge _ 32)) by lia; rewrite (proj2 (Z.leb_gt 127 _)) by lia; reflexivity).
Qed.
Lemma hex_pad_plain : forall d n, 0 <= n -> Forall (fun c => is_ctl c = false) (hex_pad d n).
Proof.
  induction d as [|d IH]; intros n H; [constructor|]. cbn [hex_pad]. apply Forall_app. split.
  - apply IH. apply Z.div_pos; lia.
  - constructor; [|constructor]. apply hex_char_plain. apply Z.mod_pos_bound. lia.
Qed.

Lemma literal_x : forall q a b r, q = 39 \/ q = 34 ->
  literal_rest q (92 :: 120 :: a :: b :: r) = add_char (number16 0 [a; b]) (literal_rest q r).
Proof. intros q a b r [-> | ->]; reflexivity. Qed.
Lemma literal_u : forall q a b c d r, q = 39 \/ q = 34 ->
  literal_rest q (92 :: 117 :: a :: b :: c :: d :: r) = add_char (number16 0 [a; b; c; d]) (literal_rest q r).
Proof. intros q a b c d r [-> | ->]; reflexivity. Qed.
Lemma literal_U : forall q a b c d a' b' c' d' r, q = 39 \/ q = 34 ->
  literal_rest q (92 :: 85 :: a :: b :: c :: d :: a' :: b' :: c' :: d' :: r) =
  add_char (number16 0 [a; b; c; d; a'; b'; c'; d']) (literal_rest q r).
Proof. intros q a b c d a' b' c' d' r [-> | ->]; reflexivity. Qed.
Lemma repr_char_read : forall pr q c r, q = 39 \/ q = 34 -> character c ->
  literal_rest q (repr_char pr q c ++ r) = add_char (Some c) (literal_rest q r).
Proof.
  intros pr q c r Q H. unfold character in H. unfold repr_char.
  assert (N92 : (92 =? q) = false) by (apply Z.eqb_neq; lia).
  destruct (Z.eqb_spec c q) as [->|Nq].
  { cbn [orb app literal_rest]. rewrite N92. change (92 =? 10) with false. change (92 =? 92) with true.
    cbv iota. destruct Q as [-> | ->]; reflexivity. }
  destruct (Z.eqb_spec c 92) as [->|N].
  { cbn [orb app literal_rest]. rewrite N92. reflexivity. }
  cbn [orb]. destruct (Z.eqb_spec c 9) as [->|N9]; [cbn [app literal_rest]; rewrite N92; reflexivity|].
  destruct (Z.eqb_spec c 10) as [->|N10]; [cbn [app literal_rest]; rewrite N92; reflexivity|].
  destruct (Z.eqb_spec c 13) as [->|N13]; [cbn [app literal_rest]; rewrite N92; reflexivity|].
  assert (X : forall t, 0 <= c < 256 -> t = hex_pad 2 c -> literal_rest q (([92; 120] ++ t) ++ r) = add_char (Some c) (literal_rest q r)).
  { intros t Hc E. pose proof (number16_hex 2 c ltac:(cbn; lia)) as V. rewrite <- E in V. cbn [hex_pad app] in E. subst t.
    cbn [app]. rewrite literal_x by exact Q. now rewrite V. }
  assert (P : literal_rest q ([c] ++ r) = add_char (Some c) (literal_rest q r)).
  { cbn [app literal_rest]. rewrite (proj2 (Z.eqb_neq c q)), (proj2 (Z.eqb_neq c 10)), (proj2 (Z.eqb_neq c 92)) by assumption. reflexivity. }
  destruct ((c <? 32) || (c =? 127)) eqn:L.
  { apply X; [|reflexivity]. apply orb_true_iff in L. rewrite Z.ltb_lt, Z.eqb_eq in L. lia. }
  destruct (Z.ltb_spec c 127); [exact P|]. destruct (pr c); [exact P|].
  destruct (Z.ltb_spec c 256); [apply X; [lia|reflexivity]|].
  destruct (Z.ltb_spec c 65536).
  - pose proof (number16_hex 4 c ltac:(cbn; lia)) as V. cbn [hex_pad app] in V |- *. rewrite literal_u by exact Q. now rewrite V.
  - pose proof (number16_hex 8 c ltac:(cbn; lia)) as V. cbn [hex_pad app] in V |- *. rewrite literal_U by exact Q. now rewrite V.
Qed.
Lemma repr_quote_is : forall s, repr_quote s = 39 \/ repr_quote s = 34.
Proof. intro s. unfold repr_quote. destruct (_ && _); auto. Qed.
Lemma repr_literal : forall pr s, Forall character s -> literal (repr_str pr s) = Some s.
Proof.
  intros pr s H. unfold repr_str, literal. destruct (repr_quote_is s) as [Q|Q]; rewrite Q; change (39 =? 39) with true; change (34 =? 39) with false;
    change (34 =? 34) with true; cbn [orb]; cbv iota.
  - clear Q. induction H as [|c s Hc H IH]; [reflexivity|]. cbn [flat_map]. rewrite <- app_assoc. rewrite repr_char_read by auto. now rewrite IH.
  - clear Q. induction H as [|c s Hc H IH]; [reflexivity|]. cbn [flat_map]. rewrite <- app_assoc. rewrite repr_char_read by auto. now rewrite IH.
Qed.
Lemma repr_char_plain : forall pr q c, (forall x, 128 <= x <= 159 -> pr x = false) -> q = 39 \/ q = 34 -> character c ->
  Forall (fun c => is_ctl c = false) (repr_char pr q c).
Proof.
  intros pr q c HP Q H. unfold character in H. unfold repr_char.
  assert (Hx : forall d k, (k = 120 \/ k = 117 \/ k = 85) -> Forall (fun c => is_ctl c = false) ([92; k] ++ hex_pad d c)).
  { intros d k K. cbn [app]. constructor; [reflexivity|]. constructor; [destruct K as [->|[->| ->]]; reflexivity|]. apply hex_pad_plain. lia. }
  destruct (Z.eqb_spec c q) as [->|Nq].
  { cbn [orb]. constructor; [reflexivity|]. constructor; [destruct Q as [-> | ->]; reflexivity|constructor]. }
  destruct (Z.eqb_spec c 92) as [->|N]; [cbn [orb]; repeat constructor|]. cbn [orb].
  destruct (Z.eqb_spec c 9) as [->|N9]; [repeat constructor|]. destruct (Z.eqb_spec c 10) as [->|N10]; [repeat constructor|].
  destruct (Z.eqb_spec c 13) as [->|N13]; [repeat constructor|].
  destruct ((c <? 32) || (c =? 127)) eqn:L; [apply Hx; auto|]. apply orb_false_iff in L. rewrite Z.ltb_ge, Z.eqb_neq in L.
  destruct (Z.ltb_spec c 127).
  { constructor; [|constructor]. unfold is_ctl. rewrite (proj2 (Z.ltb_ge c 32)), (proj2 (Z.leb_gt 127 c)) by lia. reflexivity. }
  destruct (pr c) eqn:P.
  { constructor; [|constructor]. unfold is_ctl. rewrite (proj2 (Z.ltb_ge c 32)) by lia. cbn [orb].
    destruct (Z.leb_spec c 159); [|apply andb_false_r]. rewrite HP in P by lia. discriminate. }
  destruct (c <? 256); [apply Hx; auto|]. destruct (c <? 65536); apply Hx; auto.
Qed.
Lemma repr_plain : forall pr s, (forall x, 128 <= x <= 159 -> pr x = false) -> Forall character s ->
  Forall (fun c => is_ctl c = false) (repr_str pr s).
Proof.
  intros pr s HP H. unfold repr_str. pose proof (repr_quote_is s) as Q. set (q := repr_quote s) in *. clearbody q.
  assert (Cq : is_ctl q = false) by (destruct Q as [-> | ->]; reflexivity).
  constructor; [exact Cq|]. apply Forall_app. split; [|constructor; [exact Cq|constructor]].
  induction H as [|c s Hc H IH]; [constructor|]. cbn [flat_map]. apply Forall_app. split; [now apply repr_char_plain|exact IH].
Qed.

(** * [slate getch] *)
Lemma getch_raw : forall e pr typed, (forall x, 128 <= x <= 159 -> pr x = false) -> Forall character typed ->
  exists line, run_getch e pr true typed = (prompt e ++ line ++ [NL], Ok tt) /\ literal line = Some typed /\
    Forall (fun c => is_ctl c = false) line.
Proof.
  intros e pr typed HP H. exists (repr_str pr typed). unfold run_getch. cbn [decode_key]. split; [reflexivity|].
  split; [now apply repr_literal|now apply repr_plain].
Qed.
Lemma table_names_plain : forallb (fun kv => forallb (fun n => (1 <? zlen n) && forallb (fun c => negb (is_ctl c)) n) (snd kv)) POSIX_KEY_NAMES = true.
Proof. vm_compute. reflexivity. Qed.
Lemma getch_named : forall e pr k names, dict_get POSIX_KEY_NAMES k = Some names ->
  run_getch e pr false k = (prompt e ++ join (lit " | ") names ++ [NL], Ok tt) /\
  Forall (fun c => is_ctl c = false) (join (lit " | ") names).
Proof.
  intros e pr k names H. unfold run_getch. rewrite (proj1 (decode_known k names H)).
  pose proof table_names_plain as T. rewrite forallb_forall in T. specialize (T _ (dict_get_in _ _ _ _ H)). cbn [snd] in T.
  rewrite forallb_forall in T. split.
  - unfold getch_line. repeat f_equal. rewrite <- (map_id names) at 2. apply map_ext_in. intros n I. specialize (T n I).
    rewrite andb_true_iff in T. destruct T as [T _]. apply Z.ltb_lt in T. cbn [orb]. rewrite (proj2 (Z.eqb_neq _ _)) by lia. reflexivity.
  - assert (F : Forall (Forall (fun c => is_ctl c = false)) names).
    { apply Forall_forall. intros n I. specialize (T n I). rewrite andb_true_iff in T. destruct T as [_ T].
      rewrite forallb_forall in T. apply Forall_forall. intros c J. specialize (T c J). now apply negb_true_iff in T. }
    clear -F. induction F as [|a r Ha F IH]; [constructor|]. destruct r as [|b r]; [exact Ha|].
    change (join (lit " | ") (a :: b :: r)) with (a ++ lit " | " ++ join (lit " | ") (b :: r)).
    apply Forall_app. split; [exact Ha|]. apply Forall_app. split; [repeat constructor|exact IH].
Qed.
Lemma getch_char : forall e pr c, (forall x, 128 <= x <= 159 -> pr x = false) -> character c -> dict_get POSIX_KEY_NAMES [c] = None ->
  exists line, run_getch e pr false [c] = (prompt e ++ line ++ [NL], Ok tt) /\ literal line = Some [c] /\
    Forall (fun c => is_ctl c = false) line.
Proof.
  intros e pr c HP H N. exists (repr_str pr [c]). unfold run_getch. rewrite decode_plain.
  - split; [reflexivity|]. split; [apply repr_literal|apply repr_plain; [exact HP|]]; (constructor; [exact H|constructor]).
  - apply keyboard_few. unfold count_char. cbn [filter]. match goal with |- context [if ?b then _ else _] => destruct b end; reflexivity.
  - exact N.
Qed.
(** what is neither is printed as it came *)
Lemma getch_verbatim : forall e pr k, keyboard k -> dict_get POSIX_KEY_NAMES k = None -> zlen k <> 1 ->
  run_getch e pr false k = (prompt e ++ k ++ [NL], Ok tt).
Proof.
  intros e pr k K N L. unfold run_getch. rewrite decode_plain by assumption. unfold getch_line. cbn [map join orb].
  rewrite (proj2 (Z.eqb_neq _ _) L). reflexivity.
Qed.

(** * More about keys *)
Lemma home_end : (exists names, decode_key false (CSI (lit "H")) = Ok names /\ key_eq names (OStr (lit "home")) = false) /\
  (exists names, decode_key false (CSI (lit "F")) = Ok names /\ key_eq names (OStr (lit "end")) = false) /\
  (exists names, decode_key false (CSI (lit "H")) = Ok names /\ key_eq names (OStr (lit "end")) = true) /\
  (exists names, decode_key false (CSI (lit "F")) = Ok names /\ key_eq names (OStr (lit "home")) = true).
Proof. repeat split; eexists; split; vm_compute; reflexivity. Qed.
Lemma unnamed_wrong : forall b k, on_keyboard b -> tabled b = false -> In k (sends b) ->
  exists names, decode_key false k = Ok names /\ key_eq names (OStr (called b)) = false.
Proof.
  intros b k H T I. exists [k]. split; [now apply (button_unnamed b)|]. cbn [key_eq key_eqb_str].
  destruct (key_eqb_str [k] (called b)) eqn:E; [|reflexivity]. exfalso. apply str_in_In in E. destruct E as [->|[]].
  destruct b; try discriminate T; cbn [sends called] in I; cbn [tabled] in T.
  - destruct I as [I|[]]. cbn [on_keyboard] in H. unfold CSI, prefix in I. destruct (modifiers =? 1);
    destruct (Z.testbit (modifiers - 1) 2); destruct (Z.testbit (modifiers - 1) 1); destruct (Z.testbit (modifiers - 1) 0); destruct d; discriminate I.
  - destruct I as [I|[]]; discriminate I.
  - destruct I as [I|[]]; discriminate I.
Qed.
Lemma keys_differ : forall k k', key_eq k (OKey k') = false.
Proof. reflexivity. Qed.
Lemma in_set_raises : forall k l, in_set k l = Err TypeError.
Proof. reflexivity. Qed.
Lemma getch_escape : exists k, keyboard k /\ forall e pr, exists line,
  run_getch e pr false k = (prompt e ++ line ++ [NL], Ok tt) /\ In 27 line.
Proof.
  exists (CSI (lit "5~")). split; [apply keyboard_few; reflexivity|]. intros e pr. exists (CSI (lit "5~")). split; [|now left].
  apply getch_verbatim; [apply keyboard_few; reflexivity|reflexivity|discriminate].
Qed.
Lemma getch_crash : forall e pr x y, 0 <= x -> 0 <= y ->
  run_getch e pr false (mouse_report (dec 1) (dec x) (dec y) 77) = (prompt e, Err KeyError).
Proof.
  intros e pr x y Hx Hy. unfold run_getch. pose proof (decode_report [] 1 (dec x) (dec y) 77 ltac:(lia)) as D. cbn [app] in D.
  rewrite D; try (apply dec_no_char; unfold ESC; lia); try discriminate. reflexivity.
Qed.
