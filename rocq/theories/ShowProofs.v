(** Lemmas: reading expressions does not depend on the bound; the tokens of printed numbers,
    strings and colors. *)
From Coq Require Import ZArith List Bool String Lia Reals Lra.
From Flocq Require Import Core IEEE754.BinarySingleNaN.
From Verif Require Import PyBase PyLemmas F64 FloatLemmas SpaceModel ColorModel SpanModel BlendProofs DecSpec DecProofs ReprModel ReprSpec
  SvgGeoProofs ReprProofs KeyUseModel KeyUseSpec KeyUseProofs ShowModel ShowSpec.
Import ListNotations.
Open Scope Z_scope.
Open Scope list_scope.

(** * The bound *)
Lemma tokens_mono : forall n t ts m, tokens n t = Some ts -> (n <= m)%nat -> tokens m t = Some ts.
Proof.
  induction n as [|n IH]; intros t ts m H L; [discriminate|]. destruct m as [|m]; [lia|]. assert (L' : (n <= m)%nat) by lia.
  cbn [tokens] in H |- *. destruct t as [|c r]; [exact H|].
  assert (O : forall k u x, option_map (cons (k : token)) (tokens n u) = Some x -> option_map (cons k) (tokens m u) = Some x).
  { intros k u x E. destruct (tokens n u) eqn:T; [|discriminate]. rewrite (IH _ _ _ T L'). exact E. }
  destruct (c =? 32); [now apply (IH _ _ _ H)|].
  destruct ((c =? 39) || (c =? 34)); [destruct (string_token c r) as [[s u]|]; [now apply O|discriminate]|].
  destruct (letter_char c); [destruct (name_token (c :: r)); now apply O|].
  destruct (digit_char c); [destruct (number_token false (c :: r)); now apply O|].
  destruct (symbol_char c); [now apply O|discriminate].
Qed.
Lemma parse_mono_both : forall n,
  (forall ts x m, parse n ts = Some x -> (n <= m)%nat -> parse m ts = Some x) /\
  (forall ts x m, parse_args n ts = Some x -> (n <= m)%nat -> parse_args m ts = Some x).
Proof.
  induction n as [|n [IH1 IH2]]; [split; discriminate|]. split; intros ts x m H L; (destruct m as [|m]; [lia|]); assert (L' : (n <= m)%nat) by lia.
  - cbn [parse] in H |- *. destruct ts as [|[t|s|f|c] r]; try exact H.
    + destruct r as [|[| | |c] r1]; try exact H. destruct (c =? 40); [|exact H].
      destruct (parse_args n r1) as [[l r2]|] eqn:E; [|discriminate]. rewrite (IH2 _ _ _ E L'). exact H.
    + destruct (c =? 45); [exact H|]. destruct (c =? 40); [|exact H].
      destruct (parse_args n r) as [[l r2]|] eqn:E; [|discriminate]. rewrite (IH2 _ _ _ E L'). exact H.
  - cbn [parse_args] in H |- *. destruct ts as [|tk r0]; [exact H|]. destruct (is_sym 41 tk); [exact H|].
    destruct (keyword (tk :: r0)) as [k r]. destruct (parse n r) as [[x1 [|tk1 r1]]|] eqn:E; try discriminate.
    rewrite (IH1 _ _ _ E L'). destruct (is_sym 41 tk1); [exact H|]. destruct (is_sym 44 tk1); [|exact H].
    destruct (parse_args n r1) as [[l r2]|] eqn:E2; [|discriminate]. rewrite (IH2 _ _ _ E2 L'). exact H.
Qed.
Lemma parse_mono : forall n ts x m, parse n ts = Some x -> (n <= m)%nat -> parse m ts = Some x.
Proof. intros n. exact (proj1 (parse_mono_both n)). Qed.
Lemma args_mono : forall n ts x m, parse_args n ts = Some x -> (n <= m)%nat -> parse_args m ts = Some x.
Proof. intros n. exact (proj2 (parse_mono_both n)). Qed.

Definition lexes (t : str) (ts : list token) : Prop := exists n, tokens n t = Some ts.
Definition parses (ts : list token) (x : expr) (r : list token) : Prop := exists n, parse n ts = Some (x, r).
Definition args_of (ts : list token) (l : list (option str * expr)) (r : list token) : Prop := exists n, parse_args n ts = Some (l, r).
Lemma lexes_unique : forall t a b, lexes t a -> lexes t b -> a = b.
Proof.
  intros t a b [n A] [m B]. apply (tokens_mono _ _ _ (Nat.max n m)) in A; [|lia]. apply (tokens_mono _ _ _ (Nat.max n m)) in B; [|lia]. congruence.
Qed.
Lemma parses_unique : forall ts x r x' r', parses ts x r -> parses ts x' r' -> x = x' /\ r = r'.
Proof.
  intros ts x r x' r' [n A] [m B]. apply (parse_mono _ _ _ (Nat.max n m)) in A; [|lia]. apply (parse_mono _ _ _ (Nat.max n m)) in B; [|lia].
  rewrite A in B. injection B as -> ->. auto.
Qed.
Lemma evaluates_iff : forall read t v, evaluates read t v <-> exists ts x, lexes t ts /\ parses ts x [] /\ eval read x = Some v.
Proof.
  intros read t v. split.
  - intros [n [ts [x [A [B C]]]]]. exists ts, x. split; [now exists n|]. split; [now exists n|exact C].
  - intros [ts [x [[n A] [[m B] C]]]]. exists (Nat.max n m), ts, x. split; [apply (tokens_mono _ _ _ _ A); lia|]. split; [apply (parse_mono _ _ _ _ B); lia|exact C].
Qed.
Lemma evaluates_unique : forall read t v v', evaluates read t v -> evaluates read t v' -> v = v'.
Proof.
  intros read t v v' H H'. apply evaluates_iff in H. apply evaluates_iff in H'. destruct H as [ts [x [A [B C]]]]. destruct H' as [ts' [x' [A' [B' C']]]].
  rewrite (lexes_unique _ _ _ A' A) in B'. destruct (parses_unique _ _ _ _ _ B B') as [-> _]. congruence.
Qed.

(** * Tokens *)
Definition delimiter (t : str) : Prop := match t with c :: _ => c = 41 \/ c = 44 | [] => False end.
Lemma lexes_nil : lexes [] [].
Proof. exists 1%nat. reflexivity. Qed.
Lemma lexes_space : forall r ts, lexes r ts -> lexes (32 :: r) ts.
Proof. intros r ts [n H]. exists (S n). cbn [tokens]. exact H. Qed.
Lemma lexes_sym : forall c r ts, In c [40; 41; 44; 61; 45] -> lexes r ts -> lexes (c :: r) (TSym c :: ts).
Proof.
  intros c r ts I [n H]. exists (S n). cbn [In] in I. destruct I as [<-|[<-|[<-|[<-|[<-|[]]]]]]; cbn [tokens]; rewrite H; reflexivity.
Qed.
Lemma name_token_app : forall m r, forallb name_char m = true -> match r with c :: _ => name_char c = false | [] => True end ->
  name_token (m ++ r) = (m, r).
Proof.
  induction m as [|c m IH]; intros r H D.
  - cbn [app]. destruct r as [|c r]; [reflexivity|]. cbn [name_token]. now rewrite D.
  - cbn [forallb] in H. apply andb_prop in H. destruct H as [H1 H2]. cbn [app name_token]. rewrite H1, (IH _ H2 D). reflexivity.
Qed.
Lemma letter_not : forall c, letter_char c = true -> (c =? 32) = false /\ ((c =? 39) || (c =? 34)) = false.
Proof.
  intros c H. unfold letter_char in H. apply orb_prop in H.
  assert (R : 65 <= c <= 122).
  { destruct H as [H|H]; [apply orb_prop in H; destruct H as [H|H]; apply andb_prop in H; rewrite !Z.leb_le in H; lia|apply Z.eqb_eq in H; lia]. }
  split; [apply Z.eqb_neq; lia|]. apply orb_false_iff. split; apply Z.eqb_neq; lia.
Qed.
Lemma lexes_name : forall m r ts, forallb name_char m = true -> match m with c :: _ => letter_char c = true | [] => False end ->
  match r with c :: _ => name_char c = false | [] => True end -> lexes r ts -> lexes (m ++ r) (TName m :: ts).
Proof.
  intros m r ts H1 H2 D [n H]. exists (S n). destruct m as [|c m]; [contradiction|]. destruct (letter_not c H2) as [A B].
  change ((c :: m) ++ r) with (c :: m ++ r). cbn [tokens]. rewrite A, B, H2. change (c :: m ++ r) with ((c :: m) ++ r).
  rewrite (name_token_app _ _ H1 D), H. reflexivity.
Qed.
Lemma digit_same : forall c, digit_char c = is_digit c. Proof. reflexivity. Qed.
Lemma number_plain : forall m b r, forallb digit_char m = true -> delimiter r -> number_token b (m ++ r) = (m, r).
Proof.
  induction m as [|c m IH]; intros b r H D.
  - destruct r as [|c r]; [contradiction|]. cbn [app number_token]. destruct D as [-> | ->]; cbn; rewrite andb_false_r; reflexivity.
  - cbn [forallb] in H. apply andb_prop in H. destruct H as [H1 H2]. cbn [app number_token]. rewrite H1. cbn [orb]. rewrite (IH _ _ H2 D). reflexivity.
Qed.
Lemma number_cons : forall b c r, number_token b (c :: r) =
  if digit_char c || (c =? 46) || (c =? 101) || (b && ((c =? 43) || (c =? 45)))
  then let '(n, u) := number_token (c =? 101) r in (c :: n, u) else ([], c :: r).
Proof. reflexivity. Qed.
Lemma digit10_char : forall c d, digit10 c = Some d -> digit_char c = true.
Proof. intros c d. unfold digit10, digit_char. destruct (_ && _); [reflexivity|discriminate]. Qed.
Lemma whole_chars : forall t a v, whole a t = Some v -> forallb digit_char t = true.
Proof.
  induction t as [|c t IH]; intros a v H; [reflexivity|]. cbn [whole] in H. destruct (digit10 c) eqn:E; [|discriminate].
  cbn [forallb]. rewrite (digit10_char _ _ E), (IH _ _ H). reflexivity.
Qed.
Lemma number_mantissa : forall t pt m e x b r, mantissa pt m e t = Some x -> delimiter r -> number_token b (t ++ r) = (t, r).
Proof.
  induction t as [|c t IH]; intros pt m e x b r H D; [now apply number_plain|].
  cbn [mantissa] in H. change ((c :: t) ++ r) with (c :: t ++ r). cbn [number_token].
  destruct (digit10 c) as [d|] eqn:E.
  - rewrite (digit10_char _ _ E). cbn [orb]. rewrite (IH _ _ _ _ _ _ H D). reflexivity.
  - destruct ((c =? 46) && negb pt) eqn:P.
    + apply andb_prop in P. destruct P as [P _]. rewrite P, orb_true_r. cbn [orb]. rewrite (IH _ _ _ _ _ _ H D). reflexivity.
    + destruct (c =? 101) eqn:E1; [|discriminate]. rewrite orb_true_r. cbn [orb].
      destruct (exponent t) as [v|] eqn:X; [|discriminate]. unfold exponent in X. destruct t as [|s [|d u]]; try discriminate.
      assert (Y : ((s =? 43) || (s =? 45)) = true /\ forallb digit_char (d :: u) = true).
      { destruct (s =? 45) eqn:S1; [split; [apply orb_true_r|]|].
        - destruct (whole 0 (d :: u)) eqn:W; [|discriminate]. now apply whole_chars in W.
        - destruct (s =? 43) eqn:S2; [|discriminate]. split; [reflexivity|]. now apply whole_chars in X. }
      destruct Y as [Y1 Y2]. change ((s :: d :: u) ++ r) with (s :: (d :: u) ++ r). rewrite number_cons, Y1.
      cbn [andb]. rewrite orb_true_r. rewrite (number_plain (d :: u) (s =? 101) r Y2 D). reflexivity.
Qed.
Lemma lexes_number : forall t r ts, match t with c :: _ => digit_char c = true | [] => False end ->
  number_token false (t ++ r) = (t, r) -> lexes r ts -> lexes (t ++ r) (TNum t :: ts).
Proof.
  intros t r ts H N [n T]. exists (S n). destruct t as [|c t]; [contradiction|]. change ((c :: t) ++ r) with (c :: t ++ r) in *. cbn [tokens].
  assert (R : 48 <= c <= 57) by (unfold digit_char in H; apply andb_prop in H; rewrite !Z.leb_le in H; lia).
  replace (c =? 32) with false by (symmetry; apply Z.eqb_neq; lia).
  replace ((c =? 39) || (c =? 34)) with false by (symmetry; apply orb_false_iff; split; apply Z.eqb_neq; lia).
  replace (letter_char c) with false.
  2: { symmetry. unfold letter_char. rewrite (proj2 (Z.leb_gt 97 c)), (proj2 (Z.leb_gt 65 c)) by lia. cbn [andb orb]. apply Z.eqb_neq; lia. }
  rewrite H, N, T. reflexivity.
Qed.
Lemma lexes_dec : forall k r ts, 0 <= k -> delimiter r -> lexes r ts -> lexes (dec k ++ r) (TNum (dec k) :: ts).
Proof.
  intros k r ts K D L. pose proof (dec_digits k K) as G. apply lexes_number; [|now apply number_plain|exact L].
  pose proof (dec_ne k). destruct (dec k) as [|c t]; [congruence|]. cbn [forallb] in G. apply andb_prop in G. apply G.
Qed.

(** strings *)
Lemma token_x : forall q a b r, q = 39 \/ q = 34 ->
  string_token q (92 :: 120 :: a :: b :: r) = put_char (number16 0 [a; b]) (string_token q r).
Proof. intros q a b r [-> | ->]; reflexivity. Qed.
Lemma token_u : forall q a b c d r, q = 39 \/ q = 34 ->
  string_token q (92 :: 117 :: a :: b :: c :: d :: r) = put_char (number16 0 [a; b; c; d]) (string_token q r).
Proof. intros q a b c d r [-> | ->]; reflexivity. Qed.
Lemma token_U : forall q a b c d a' b' c' d' r, q = 39 \/ q = 34 ->
  string_token q (92 :: 85 :: a :: b :: c :: d :: a' :: b' :: c' :: d' :: r) =
  put_char (number16 0 [a; b; c; d; a'; b'; c'; d']) (string_token q r).
Proof. intros q a b c d a' b' c' d' r [-> | ->]; reflexivity. Qed.
Lemma token_char : forall pr q c r, q = 39 \/ q = 34 -> character c ->
  string_token q (repr_char pr q c ++ r) = put_char (Some c) (string_token q r).
Proof.
  intros pr q c r Q H. unfold character in H. unfold repr_char.
  assert (N92 : (92 =? q) = false) by (apply Z.eqb_neq; lia).
  destruct (Z.eqb_spec c q) as [->|Nq].
  { cbn [orb app string_token]. rewrite N92. change (92 =? 10) with false. change (92 =? 92) with true.
    cbv iota. destruct Q as [-> | ->]; reflexivity. }
  destruct (Z.eqb_spec c 92) as [->|N].
  { cbn [orb app string_token]. rewrite N92. reflexivity. }
  cbn [orb]. destruct (Z.eqb_spec c 9) as [->|N9]; [cbn [app string_token]; rewrite N92; reflexivity|].
  destruct (Z.eqb_spec c 10) as [->|N10]; [cbn [app string_token]; rewrite N92; reflexivity|].
  destruct (Z.eqb_spec c 13) as [->|N13]; [cbn [app string_token]; rewrite N92; reflexivity|].
  assert (X : forall t, 0 <= c < 256 -> t = hex_pad 2 c -> string_token q (([92; 120] ++ t) ++ r) = put_char (Some c) (string_token q r)).
  { intros t Hc E. pose proof (number16_hex 2 c ltac:(cbn; lia)) as V. rewrite <- E in V. cbn [hex_pad app] in E. subst t.
    cbn [app]. rewrite token_x by exact Q. now rewrite V. }
  assert (P : string_token q ([c] ++ r) = put_char (Some c) (string_token q r)).
  { cbn [app string_token]. rewrite (proj2 (Z.eqb_neq c q)), (proj2 (Z.eqb_neq c 10)), (proj2 (Z.eqb_neq c 92)) by assumption. reflexivity. }
  destruct ((c <? 32) || (c =? 127)) eqn:L.
  { apply X; [|reflexivity]. apply orb_true_iff in L. rewrite Z.ltb_lt, Z.eqb_eq in L. lia. }
  destruct (Z.ltb_spec c 127); [exact P|]. destruct (pr c); [exact P|].
  destruct (Z.ltb_spec c 256); [apply X; [lia|reflexivity]|].
  destruct (Z.ltb_spec c 65536).
  - pose proof (number16_hex 4 c ltac:(cbn; lia)) as V. cbn [hex_pad app] in V |- *. rewrite token_u by exact Q. now rewrite V.
  - pose proof (number16_hex 8 c ltac:(cbn; lia)) as V. cbn [hex_pad app] in V |- *. rewrite token_U by exact Q. now rewrite V.
Qed.
Lemma token_string : forall pr q s r, q = 39 \/ q = 34 -> Forall character s ->
  string_token q (flat_map (repr_char pr q) s ++ q :: r) = Some (s, r).
Proof.
  intros pr q s r Q H. induction H as [|c s Hc H IH].
  - cbn [flat_map app string_token]. now rewrite Z.eqb_refl.
  - cbn [flat_map]. rewrite <- app_assoc, token_char by assumption. now rewrite IH.
Qed.
Lemma lexes_string : forall pr s r ts, Forall character s -> lexes r ts -> lexes (repr_str pr s ++ r) (TStr s :: ts).
Proof.
  intros pr s r ts H [n L]. exists (S n). unfold repr_str. pose proof (repr_quote_is s) as Q. set (q := repr_quote s) in *. clearbody q.
  change ((q :: flat_map (repr_char pr q) s ++ [q]) ++ r) with (q :: (flat_map (repr_char pr q) s ++ [q]) ++ r).
  rewrite <- app_assoc. change ([q] ++ r) with (q :: r). cbn [tokens].
  replace (q =? 32) with false by (destruct Q as [-> | ->]; reflexivity).
  replace ((q =? 39) || (q =? 34)) with true by (destruct Q as [-> | ->]; reflexivity).
  rewrite token_string by assumption. rewrite L. reflexivity.
Qed.

(** * The shape of printed floats *)
Lemma place_shape : forall ds pt, forallb is_digit ds = true -> ds <> [] ->
  match place_point ds pt with c :: _ => digit_char c = true | [] => False end /\ forallb digit_char (place_point ds pt) = false.
Proof.
  intros ds pt D N. unfold place_point.
  assert (P : forall a b : str, forallb digit_char b = false -> forallb digit_char (a ++ b) = false).
  { intros a b H. rewrite forallb_app, H. apply andb_false_r. }
  assert (F : forall k (r : str), (0 < k)%nat -> match firstn k ds ++ r with c :: _ => digit_char c = true | [] => False end).
  { intros k r K. destruct ds as [|c ds]; [congruence|]. destruct k; [lia|]. cbn [firstn app]. cbn [forallb] in D. apply andb_prop in D. apply D. }
  destruct (_ && _).
  - destruct (pt <=? 0) eqn:L; [split; reflexivity|]. apply Z.leb_gt in L. destruct (pt <? zlen ds).
    + split; [apply F; lia|apply P; reflexivity].
    + split; [|apply P, P; reflexivity]. pose proof (F (List.length ds) (repeat_char 48 (pt - zlen ds) ++ lit ".0")) as G. rewrite firstn_all in G. apply G. destruct ds; [congruence|cbn; lia].
  - cbv zeta. split; [apply F; lia|]. apply P, P. reflexivity.
Qed.
Lemma float_shape : forall x, is_finite x = true -> (2 * Rabs (B2R x) + 1 <= big)%R ->
  exists body, float_repr x = (if fsign x then [45] else []) ++ body /\
    match body with c :: _ => digit_char c = true | [] => False end /\ forallb digit_char body = false /\
    exists me, mantissa false 0 0 body = Some me.
Proof.
  intros x F B. unfold float_repr. unfold f_nan, f_finite. replace (is_nan x) with false by (destruct x; try discriminate; reflexivity). rewrite F. cbn [negb].
  eexists. split; [reflexivity|].
  destruct (feqb x fzero) eqn:Z0; [split; [reflexivity|split; [reflexivity|eexists; reflexivity]]|].
  assert (P0 : (0 < Rabs (B2R x))%R).
  { apply Rabs_pos_lt. intro E0. unfold feqb in Z0. rewrite Beqb_correct in Z0 by (exact F || reflexivity). rewrite E0 in Z0. cbn [fzero B2R] in Z0.
    rewrite Req_bool_true in Z0 by reflexivity. discriminate. }
  destruct (fraction_of x) as [num den] eqn:Fr. destruct (shortest _ _ _ _ _) as [q p] eqn:Sh.
  destruct (shortest_reads x num den _ q p F P0 B Fr first_ns Sh) as [Q R].
  pose proof (digits_reads q p Q) as [m [e [M _]]]. rewrite M.
  pose proof (dec_digits q ltac:(lia)) as D. pose proof (dec_val q ltac:(lia)) as V.
  destruct (strip_zeros (dec q) D) as [n [Hn E]]. set (ds := rstrip_by is_zero_digit (dec q)) in *.
  rewrite E in D. rewrite forallb_app in D. apply andb_prop in D. destruct D as [D _].
  assert (V2 : q = (dval ds * 10 ^ n)%Z) by (rewrite <- V at 1; rewrite E, dval_app, repeat_val, repeat_len by lia; ring).
  assert (N : ds <> []) by (intro E0; rewrite E0 in V2; unfold dval in V2; cbn in V2; lia).
  destruct (place_shape ds (zlen (dec q) - p) D N) as [S1 S2]. split; [exact S1|]. split; [exact S2|]. eexists. reflexivity.
Qed.
