(** Lemmas: printed colors and spans as arguments of calls. *)
From Coq Require Import ZArith List Bool String Lia Reals Lra.
From Flocq Require Import Core IEEE754.BinarySingleNaN.
From Verif Require Import PyBase PyLemmas F64 FloatLemmas SpaceModel ColorModel SpanModel BlendProofs DecSpec DecProofs ReprModel ReprSpec
  SvgGeoProofs ReprProofs KeyUseModel KeyUseSpec KeyUseProofs SpanProofs ShowModel ShowSpec ShowProofs.
Import ListNotations.
Open Scope Z_scope.
Open Scope list_scope.

Definition after (r : list token) : Prop := match r with TSym c :: _ => c = 41 \/ c = 44 | _ => False end.
(** [text] is an expression with value [v], wherever an argument may stand *)
Definition item (read : str -> f64) (text : str) (v : value) : Prop :=
  exists toks x, (forall r ts, delimiter r -> lexes r ts -> lexes (text ++ r) (toks ++ ts)) /\
    (forall r, after r -> parses (toks ++ r) x r) /\ eval read x = Some v.
(** ... and anywhere *)
Definition closed_item (read : str -> f64) (text : str) (v : value) : Prop :=
  exists toks x, (forall r ts, lexes r ts -> lexes (text ++ r) (toks ++ ts)) /\
    (forall r, parses (toks ++ r) x r) /\ eval read x = Some v.
Lemma closed_is_item : forall read t v, closed_item read t v -> item read t v.
Proof. intros read t v [toks [x [A [B C]]]]. exists toks, x. split; [auto|]. split; [auto|exact C]. Qed.
Lemma closed_evaluates : forall read t v, closed_item read t v -> evaluates read t v.
Proof.
  intros read t v [toks [x [A [B C]]]]. apply evaluates_iff. exists toks, x. split; [|split; [|exact C]].
  - specialize (A [] [] lexes_nil). now rewrite !app_nil_r in A.
  - specialize (B []). now rewrite app_nil_r in B.
Qed.
Definition name_ok (k : str) : Prop := forallb name_char k = true /\ match k with c :: _ => letter_char c = true | [] => False end.
Definition kv := (str * (str * value))%type.
Definition show_kv (a : kv) : str := fst a ++ lit "=" ++ fst (snd a).
Definition joined (l : list kv) : str := join (lit ", ") (map show_kv l).
Definition kv_ok (read : str -> f64) (a : kv) : Prop := name_ok (fst a) /\ item read (fst (snd a)) (snd (snd a)).
Definition arg_value (a : kv) : option str * value := (Some (fst a), snd (snd a)).
Definition eval_arg (read : str -> f64) (a : option str * expr) : option (option str * value) :=
  option_map (pair (fst a)) (eval read (snd a)).

Lemma args_step : forall n k r, parse_args (S n) (TName k :: TSym 61 :: r) =
  match parse n r with
  | Some (x, tk1 :: r1) =>
      if is_sym 41 tk1 then Some ([(Some k, x)], r1)
      else if is_sym 44 tk1 then match parse_args n r1 with Some (l, r2) => Some ((Some k, x) :: l, r2) | None => None end
      else None
  | _ => None
  end.
Proof. reflexivity. Qed.
Lemma args_nil : forall ts, args_of (TSym 41 :: ts) [] ts.
Proof. intro ts. exists 1%nat. reflexivity. Qed.
Lemma args_last : forall k toks x ts, parses (toks ++ TSym 41 :: ts) x (TSym 41 :: ts) ->
  args_of (TName k :: TSym 61 :: toks ++ TSym 41 :: ts) [(Some k, x)] ts.
Proof. intros k toks x ts [n H]. exists (S n). rewrite args_step, H. reflexivity. Qed.
Lemma args_cons : forall k toks x rest l ts, parses (toks ++ TSym 44 :: rest) x (TSym 44 :: rest) -> args_of rest l ts ->
  args_of (TName k :: TSym 61 :: toks ++ TSym 44 :: rest) ((Some k, x) :: l) ts.
Proof.
  intros k toks x rest l ts [n H] [m A]. exists (S (Nat.max n m)). rewrite args_step.
  rewrite (parse_mono _ _ _ (Nat.max n m) H) by lia. change (is_sym 41 (TSym 44)) with false. change (is_sym 44 (TSym 44)) with true. cbv iota. rewrite (args_mono _ _ _ (Nat.max n m) A) by lia. reflexivity.
Qed.
Lemma lexes_kv : forall a toks r ts, name_ok (fst a) -> lexes (fst (snd a) ++ r) (toks ++ ts) ->
  lexes (show_kv a ++ r) (TName (fst a) :: TSym 61 :: toks ++ ts).
Proof.
  intros a toks r ts [N1 N2] H. unfold show_kv. rewrite <- !app_assoc. apply lexes_name; [exact N1|exact N2|reflexivity|].
  apply lexes_sym; [cbn; tauto|exact H].
Qed.
Lemma items_ok : forall read kvs, Forall (kv_ok read) kvs -> exists toks l,
  (forall r ts, lexes r ts -> lexes (joined kvs ++ 41 :: r) (toks ++ TSym 41 :: ts)) /\
  (forall ts, args_of (toks ++ TSym 41 :: ts) l ts) /\
  all_some (map (eval_arg read) l) = Some (map arg_value kvs).
Proof.
  intros read kvs H. induction H as [|a kvs [N [toks [x [L [P E]]]]] H IH].
  - exists [], []. split; [|split; [apply args_nil|reflexivity]]. intros r ts Hr. apply lexes_sym; [cbn; tauto|exact Hr].
  - destruct kvs as [|b kvs].
    + exists (TName (fst a) :: TSym 61 :: toks), [(Some (fst a), x)]. split; [|split].
      * intros r ts Hr. change (joined [a]) with (show_kv a). cbn [app]. apply lexes_kv; [exact N|].
        apply L; [now left|]. apply lexes_sym; [cbn; tauto|exact Hr].
      * intros ts. cbn [app]. apply args_last. apply P. now left.
      * cbn [map all_some]. unfold eval_arg at 1. cbn [fst snd]. rewrite E. reflexivity.
    + destruct IH as [toks' [l [L' [A' E']]]].
      exists (TName (fst a) :: TSym 61 :: toks ++ TSym 44 :: toks'), ((Some (fst a), x) :: l). split; [|split].
      * intros r ts Hr. change (joined (a :: b :: kvs)) with (show_kv a ++ lit ", " ++ joined (b :: kvs)).
        rewrite <- !app_assoc. cbn [app]. rewrite <- app_assoc. apply lexes_kv; [exact N|]. apply L; [now right|].
        apply (lexes_sym 44); [cbn; tauto|]. apply (lexes_space). apply L'. exact Hr.
      * intros ts. cbn [app]. rewrite <- app_assoc. cbn [app]. apply args_cons; [apply P; now right|apply A'].
      * change (map arg_value (a :: b :: kvs)) with (arg_value a :: map arg_value (b :: kvs)).
        change (map (eval_arg read) ((Some (fst a), x) :: l)) with (eval_arg read (Some (fst a), x) :: map (eval_arg read) l).
        unfold eval_arg at 1. cbn [fst snd]. rewrite E. cbn [option_map all_some]. rewrite E'. reflexivity.
Qed.

Lemma parses_call : forall f rest l r, args_of rest l r -> parses (TName f :: TSym 40 :: rest) (ECall f l) r.
Proof. intros f rest l r [n H]. exists (S n). cbn [parse Z.eqb]. change (40 =? 40) with true. cbv iota. rewrite H. reflexivity. Qed.
Lemma call_item : forall read f kvs v, name_ok f -> Forall (kv_ok read) kvs -> call f (map arg_value kvs) = Some v ->
  closed_item read (f ++ lit "(" ++ joined kvs ++ lit ")") v.
Proof.
  intros read f kvs v [N1 N2] K C. destruct (items_ok read kvs K) as [toks [l [L [A E]]]].
  exists (TName f :: TSym 40 :: toks ++ [TSym 41]), (ECall f l). split; [|split].
  - intros r ts Hr. rewrite <- !app_assoc. cbn [app]. rewrite <- app_assoc. apply lexes_name; [exact N1|exact N2|reflexivity|].
    apply (lexes_sym 40); [cbn; tauto|]. apply L. exact Hr.
  - intros r. cbn [app]. rewrite <- app_assoc. apply parses_call. apply A.
  - cbn [eval]. fold (eval_arg read). replace (all_some _) with (Some (map arg_value kvs)) by (symmetry; exact E). exact C.
Qed.
(** with one positional string first, which a comma follows *)
Lemma call_item_string : forall read f pr s kvs v, name_ok f -> Forall character s -> Forall (kv_ok read) kvs ->
  call f ((None, VStr s) :: map arg_value kvs) = Some v ->
  closed_item read (f ++ lit "(" ++ repr_str pr s ++ lit ", " ++ joined kvs ++ lit ")") v.
Proof.
  intros read f pr s kvs v [N1 N2] Sc K C. destruct (items_ok read kvs K) as [toks [l [L [A E]]]].
  exists (TName f :: TSym 40 :: TStr s :: TSym 44 :: toks ++ [TSym 41]), (ECall f ((None, EStr s) :: l)). split; [|split].
  - intros r ts Hr. rewrite <- !app_assoc. cbn [app]. rewrite <- app_assoc. apply lexes_name; [exact N1|exact N2|reflexivity|].
    apply (lexes_sym 40); [cbn; tauto|]. apply lexes_string; [exact Sc|]. apply (lexes_sym 44); [cbn; tauto|]. apply lexes_space. apply L. exact Hr.
  - intros r. cbn [app]. rewrite <- app_assoc. apply parses_call. destruct (A r) as [n An]. exists (S (S n)).
    change (parse_args (S (S n)) (TStr s :: TSym 44 :: toks ++ [TSym 41] ++ r)) with
      (match parse_args (S n) (toks ++ [TSym 41] ++ r) with Some (l, r2) => Some ((None (A:=str), EStr s) :: l, r2) | None => None end).
    cbn [app]. rewrite (args_mono _ _ _ (S n) An) by lia. reflexivity.
  - cbn [eval]. fold (eval_arg read).
    change (map (eval_arg read) ((None, EStr s) :: l)) with (Some (None (A:=str), VStr s) :: map (eval_arg read) l).
    match goal with |- context [all_some ?a] => change a with (Some (None (A:=str), VStr s) :: map (eval_arg read) l) end.
    cbn [all_some]. rewrite E. exact C.
Qed.
(** * Values *)
Lemma item_true : forall read, item read (lit "True") (VBool true).
Proof.
  intro read. exists [TName (lit "True")], (EName (lit "True")). split; [|split; [|reflexivity]].
  - intros r ts D H. apply lexes_name; [reflexivity|reflexivity| |exact H]. destruct r as [|c r]; [exact I|]. destruct D as [-> | ->]; reflexivity.
  - intros r A. exists 1%nat. destruct r as [|[| | |c] r]; try contradiction. destruct A as [-> | ->]; reflexivity.
Qed.
Lemma item_string : forall read pr s, Forall character s -> item read (repr_str pr s) (VStr s).
Proof.
  intros read pr s H. exists [TStr s], (EStr s). split; [|split; [|reflexivity]].
  - intros r ts _ Hr. now apply lexes_string.
  - intros r _. exists 1%nat. reflexivity.
Qed.
Lemma eval_dec : forall read k, 0 <= k -> eval read (ENum (dec k)) = Some (VInt k).
Proof.
  intros read k K. cbn [eval]. rewrite (dec_digits k K : forallb digit_char (dec k) = true). rewrite (whole_digits _ _ (dec_digits k K)). rewrite dec_val by exact K. reflexivity.
Qed.
Lemma item_triple : forall read r g b, 0 <= r -> 0 <= g -> 0 <= b ->
  item read (lit "(" ++ join (lit ", ") [dec r; dec g; dec b] ++ lit ")") (VTuple [VInt r; VInt g; VInt b]).
Proof.
  intros read r g b R G B.
  exists [TSym 40; TNum (dec r); TSym 44; TNum (dec g); TSym 44; TNum (dec b); TSym 41], (ETuple [ENum (dec r); ENum (dec g); ENum (dec b)]).
  split; [|split].
  - intros t ts _ H. rewrite !join_cons. change (join (lit ", ") [dec b]) with (dec b). rewrite <- !app_assoc. cbn [app].
    apply (lexes_sym 40); [cbn; tauto|]. apply lexes_dec; [exact R|now right|]. apply (lexes_sym 44); [cbn; tauto|]. apply lexes_space.
    apply lexes_dec; [exact G|now right|]. apply (lexes_sym 44); [cbn; tauto|]. apply lexes_space.
    apply lexes_dec; [exact B|now left|]. apply (lexes_sym 41); [cbn; tauto|exact H].
  - intros t _. exists 5%nat. reflexivity.
  - change (eval read (ETuple [ENum (dec r); ENum (dec g); ENum (dec b)])) with
      (option_map VTuple (all_some [eval read (ENum (dec r)); eval read (ENum (dec g)); eval read (ENum (dec b))])).
    rewrite !eval_dec by assumption. reflexivity.
Qed.
Lemma bounded_back : forall v x, rnd v = x -> (2 * Rabs x + 1 <= big)%R -> (Rabs v <= big)%R.
Proof.
  intros v x E B. destruct (Rle_or_lt (Rabs v) big) as [H|H]; [exact H|exfalso]. pose proof (Rabs_pos x).
  assert (big <= Rabs x)%R; [|lra]. rewrite <- E. destruct (Rle_or_lt 0 v) as [P|P].
  - rewrite (Rabs_pos_eq v P) in H. apply Rle_trans with (rnd v); [|apply Rle_abs]. apply rnd_ge; [apply big_fmt|lra].
  - rewrite (Rabs_left v P) in H. rewrite <- Rabs_Ropp, <- rnd_opp. apply Rle_trans with (rnd (- v)); [|apply Rle_abs]. apply rnd_ge; [apply big_fmt|lra].
Qed.
Lemma item_float : forall read x, reader read -> is_finite x = true -> (2 * Rabs (B2R x) + 1 <= big)%R ->
  exists y, item read (float_repr x) (VFloat y) /\ is_finite y = true /\ B2R y = B2R x.
Proof.
  intros read x Rd F B. destruct (repr_reads x F B) as [v [Rv Ev]]. destruct (Rd _ _ Rv (bounded_back v _ Ev B)) as [Fy Ey].
  exists (read (float_repr x)). split; [|split; [exact Fy|rewrite Ey; exact Ev]].
  destruct (float_shape x F B) as [body [E [Hd [Nd [me M]]]]]. destruct Rv as [m [e [Rn _]]].
  assert (V : forall t, t = float_repr x -> eval read (ENum t) = Some (VFloat (read (float_repr x)))).
  { intros t ->. cbn [eval]. rewrite Rn. replace (forallb digit_char (float_repr x)) with false; [reflexivity|]. rewrite E, forallb_app, Nd. symmetry. apply andb_false_r. }
  destruct (fsign x).
  - exists [TSym 45; TNum body], (ENum (45 :: body)). split; [|split; [|apply V; now rewrite E]].
    + intros r ts D H. rewrite E. cbn [app]. apply (lexes_sym 45); [cbn; tauto|]. apply lexes_number; [exact Hd|apply (number_mantissa _ _ _ _ _ _ _ M D)|exact H].
    + intros r _. exists 1%nat. reflexivity.
  - exists [TNum body], (ENum body). split; [|split; [|apply V; now rewrite E]].
    + intros r ts D H. rewrite E. cbn [app]. apply lexes_number; [exact Hd|apply (number_mantissa _ _ _ _ _ _ _ M D)|exact H].
    + intros r _. exists 1%nat. reflexivity.
Qed.

(** * Colors *)
Lemma valid_nonneg : forall r g b, valid_rgb (r, g, b) = true -> 0 <= r /\ 0 <= g /\ 0 <= b.
Proof.
  intros r g b H. unfold valid_rgb, in_channel in H. apply andb_prop in H. destruct H as [H H3]. apply andb_prop in H. destruct H as [H1 H2].
  apply andb_prop in H1, H2, H3. rewrite !Z.leb_le in *. tauto.
Qed.
Lemma item_color : forall read c, reader read -> printable c -> exists c', closed_item read (color_repr c) (VColor c') /\ plain_again c c'.
Proof.
  intros read c Rd [V [F B]]. unfold plain_again. destruct c as [[[r g] b] bg a o k]. cbn [c_rgb c_alpha c_bg c_origin c_ctor] in *.
  destruct (valid_nonneg r g b V) as [R0 [G0 B0]]. pose proof (item_triple read r g b R0 G0 B0) as T.
  set (tt := lit "(" ++ join (lit ", ") [dec r; dec g; dec b] ++ lit ")") in *.
  unfold color_repr. cbn [c_rgb c_alpha]. fold tt.
  assert (PC : forall y, plain_color (r, g, b) false y = Ok (mkColor (r, g, b) false y TRUE_COLOR None)).
  { intro y. unfold plain_color, new_color. now rewrite V. }
  destruct (feqb a fone) eqn:A1.
  - exists (mkColor (r, g, b) false fone TRUE_COLOR None). split.
    + pose proof (call_item read (lit "Color") [(lit "rgb", (tt, VTuple [VInt r; VInt g; VInt b]))] (VColor (mkColor (r, g, b) false fone TRUE_COLOR None))) as H.
      change (joined [(lit "rgb", (tt, VTuple [VInt r; VInt g; VInt b]))]) with (lit "rgb" ++ lit "=" ++ tt) in H.
      rewrite <- !app_assoc in H. apply H; [split; reflexivity| |].
      * constructor; [|constructor]. split; [split; reflexivity|exact T].
      * specialize (PC fone). cbv -[plain_color fone] in PC |- *. rewrite PC. reflexivity.
    + cbn [c_rgb c_alpha c_bg c_origin c_ctor]. split; [reflexivity|]. split; [|split; [reflexivity|auto]]. symmetry. apply feqb_value; [exact F|reflexivity|exact A1].
  - destruct (item_float read a Rd F B) as [y [I [Fy Ey]]]. exists (mkColor (r, g, b) false y TRUE_COLOR None). split.
    + pose proof (call_item read (lit "Color") [(lit "rgb", (tt, VTuple [VInt r; VInt g; VInt b])); (lit "alpha", (float_repr a, VFloat y))]
        (VColor (mkColor (r, g, b) false y TRUE_COLOR None))) as H.
      change (joined [(lit "rgb", (tt, VTuple [VInt r; VInt g; VInt b])); (lit "alpha", (float_repr a, VFloat y))]) with
        ((lit "rgb" ++ lit "=" ++ tt) ++ lit ", " ++ (lit "alpha" ++ lit "=" ++ float_repr a)) in H.
      rewrite <- !app_assoc in H. rewrite <- !app_assoc. apply H; [split; reflexivity| |].
      * constructor; [|constructor; [|constructor]]; (split; [split; reflexivity|]); [exact T|exact I].
      * specialize (PC y). cbv -[plain_color fone] in PC |- *. rewrite PC. reflexivity.
    + cbn [c_rgb c_alpha c_bg c_origin c_ctor]. split; [reflexivity|]. split; [exact Ey|]. split; [exact Fy|auto].
Qed.
