(** Lemmas: named colors with an alpha value, blending with the complement. *)
From Coq Require Import ZArith List Bool String Lia Reals Lra.
From Flocq Require Import Core IEEE754.BinarySingleNaN.
From Verif Require Import PyBase PyLemmas F64 FloatLemmas SpaceModel ColorTab ColorModel ColorSpec BlendSpec ColorProofs ColorProofs2 BlendProofs
  SpanProofs ParseProofs3 DecSpec DecProofs HueSpec HueProofs HueProofs2 HueProofs3 HueProofs4.
Import ListNotations.
Import BlendSpec.
Open Scope Z_scope.
Open Scope list_scope.

Lemma contains_char_in : forall c s, contains_char c s = true <-> In c s.
Proof.
  intros c s. unfold contains_char. rewrite existsb_exists. split.
  - intros [x [H E]]. apply Z.eqb_eq in E. now subst.
  - intro H. exists c. split; [exact H|apply Z.eqb_refl].
Qed.
Lemma no_dot_last : forall s, ~ In 46 s -> contains_char 46 (last_of (split_on 59 s)) = false.
Proof.
  intros s H. destruct (contains_char 46 (last_of (split_on 59 s))) eqn:E; [|reflexivity].
  apply contains_char_in in E. exfalso. apply H. apply (in_split_on 59 s (last_of (split_on 59 s))); [|exact E].
  unfold last_of. pose proof (split_on_ne 59 s) as N. destruct (exists_last N) as [l [x X]]. rewrite X, last_last.
  apply in_or_app. right. now left.
Qed.

(** the alpha given to these only ends up in the color *)
Lemma new_color_alpha : forall t b a o k, new_color t b a o k = with_alpha a (new_color t b fone o k).
Proof. intros. unfold new_color. destruct (valid_rgb t); reflexivity. Qed.
Lemma bind_with_alpha : forall A (r : res A) a f g, (forall x, f x = with_alpha a (g x)) -> bindr r f = with_alpha a (bindr r g).
Proof. intros A [x|e] a f g H; [apply H|reflexivity]. Qed.
Lemma from_hex_alpha : forall h a, from_hex h a = with_alpha a (from_hex h fone).
Proof.
  intros h a. unfold from_hex. cbv zeta. do 3 (apply bind_with_alpha; intro). apply new_color_alpha.
Qed.
Lemma from_ansi_alpha : forall s a, ~ In 46 s -> from_ansi s a = with_alpha a (from_ansi s fone).
Proof.
  intros s a H. unfold from_ansi. cbv zeta. rewrite (no_dot_last s H). cbn [bindr].
  destruct (split_on 59 s) as [|p0 t]; [reflexivity|].
  destruct (3 <? zlen (p0 :: t)).
  - destruct (negb _); [reflexivity|].
    destruct (nth_error (p0 :: t) 2) as [x|]; [|reflexivity]. destruct (nth_error (p0 :: t) 3) as [y|]; [|reflexivity].
    do 2 (apply bind_with_alpha; intro). destruct (nth_error (p0 :: t) 4) as [z|]; [|reflexivity].
    apply bind_with_alpha; intro. apply new_color_alpha.
  - apply bind_with_alpha; intro i. destruct (if zlen (p0 :: t) =? 1 then _ else _) as [[sp ix] bg].
    destruct (negb _); [reflexivity|]. destruct (nth_error COLOR_TABLE (Z.to_nat ix)); [apply new_color_alpha|reflexivity].
Qed.

Lemma alpha_suffix : forall d t, startswith (lit "#") d = false -> d <> [] -> ~ In 46 d -> In 46 t -> ~ In 59 t ->
  color_of (DStr (d ++ 59 :: t)) =
    match py_float t with Ok a => with_alpha a (color_of (DStr d)) | Err x => Err x end.
Proof.
  intros d t S N D T Q.
  assert (H1 : startswith (lit "#") (d ++ 59 :: t) = false) by (destruct d as [|c n]; [reflexivity|exact S]).
  cbn [color_of]. rewrite H1, S. cbv zeta. rewrite (no_dot_last d D). rewrite (split_on_semi 59 d t), (split_on_single 59 t Q).
  assert (L : last_of (split_on 59 d ++ [t]) = t) by (unfold last_of; apply last_last).
  rewrite L, removelast_last, (proj2 (contains_char_in 46 t) T).
  change (lit ";") with [59]. rewrite (join_split_on 59 d). cbn [bindr].
  destruct (py_float t) as [a|x]; cbn [bindr]; [|reflexivity].
  destruct (dict_get NAMED_COLORS d); [apply from_hex_alpha|now apply from_ansi_alpha].
Qed.

(** a decimal alpha after a description *)
Lemma alpha_text : forall d i f, startswith (lit "#") d = false -> d <> [] -> ~ In 46 d ->
  digit_text i -> digit_text f -> (i <> [] \/ f <> []) -> (decimal_value i f <= bpow radix2 1023)%R ->
  exists a, fin a (nearest (decimal_value i f)) /\
    color_of (DStr (d ++ 59 :: i ++ 46 :: f)) = with_alpha a (color_of (DStr d)).
Proof.
  intros d i f S N D Hi Hf E B. destruct (py_float_decimal i f Hi Hf E B) as [a [P F]]. exists a. split; [exact F|].
  rewrite alpha_suffix; auto.
  - now rewrite P.
  - apply in_or_app. right. now left.
  - intro X. apply in_app_or in X. destruct X as [X|[X|X]]; [|discriminate|]; revert X; apply digit_text_no; auto; lia.
Qed.
Lemma alpha_hex : forall a b c d e f g h x7 x8, Forall (fun d => exists x, hex_value d x) [a; b; c; d; e; f] ->
  hex_value g x7 -> hex_value h x8 ->
  exists al, fin al (nearest (IZR (16 * x7 + x8) / 255)) /\
    color_of (DStr [35; a; b; c; d; e; f; g; h]) = with_alpha al (color_of (DStr [35; a; b; c; d; e; f])).
Proof.
  intros a b c d e f g h x7 x8 H G1 G2.
  repeat match goal with H : Forall _ (_ :: _) |- _ => inversion H; clear H; subst end.
  repeat match goal with H : exists x, hex_value _ x |- _ => destruct H as [? H] end.
  eexists. split; [|erewrite color_eight, color_six; [reflexivity|eassumption..]].
  unfold hex_value in G1, G2.
  apply (flit_spec (16 * x7 + x8) 255); try lia.
  assert (0 <= IZR (16 * x7 + x8) <= 255)%R by (split; apply IZR_le; lia).
  pose proof big_1. rewrite Rabs_pos_eq; lra.
Qed.
Lemma blend_complement_spec : forall c al x, color_ok c -> fin al x -> (0 <= x <= 1)%R ->
  exists k r, complement c = Ok k /\ blend_complement c al = Ok r /\
    between (red c) (red k) (red r) /\ between (green c) (green k) (green r) /\ between (blue c) (blue k) (blue r) /\
    near (red c) (red k) (red r) x /\ near (green c) (green k) (green r) x /\ near (blue c) (blue k) (blue r) x /\
    c_alpha r = fone /\ c_bg r = c_bg c.
Proof.
  intros c al x Hc Ha Hx. destruct (complement_spec c Hc) as [k [E _]].
  pose proof (complement_ok c) as OK. rewrite E in OK. specialize (OK k eq_refl).
  destruct (blend_interpolates c k al x None Hc (OK) Ha Hx) as [r [B R]].
  exists k, r. split; [exact E|]. split; [unfold blend_complement; rewrite E; exact B|]. exact R.
Qed.
