(** C10, C58, C59: hue rotation, complement and color groups (color.py).
    [fin x v]: the binary64 [x] is finite with real value [v]. *)
From Coq Require Import ZArith List Bool String Lia Reals Lra.
From Flocq Require Import Core IEEE754.BinarySingleNaN.
From Verif Require Import PyBase F64 SpaceModel ColorModel ColorSpec FloatLemmas HueSpec HueProofs HueProofs2 HueProofs3 HueProofs4 BlendSpec ColorProofs3.
Import ListNotations.
Open Scope R_scope.

(** ** C10 *)
(** Every color and every binary64 amount (nan and infinities included) gives an opaque color on
    the same layer whose channels lie within the span of the original ones, one level dimmer. *)
Theorem C10_total : forall c a, color_ok c ->
  exists k, hue_shift c a = Ok k /\ c_bg k = c_bg c /\ c_alpha k = fone /\ within c k.
Proof. exact hue_shift_total. Qed.
Print Assumptions C10_total.

(** Each channel is the exact hue rotation, truncated (up to an error of 2^-30). *)
Theorem C10_rotates : forall c a x, color_ok c -> bot (red c) (green c) (blue c) <> top (red c) (green c) (blue c) ->
  fin a x -> Rabs x <= 1000 ->
  let lo := lo_of (red c) (green c) (blue c) in
  let hi := hi_of (red c) (green c) (blue c) in
  let H := true_hue (red c) (green c) (blue c) in
  exists k, hue_shift c a = Ok k /\ c_bg k = c_bg c /\ c_alpha k = fone /\
    truncated_to (red k) (255 * at_hue lo hi (H + x + / 3)) /\
    truncated_to (green k) (255 * at_hue lo hi (H + x)) /\
    truncated_to (blue k) (255 * at_hue lo hi (H + x - / 3)).
Proof. exact hue_shift_accurate. Qed.
Print Assumptions C10_rotates.

(** The specification is a hue: at its own hue a color has its own channels. *)
Theorem C10_own_hue : forall r g b, channel_ok r -> channel_ok g -> channel_ok b -> bot r g b <> top r g b ->
  let at_ := at_hue (lo_of r g b) (hi_of r g b) in let H := true_hue r g b in
  at_ (H + / 3) = IZR r / 256 /\ at_ H = IZR g / 256 /\ at_ (H - / 3) = IZR b / 256.
Proof. exact at_own_hue. Qed.
Print Assumptions C10_own_hue.

Theorem C10_grey : forall c a v, channel_ok v -> c_rgb c = (v, v, v) ->
  hue_shift c a = Ok (mkColor (dimmed v, dimmed v, dimmed v) (c_bg c) fone TRUE_COLOR None).
Proof. exact hue_shift_grey. Qed.
Print Assumptions C10_grey.

(** No turn dims each channel by one level (so it is not the identity: next theorem), and turns by
    a third permute the channels, dimmed the same way. *)
Theorem C10_thirds : forall c n, color_ok c -> (n = 0 \/ n = 1 \/ n = 2)%Z ->
  exists k, hue_shift c (flit n 3) = Ok k /\ c_bg k = c_bg c /\ c_alpha k = fone /\
    c_rgb k = if (n =? 0)%Z then (dimmed (red c), dimmed (green c), dimmed (blue c))
              else if (n =? 1)%Z then (dimmed (blue c), dimmed (red c), dimmed (green c))
              else (dimmed (green c), dimmed (blue c), dimmed (red c)).
Proof. exact turn_any. Qed.
Print Assumptions C10_thirds.

Definition orange : color := mkColor (255, 128, 0)%Z true fone TRUE_COLOR None.
Example orange_ok : color_ok orange.
Proof. unfold color_ok, channel_ok, red, green, blue, orange. simpl. lia. Qed.
Example orange_spread : bot 255 128 0 <> top 255 128 0. Proof. discriminate. Qed.
Example orange_turned : match hue_shift orange (flit 1 3) with Ok k => c_rgb k = (0, 254, 127)%Z | Err _ => False end.
Proof. vm_compute. reflexivity. Qed.
Example orange_nan : match hue_shift orange B754_nan with Ok k => c_rgb k = (0, 0, 0)%Z | Err _ => False end.
Proof. vm_compute. reflexivity. Qed.
Example third_amount : fin (flit 1 2) (/ 2) /\ Rabs (/ 2) <= 1000.
Proof. split; [exact half_exact|apply Rabs_le; lra]. Qed.

Theorem C10_no_identity : exists c k, color_ok c /\ hue_shift c fzero = Ok k /\ c_rgb k <> c_rgb c.
Proof.
  destruct (turn_any orange 0 orange_ok ltac:(auto)) as [k [E [_ [_ R]]]]. exists orange, k.
  assert (Z0 : flit 0 3 = fzero) by (apply B2SF_inj; vm_compute; reflexivity). rewrite Z0 in E.
  split; [exact orange_ok|]. split; [exact E|]. rewrite R. discriminate.
Qed.
Print Assumptions C10_no_identity.

(** ** C58 *)
(** complement turns the hue by half, i.e. mirrors every channel between the darkest and the
    brightest one (dimmed by one level), keeping the layer, for colors whose hue is not red (hue 0);
    for reds and greys the result is black, for black it is white, both on the foreground layer. *)
Theorem C58_complement : forall c, color_ok c ->
  let M := top (red c) (green c) (blue c) in let m := bot (red c) (green c) (blue c) in
  exists k, complement c = Ok k /\ c_alpha k = fone /\
    ((c_rgb c = (0, 0, 0)%Z /\ c_rgb k = (255, 255, 255)%Z /\ c_bg k = false) \/
     (M <> 0%Z /\ red c = M /\ green c = blue c /\ c_rgb k = (0, 0, 0)%Z /\ c_bg k = false) \/
     (~ (red c = M /\ green c = blue c) /\ c_bg k = c_bg c /\
      c_rgb k = (dimmed (M + m - red c), dimmed (M + m - green c), dimmed (M + m - blue c)))).
Proof. exact complement_spec. Qed.
Print Assumptions C58_complement.

Example orange_complement : match complement orange with Ok k => c_rgb k = (0, 126, 254)%Z /\ c_bg k = true | Err _ => False end.
Proof. vm_compute. auto. Qed.

(** A saturated red is no grey, yet its complement is black and loses the background layer. *)
Theorem C58_red : exists c k, color_ok c /\ red c <> green c /\ c_bg c = true /\
  complement c = Ok k /\ c_rgb k = (0, 0, 0)%Z /\ c_bg k = false.
Proof.
  set (c := mkColor (255, 0, 0)%Z true fone TRUE_COLOR None).
  assert (OK : color_ok c) by (unfold color_ok, channel_ok, red, green, blue, c; simpl; lia).
  destruct (complement_spec c OK) as [k [E [_ [H|[H|H]]]]].
  - destruct H as [H _]. discriminate.
  - exists c, k. destruct H as [_ [_ [_ [H1 H2]]]]. split; [exact OK|]. split; [discriminate|]. auto.
  - exfalso. destruct H as [H _]. apply H. split; reflexivity.
Qed.
Print Assumptions C58_red.

(** blend_complement moves every channel towards that of the complement, by the given part. *)
Theorem C58_blend : forall c al x, color_ok c -> fin al x -> 0 <= x <= 1 ->
  exists k r, complement c = Ok k /\ blend_complement c al = Ok r /\
    between (red c) (red k) (red r) /\ between (green c) (green k) (green r) /\ between (blue c) (blue k) (blue r) /\
    near (red c) (red k) (red r) x /\ near (green c) (green k) (green r) x /\ near (blue c) (blue k) (blue r) x /\
    c_alpha r = fone /\ c_bg r = c_bg c.
Proof. exact blend_complement_spec. Qed.
Print Assumptions C58_blend.

Example C58_blend_ex : match blend_complement orange (flit 1 2) with
  | Ok r => c_rgb r = (127, 127, 127)%Z /\ c_bg r = true | Err _ => False end.
Proof. vm_compute. auto. Qed.

(** ** C59 *)
Theorem C59_triadic : forall c, color_ok c ->
  exists k1 k2, triadic_group c = Ok [c; k1; k2] /\ c_bg k1 = c_bg c /\ c_bg k2 = c_bg c /\
    c_rgb k1 = (dimmed (blue c), dimmed (red c), dimmed (green c)) /\
    c_rgb k2 = (dimmed (green c), dimmed (blue c), dimmed (red c)).
Proof. exact triadic_spec. Qed.
Print Assumptions C59_triadic.

Theorem C59_analogous : forall c, color_ok c -> exists k1 k2, analogous_group c = Ok [c; k1; k2] /\
  hue_shift c (flit 1 12) = Ok k1 /\ hue_shift c (flit 2 12) = Ok k2 /\
  c_bg k1 = c_bg c /\ c_bg k2 = c_bg c /\ within c k1 /\ within c k2.
Proof. exact analogous_spec. Qed.
Print Assumptions C59_analogous.

Theorem C59_tetradic : forall c, color_ok c -> exists k1 k2 k3, tetradic_group c = Ok [c; k1; k2; k3] /\
  hue_shift c (flit 1 4) = Ok k1 /\ complement c = Ok k2 /\ hue_shift c (flit 3 4) = Ok k3 /\
  c_bg k1 = c_bg c /\ c_bg k3 = c_bg c /\ within c k1 /\ within c k3.
Proof. exact tetradic_spec. Qed.
Print Assumptions C59_tetradic.

Example orange_group : match triadic_group orange with
  | Ok [a; b; d] => c_rgb a = (255, 128, 0)%Z /\ c_rgb b = (0, 254, 127)%Z /\ c_rgb d = (127, 0, 254)%Z | _ => False end.
Proof. vm_compute. auto. Qed.
