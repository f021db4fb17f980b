(** C02, C03: blending (color.py).  [fin x v]: the binary64 [x] is finite with real value [v]. *)
From Coq Require Import ZArith List Bool String Lia Reals Lra.
From Flocq Require Import Core IEEE754.BinarySingleNaN.
From Verif Require Import PyBase F64 SpaceModel ColorModel ColorSpec FloatLemmas BlendProofs.
Open Scope R_scope.

(** ** C02 *)
(** For 0 <= alpha <= 1 each channel is between the two, and within 1 + 2^-45 of the exact
    interpolation; the result is opaque, on the given layer or else on the color's own. *)
Theorem C02_interpolates : forall c d al x o, color_ok c -> color_ok d -> fin al x -> 0 <= x <= 1 ->
  exists k, blend c d al o = Ok k /\
    between (red c) (red d) (red k) /\ between (green c) (green d) (green k) /\
    between (blue c) (blue d) (blue k) /\
    near (red c) (red d) (red k) x /\ near (green c) (green d) (green k) x /\
    near (blue c) (blue d) (blue k) x /\
    c_alpha k = fone /\ c_bg k = match o with Some b => b | None => c_bg c end.
Proof. exact blend_interpolates. Qed.
Print Assumptions C02_interpolates.

Theorem C02_ends : forall c d al o, color_ok c -> color_ok d ->
  (fin al 0 -> exists k, blend c d al o = Ok k /\ c_rgb k = c_rgb c) /\
  (fin al 1 -> exists k, blend c d al o = Ok k /\ c_rgb k = c_rgb d).
Proof. exact blend_ends. Qed.
Print Assumptions C02_ends.

(** More alpha never moves a channel away from the other color. *)
Theorem C02_monotone : forall c d al al' x y o, color_ok c -> color_ok d ->
  fin al x -> fin al' y -> x <= y -> Rabs x <= p1000 -> Rabs y <= p1000 ->
  exists k k', blend c d al o = Ok k /\ blend c d al' o = Ok k' /\
    toward (red c) (red d) (red k) (red k') /\ toward (green c) (green d) (green k) (green k') /\
    toward (blue c) (blue d) (blue k) (blue k').
Proof. exact blend_monotone. Qed.
Print Assumptions C02_monotone.

(** Any finite alpha gives a valid color, except that one beyond 2^1000 may overflow. *)
Theorem C02_total : forall c d al o, color_ok c -> color_ok d -> is_finite al = true ->
  (exists k, blend c d al o = Ok k /\ color_ok k /\
     c_bg k = match o with Some b => b | None => c_bg c end /\ c_alpha k = fone) \/
  (blend c d al o = Err OverflowError /\ p1000 < Rabs (B2R al)).
Proof. exact blend_total. Qed.
Print Assumptions C02_total.

Example C02_ex : fin (flit 1 2) (rnd (1 / 2)) /\ 0 <= rnd (1 / 2) <= 1 /\
  match blend (mkColor (0, 255, 10)%Z true fone TRUE_COLOR None) WHITE (flit 1 2) None with
  | Ok k => c_rgb k = (127, 255, 132)%Z
  | Err _ => False
  end.
Proof. split; [exact half_fin|split; [exact half_01|vm_compute; reflexivity]]. Qed.

(** ** C03 *)
Theorem C03_lighten : forall c n st k, color_ok c -> (0 <= n)%Z -> is_finite st = true -> 0 <= B2R st ->
  lighten c n st = Ok k -> brighter c k /\ color_ok k /\ c_bg k = c_bg c.
Proof. exact lighten_up. Qed.
Print Assumptions C03_lighten.

Theorem C03_darken : forall c n st k, color_ok c -> (0 <= n)%Z -> is_finite st = true -> 0 <= B2R st ->
  darken c n st = Ok k -> brighter k c /\ color_ok k /\ c_bg k = c_bg c.
Proof. exact darken_down. Qed.
Print Assumptions C03_darken.

(** Negative shade counts go the other way. *)
Theorem C03_negative : forall c n st k, color_ok c -> (n <= 0)%Z -> is_finite st = true -> 0 <= B2R st ->
  (lighten c n st = Ok k -> brighter k c) /\ (darken c n st = Ok k -> brighter c k).
Proof. exact shades_negative. Qed.
Print Assumptions C03_negative.

(** n shades of size x go n*x of the way to white or black. *)
Theorem C03_amount : forall c n st x, color_ok c -> (Z.abs n < 2 ^ 53)%Z -> fin st x -> 0 <= IZR n * x <= 1 ->
  (exists k y, lighten c n st = Ok k /\ Rabs (y - IZR n * x) <= bpow radix2 (-53) /\
    near (red c) 255 (red k) y /\ near (green c) 255 (green k) y /\ near (blue c) 255 (blue k) y) /\
  (exists k y, darken c n st = Ok k /\ Rabs (y - IZR n * x) <= bpow radix2 (-53) /\
    near (red c) 0 (red k) y /\ near (green c) 0 (green k) y /\ near (blue c) 0 (blue k) y).
Proof. exact shades_amount. Qed.
Print Assumptions C03_amount.

Theorem C03_ten_default_shades : forall c, color_ok c ->
  (exists k, lighten c 10 default_step = Ok k /\ c_rgb k = (255, 255, 255)%Z /\ c_bg k = c_bg c) /\
  (exists k, darken c 10 default_step = Ok k /\ c_rgb k = (0, 0, 0)%Z /\ c_bg k = c_bg c).
Proof. exact ten_shades. Qed.
Print Assumptions C03_ten_default_shades.

Example C03_ex :
  match lighten (mkColor (100, 0, 250)%Z true fone TRUE_COLOR None) 2 default_step with
  | Ok k => c_rgb k = (131, 51, 251)%Z
  | Err _ => False
  end /\
  is_finite default_step = true /\ 0 <= B2R default_step.
Proof. split; [vm_compute; reflexivity|exact default_step_ok]. Qed.
