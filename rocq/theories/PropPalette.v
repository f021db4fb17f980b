(** C06, C07: approximation of colors in STANDARD and EIGHT_BIT terminals (color.py). *)
From Coq Require Import ZArith List Bool String Lia Reals.
From Verif Require Import PyBase F64 SpaceModel ColorModel ColorSpec ColorProofs ColorProofs2 Vt BlendSpec BlendProofs
  PaletteSpec PaletteProofs.
Open Scope Z_scope.

(** ** C06 *)
(** The code emitted selects the first of the 16 standard colors at the least distance, on the
    color's layer. *)
Theorem C06_nearest : forall e c pen, color_ok c -> no_ansi_ctor c -> env_cs e = STANDARD ->
  exists i, first_nearest (c_rgb c) i /\ color_ansi e c = dec (standard_code (c_bg c) i) /\
    sgr (params (color_ansi e c)) pen = set_layer (c_bg c) (EIdx i) pen.
Proof. exact standard_emission. Qed.
Print Assumptions C06_nearest.

(** There is only one such color. *)
Theorem C06_determined : forall t i j, first_nearest t i -> first_nearest t j -> i = j.
Proof. exact first_nearest_unique. Qed.
Print Assumptions C06_determined.

(** The 16 colors come out as themselves. *)
Theorem C06_exact : forall e c i pen, no_ansi_ctor c -> env_cs e = STANDARD ->
  (0 <= i < 16)%Z -> c_rgb c = palette_entry i ->
  color_ansi e c = dec (standard_code (c_bg c) i) /\
  sgr (params (color_ansi e c)) pen = set_layer (c_bg c) (EIdx i) pen.
Proof. exact standard_exact. Qed.
Print Assumptions C06_exact.

Example C06_ex : let e := {| env_cs := STANDARD; env_pow := fun x _ => x |} in
  color_ansi e (mkColor (250, 90, 80) true fone TRUE_COLOR None) = lit "101" /\
  color_ansi e (mkColor (10, 0, 160) false fone TRUE_COLOR None) = lit "34".
Proof. split; vm_compute; reflexivity. Qed.

(** ** C07 *)
(** A cube entry 16..231 on the color's layer; its coordinates are the channels rounded to the
    nearest of 0, 51, ..., 255. *)
Theorem C07_cube : forall e c pen, color_ok c -> no_ansi_ctor c -> env_cs e = EIGHT_BIT ->
  exists x y z, nearest_sixth (red c) x /\ nearest_sixth (green c) y /\ nearest_sixth (blue c) z /\
    (16 <= cube_index x y z <= 231)%Z /\
    color_ansi e c = idx_seq (c_bg c) (cube_index x y z) /\
    sgr (params (color_ansi e c)) pen = set_layer (c_bg c) (EIdx (cube_index x y z)) pen /\
    palette_entry (cube_index x y z) = (cube_level x, cube_level y, cube_level z).
Proof. exact eight_bit_emission. Qed.
Print Assumptions C07_cube.

Theorem C07_monotone : forall e c d, color_ok c -> color_ok d -> no_ansi_ctor c -> no_ansi_ctor d ->
  env_cs e = EIGHT_BIT -> brighter c d ->
  exists x y z x' y' z', (x <= x' /\ y <= y' /\ z <= z')%Z /\
    color_ansi e c = idx_seq (c_bg c) (cube_index x y z) /\
    color_ansi e d = idx_seq (c_bg d) (cube_index x' y' z').
Proof. exact eight_bit_monotone. Qed.
Print Assumptions C07_monotone.

(** The entry is the color itself exactly when its channels are 0, 175, 215 or 255 ... *)
Theorem C07_kept : forall e c, color_ok c -> no_ansi_ctor c -> env_cs e = EIGHT_BIT ->
  exists n, (16 <= n <= 231)%Z /\ color_ansi e c = idx_seq (c_bg c) n /\
    (palette_entry n = c_rgb c <-> kept_level (red c) /\ kept_level (green c) /\ kept_level (blue c)).
Proof. exact eight_bit_kept. Qed.
Print Assumptions C07_kept.

(** ... so (95, 0, 0), entry 52, is emitted as entry 88, and no grey of the ramp is used. *)
Theorem C07_cube_not_kept : exists e c n m, env_cs e = EIGHT_BIT /\ color_ok c /\ c_ctor c = None /\
  palette_entry n = c_rgb c /\ color_ansi e c = idx_seq false m /\ palette_entry m <> c_rgb c.
Proof. exact eight_bit_inexact. Qed.
Print Assumptions C07_cube_not_kept.

Theorem C07_grey_not_kept : exists e c n m, env_cs e = EIGHT_BIT /\ color_ok c /\ c_ctor c = None /\
  (232 <= n <= 255)%Z /\
  palette_entry n = c_rgb c /\ color_ansi e c = idx_seq false m /\ palette_entry m <> c_rgb c.
Proof. exact eight_bit_grey_inexact. Qed.
Print Assumptions C07_grey_not_kept.

Example C07_ex : let e := {| env_cs := EIGHT_BIT; env_pow := fun x _ => x |} in
  color_ansi e (mkColor (255, 100, 0) true fone TRUE_COLOR None) = lit "48;5;208".
Proof. vm_compute. reflexivity. Qed.
