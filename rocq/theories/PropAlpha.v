(** C72: the alpha part of color descriptions (color.py).
    [fin x v]: the binary64 [x] is finite with real value [v]. *)
From Coq Require Import ZArith List Bool String Lia Reals Lra.
From Flocq Require Import Core IEEE754.BinarySingleNaN.
From Verif Require Import PyBase F64 SpaceModel ColorTab ColorModel ColorSpec BlendSpec DecSpec ColorProofs3 ColorProofs4.
Import ListNotations.
Open Scope Z_scope.

(** ** C72 *)
(** A description followed by ';' and a decimal text is the described color (or fails as the
    description does), with the binary64 number nearest to the decimal as its alpha. *)
Theorem C72_decimal : forall d i f, startswith (lit "#") d = false -> d <> [] -> ~ In 46 d ->
  digit_text i -> digit_text f -> (i <> [] \/ f <> []) -> (decimal_value i f <= bpow radix2 1023)%R ->
  exists a, fin a (nearest (decimal_value i f)) /\
    color_of (DStr (d ++ 59 :: i ++ 46 :: f)) = with_alpha a (color_of (DStr d)).
Proof. exact alpha_text. Qed.
Print Assumptions C72_decimal.

Example C72_ex : startswith (lit "#") (lit "38;5;141") = false /\ lit "38;5;141" <> [] /\ ~ In 46 (lit "38;5;141") /\
  digit_text (lit "0") /\ digit_text (lit "25") /\ (decimal_value (lit "0") (lit "25") = 1 / 4)%R.
Proof.
  repeat split.
  - discriminate.
  - cbn. lia.
  - repeat constructor; cbn; lia.
  - repeat constructor; cbn; lia.
  - unfold decimal_value. change (lit "0") with [48]. change (lit "25") with [50; 53]. cbn [whole_value fraction_value].
    change (48 - 48) with 0. change (50 - 48) with 2. change (53 - 48) with 5. lra.
Qed.

(** Two further hex digits give the nearest binary64 number to their 255th part as alpha. *)
Theorem C72_hex : forall a b c d e f g h x7 x8, Forall (fun d => exists x, hex_value d x) [a; b; c; d; e; f] ->
  hex_value g x7 -> hex_value h x8 ->
  exists al, fin al (nearest (IZR (16 * x7 + x8) / 255)) /\
    color_of (DStr [35; a; b; c; d; e; f; g; h]) = with_alpha al (color_of (DStr [35; a; b; c; d; e; f])).
Proof. exact alpha_hex. Qed.
Print Assumptions C72_hex.

Example C72_ex_hex : hex_value 56 8 /\ hex_value 70 15 /\
  color_of (DStr (lit "#12ABFF")) = Ok (mkColor (18, 171, 255) false fone TRUE_COLOR (Some (lit "#12ABFF"))).
Proof. split; [unfold hex_value; lia|]. split; [unfold hex_value; lia|]. reflexivity. Qed.

(** ** C05 *)
(** The body of a direct color may be followed by an alpha value: it becomes the alpha of the color and is
    not part of the sequence the color is written with. *)
Theorem C05_alpha : forall e (bg : bool) r g b t a al, channel_ok r -> channel_ok g -> channel_ok b ->
  ~ In 59 t -> In 46 t -> py_float t = Ok a -> env_cs e = TRUE_COLOR ->
  let code := (if bg then lit "48" else lit "38") ++ lit ";2;" ++ dec r ++ lit ";" ++ dec g ++ lit ";" ++ dec b in
  exists c, from_ansi (code ++ lit ";" ++ t) al = Ok c /\ c_rgb c = (r, g, b) /\ c_bg c = bg /\ c_alpha c = a /\ color_ansi e c = code.
Proof. exact alpha_after_rgb. Qed.
Print Assumptions C05_alpha.
(** After an indexed color it becomes the alpha but stays in the sequence. *)
Theorem C05_alpha_index : forall e (bg : bool) n t a al, 0 <= n < 256 -> ~ In 59 t -> In 46 t -> py_float t = Ok a ->
  env_cs e = EIGHT_BIT \/ env_cs e = TRUE_COLOR ->
  let code := (if bg then lit "48" else lit "38") ++ lit ";5;" ++ dec n ++ lit ";" ++ t in
  exists c, from_ansi code al = Ok c /\ c_bg c = bg /\ c_alpha c = a /\ color_ansi e c = code.
Proof. exact alpha_after_index. Qed.
Print Assumptions C05_alpha_index.

Example C05_ex_alpha : ~ In 59 (lit "0.5") /\ In 46 (lit "0.5") /\ (exists a, py_float (lit "0.5") = Ok a) /\ channel_ok 200.
Proof. split; [cbn; lia|]. split; [cbn; lia|]. split; [eexists; reflexivity|unfold channel_ok; lia]. Qed.
