(** C08, C11: greyscale terminals and contrast (color.py). *)
From Coq Require Import ZArith List Bool String Lia Reals Lra.
From Flocq Require Import IEEE754.BinarySingleNaN.
From Verif Require Import PyBase F64 SpaceModel ColorModel ColorSpec ColorProofs ColorProofs2 Vt BlendSpec BlendProofs
  PaletteSpec PaletteProofs GreySpec GreyProofs GreyProofs2 GreyProofs3.
Open Scope Z_scope.

(** The assumptions on the C library's [pow] are met by the correctly rounded power. *)
Example pow_ex : pow_accurate exact_pow /\ pow_monotone exact_pow.
Proof. exact (conj exact_pow_accurate exact_pow_monotone). Qed.

(** ** C08 *)
(** Every color that was not given as a 16-color code is emitted as the entry of the grey ramp
    nearest to its lightness, on its layer. *)
Theorem C08_grey : forall e c pen, pow_accurate (env_pow e) -> color_ok c -> not_a_code c ->
  env_cs e = NO_COLOR ->
  exists n, grey_for (cie_lightness (c_rgb c)) n /\ color_ansi e c = idx_seq (c_bg c) n /\
    sgr (params (color_ansi e c)) pen = set_layer (c_bg c) (EIdx n) pen.
Proof. exact no_color_emission. Qed.
Print Assumptions C08_grey.

(** Brighter colors never get a darker entry. *)
Theorem C08_monotone : forall e c d, pow_accurate (env_pow e) -> pow_monotone (env_pow e) ->
  color_ok c -> color_ok d -> not_a_code c -> not_a_code d -> env_cs e = NO_COLOR -> brighter c d ->
  exists n m, n <= m /\ color_ansi e c = idx_seq (c_bg c) n /\ color_ansi e d = idx_seq (c_bg d) m.
Proof. exact no_color_monotone. Qed.
Print Assumptions C08_monotone.

Example C08_ex : let e := {| env_cs := NO_COLOR; env_pow := exact_pow |} in
  let c := mkColor (12, 200, 7) true fone TRUE_COLOR (Some (lit "#0CC807")) in
  let d := mkColor (12, 210, 7) false fone EIGHT_BIT (Some (lit "38;5;40")) in
  pow_accurate (env_pow e) /\ pow_monotone (env_pow e) /\ color_ok c /\ color_ok d /\ not_a_code c /\
  not_a_code d /\ brighter c d.
Proof.
  cbn [env_pow]. split; [exact exact_pow_accurate|]. split; [exact exact_pow_monotone|].
  unfold color_ok, channel_ok, brighter, not_a_code. cbn. repeat split; try lia; auto.
Qed.

(** Colors given as 16-color codes stay colored: each of the 32 codes is emitted as it is. *)
Theorem C08_codes : forall i bg, 0 <= i < 16 ->
  exists c, color_of (DStr (dec (standard_code bg i))) = Ok c /\ c_rgb c = palette_entry i /\ c_bg c = bg /\
    forall e, env_cs e = NO_COLOR -> color_ansi e c = dec (standard_code bg i).
Proof. exact codes_verbatim. Qed.
Print Assumptions C08_codes.

(** ** C11 *)
(** The contrast color is the off-white or off-black color on the color's layer; its contrast
    ratio is at least 3.4:1, and 4.5:1 for colors of luminance up to 0.163 or from 0.251 on. *)
Theorem C11_readable : forall e c, pow_accurate (env_pow e) -> color_ok c ->
  exists k, contrast e c = Ok k /\ off_white_or_black c k /\
    (34 / 10 <= contrast_ratio (c_rgb c) (c_rgb k))%R /\
    ((relative_luminance (c_rgb c) <= 163 / 1000)%R \/ (251 / 1000 <= relative_luminance (c_rgb c))%R ->
       (45 / 10 <= contrast_ratio (c_rgb c) (c_rgb k))%R).
Proof. exact contrast_readable. Qed.
Print Assumptions C11_readable.

(** Which one: dark text from luminance 0.179 on. *)
Theorem C11_choice : forall e c, pow_accurate (env_pow e) -> color_ok c ->
  (contrast e c = Ok (mkColor (35, 35, 35) (c_bg c) fone TRUE_COLOR None) /\
     (179 / 1000 - / 1000000 <= relative_luminance (c_rgb c))%R) \/
  (contrast e c = Ok (mkColor (245, 245, 245) (c_bg c) fone TRUE_COLOR None) /\
     (relative_luminance (c_rgb c) <= 179 / 1000 + / 1000000)%R).
Proof. exact contrast_cases. Qed.
Print Assumptions C11_choice.

Example C11_ex : let c := mkColor (250, 120, 0) true fone TRUE_COLOR None in
  pow_accurate exact_pow /\ color_ok c.
Proof. split; [exact exact_pow_accurate|]. unfold color_ok, channel_ok. cbn. lia. Qed.

(** The grey (118, 118, 118) gets off-black text at less than 3.5:1. *)
Theorem C11_mid_grey : forall e al o k bg, pow_accurate (env_pow e) ->
  exists d, contrast e (mkColor (118, 118, 118) bg al o k) = Ok d /\
    (contrast_ratio (118, 118, 118)%Z (c_rgb d) < 35 / 10)%R.
Proof. exact contrast_poor. Qed.
Print Assumptions C11_mid_grey.
