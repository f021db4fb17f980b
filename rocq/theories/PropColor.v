(** C01, C04, C05, C09, C12, C13, C14: colors (color.py, color_info.py). *)
From Coq Require Import ZArith List Bool String Lia.
From Verif Require Import PyBase F64 SpaceModel ColorTab ColorModel ColorSpec Vt ColorProofs ColorProofs2.
Open Scope Z_scope.

(** ** C01 *)
(** The constructor accepts exactly the triples over 0..255, and gives them back. *)
Theorem C01_constructor : forall r g b bg a,
  (channel_ok r /\ channel_ok g /\ channel_ok b /\
   exists c, plain_color (r, g, b) bg a = Ok c /\
     red c = r /\ green c = g /\ blue c = b /\ c_bg c = bg /\ c_alpha c = a) \/
  (~ (channel_ok r /\ channel_ok g /\ channel_ok b) /\
   plain_color (r, g, b) bg a = Err ValueError).
Proof. exact constructor_spec. Qed.
Print Assumptions C01_constructor.

(** Every color any operation returns is valid, whatever its arguments. *)
Theorem C01_operations : forall e c c2 s d a n bg o, color_ok c ->
  gives_ok (from_ansi s a) /\ gives_ok (from_hex s a) /\ gives_ok (color_of d) /\
  gives_ok (blend c c2 a o) /\ gives_ok (lighten c n a) /\ gives_ok (darken c n a) /\
  gives_ok (as_alpha c a) /\ gives_ok (as_background c bg (Some a)) /\
  gives_ok (as_background c bg None) /\ gives_ok (hue_shift c a) /\ gives_ok (complement c) /\
  gives_ok (contrast e c) /\ gives_ok (blend_complement c a).
Proof. exact all_operations_ok. Qed.
Print Assumptions C01_operations.

Example C01_ex : exists c, plain_color (255, 0, 128) true fone = Ok c /\ color_ok c.
Proof. eexists. split; [reflexivity|]. unfold color_ok, channel_ok. cbn. lia. Qed.
Example C01_ex_bad : plain_color (256, 0, 0) false fone = Err ValueError.
Proof. reflexivity. Qed.

(** ** C04 *)
Theorem C04_hex_round_trip : forall c, color_ok c ->
  exists d1 d2 d3 d4 d5 d6,
    color_hex c = [35; d1; d2; d3; d4; d5; d6] /\ Forall upper_hex [d1; d2; d3; d4; d5; d6] /\
    color_of (DStr (color_hex c)) = Ok (mkColor (c_rgb c) false fone TRUE_COLOR (Some (color_hex c))).
Proof. exact hex_roundtrip. Qed.
Print Assumptions C04_hex_round_trip.

(** A description of '#' and six hex digits of either case has the channels they spell. *)
Theorem C04_hex_channels : forall a b c d e f x1 x2 x3 x4 x5 x6,
  hex_value a x1 -> hex_value b x2 -> hex_value c x3 -> hex_value d x4 -> hex_value e x5 -> hex_value f x6 ->
  color_of (DStr [35; a; b; c; d; e; f]) =
    Ok (mkColor (16 * x1 + x2, 16 * x3 + x4, 16 * x5 + x6) false fone TRUE_COLOR
          (Some [35; a; b; c; d; e; f])).
Proof. exact color_six. Qed.
Print Assumptions C04_hex_channels.

Theorem C04_hex_alpha : forall a b c d e f g h x1 x2 x3 x4 x5 x6 x7 x8,
  hex_value a x1 -> hex_value b x2 -> hex_value c x3 -> hex_value d x4 -> hex_value e x5 -> hex_value f x6 ->
  hex_value g x7 -> hex_value h x8 ->
  color_of (DStr [35; a; b; c; d; e; f; g; h]) =
    Ok (mkColor (16 * x1 + x2, 16 * x3 + x4, 16 * x5 + x6) false (fdiv (fofZ (16 * x7 + x8)) (fofZ 255))
          TRUE_COLOR (Some [35; a; b; c; d; e; f])).
Proof. exact color_eight. Qed.
Print Assumptions C04_hex_alpha.

Example C04_ex : color_hex (mkColor (18, 171, 255) true fone TRUE_COLOR None) = lit "#12ABFF".
Proof. reflexivity. Qed.
Example C04_ex_digits : hex_value 97 10 /\ hex_value 70 15 /\ hex_value 48 0.
Proof. unfold hex_value. lia. Qed.

(** ** C05 *)
(** [Vt] is the emulator: the pen gets exactly the color, on the layer of the color. *)
Theorem C05_true_color : forall e c al pen, color_ok c -> no_ansi_ctor c -> env_cs e = TRUE_COLOR ->
  from_ansi (color_ansi e c) al = Ok (mkColor (c_rgb c) (c_bg c) al TRUE_COLOR (Some (color_ansi e c))) /\
  sgr (params (color_ansi e c)) pen
    = (if c_bg c then with_bg else with_fg) (ERgb (red c) (green c) (blue c)) pen.
Proof. exact truecolor_roundtrip. Qed.
Print Assumptions C05_true_color.

Example C05_ex : let c := mkColor (1, 22, 233) true fone TRUE_COLOR None in
  color_ok c /\ no_ansi_ctor c /\
  color_ansi {| env_cs := TRUE_COLOR; env_pow := fun x _ => x |} c = lit "48;2;1;22;233".
Proof. cbv zeta. split; [unfold color_ok, channel_ok; cbn; lia|]. split; [exact I|reflexivity]. Qed.

(** ** C09 *)
(** Any description except one whose color part is cut short gives a valid color or
    ValueError.  [truncated]: what remains after the alpha values is nothing, or "38;2;r;g". *)
Theorem C09_description : forall s, ~ truncated s ->
  (exists c, color_of (DStr s) = Ok c /\ color_ok c) \/ color_of (DStr s) = Err ValueError.
Proof. exact color_of_fails_with_ValueError. Qed.
Print Assumptions C09_description.

(** The guard is needed: a description cut short raises IndexError. *)
Theorem C09_cut_short :
  exists s, color_of (DStr s) = Err IndexError.
Proof. exact description_index_error. Qed.
Print Assumptions C09_cut_short.

(** and nothing but ValueError or IndexError ever comes out. *)
Theorem C09_exceptions : forall s,
  match color_of (DStr s) with
  | Ok c => color_ok c
  | Err e => e = ValueError \/ (e = IndexError /\ truncated s)
  end.
Proof. exact description_exceptions. Qed.
Print Assumptions C09_exceptions.

Example C09_ex : color_of (DStr (lit "38;2;1;2")) = Err IndexError /\
  color_of (DStr (lit "0.5;0.5")) = Err IndexError /\
  color_of (DStr (lit "not a color")) = Err ValueError /\
  color_of (DStr (lit "#12")) = Err ValueError.
Proof. repeat split; vm_compute; reflexivity. Qed.

(** ** C12 *)
Theorem C12_equivalence : forall a b c,
  (f_nan (c_alpha a) = false -> color_eqb a a = true) /\
  (color_eqb a b = color_eqb b a) /\
  (color_eqb a b = true -> color_eqb b c = true -> color_eqb a c = true) /\
  (color_eqb a b = true ->
     red a = red b /\ green a = green b /\ blue a = blue b /\ color_hex a = color_hex b).
Proof. exact color_equality. Qed.
Print Assumptions C12_equivalence.

(** Equal exactly when channels and alpha are *)
Theorem C12_equality_meaning : forall a b, color_eqb a b = true <->
  (red a = red b /\ green a = green b /\ blue a = blue b /\ feqb (c_alpha a) (c_alpha b) = true).
Proof. exact color_eqb_meaning. Qed.
Print Assumptions C12_equality_meaning.

Theorem C12_hash : forall a b, color_eqb a b = true ->
  c_bg a = c_bg b -> c_origin a = c_origin b -> c_ctor a = c_ctor b -> hash_fields a = hash_fields b.
Proof. exact equal_hash_same_build. Qed.
Print Assumptions C12_hash.

(** The guards are needed: equal colors built differently, or on different layers, hash differently. *)
Theorem C12_hash_by_build : exists a b,
  from_hex (lit "#FF0000") fone = Ok a /\ plain_color (255, 0, 0) false fone = Ok b /\
  color_eqb a b = true /\ hash_fields a <> hash_fields b.
Proof. exact equal_but_hash_differs. Qed.
Print Assumptions C12_hash_by_build.

Theorem C12_hash_by_layer : exists a b,
  color_eqb a b = true /\ c_bg a <> c_bg b /\ hash_fields a <> hash_fields b.
Proof. exact equal_across_layers. Qed.
Print Assumptions C12_hash_by_layer.

(** ** C13 *)
Theorem C13_as_background : forall c b alpha, color_ok c ->
  exists c', as_background c b alpha = Ok c' /\ c_rgb c' = c_rgb c /\ c_bg c' = b /\
  (c_bg c = b -> c' = c) /\
  (c_bg c <> b -> c_alpha c' = match alpha with
                                | Some a => if feqb a fzero then c_alpha c else a
                                | None => c_alpha c
                                end).
Proof. exact as_background_spec. Qed.
Print Assumptions C13_as_background.

Theorem C13_as_alpha : forall c a, color_ok c ->
  exists c', as_alpha c a = Ok c' /\ c_rgb c' = c_rgb c /\ c_bg c' = c_bg c /\ c_alpha c' = a.
Proof. exact as_alpha_spec. Qed.
Print Assumptions C13_as_alpha.

(** The alpha passed is dropped when the color is on that layer already, and when it
    is 0. *)
Theorem C13_alpha_ignored :
  (exists c a c', color_ok c /\ as_background c true (Some a) = Ok c' /\ feqb (c_alpha c') a = false) /\
  (exists c c', color_ok c /\ c_bg c = false /\ as_background c true (Some fzero) = Ok c' /\
  feqb (c_alpha c') fzero = false).
Proof. exact as_background_alpha_ignored. Qed.
Print Assumptions C13_alpha_ignored.

(** ** C14 *)
Theorem C14_named_colors : forall name h, dict_get NAMED_COLORS name = Some h ->
  exists d1 d2 d3 d4 d5 d6 x1 x2 x3 x4 x5 x6,
    h = [35; d1; d2; d3; d4; d5; d6] /\
  hex_value d1 x1 /\ hex_value d2 x2 /\ hex_value d3 x3 /\ hex_value d4 x4 /\ hex_value d5 x5 /\
  hex_value d6 x6 /\
  color_of (DStr name) =
      Ok (mkColor (16 * x1 + x2, 16 * x3 + x4, 16 * x5 + x6) false fone TRUE_COLOR (Some h)).
Proof. exact named_color_spec. Qed.
Print Assumptions C14_named_colors.

Theorem C14_palette : List.length COLOR_TABLE = 256%nat /\
  forall i, 0 <= i < 256 ->
  exists r g b, nth_error COLOR_TABLE (Z.to_nat i) = Some (r, g, b) /\
  channel_ok r /\ channel_ok g /\ channel_ok b /\ (r, g, b) = palette_entry i.
Proof. exact (conj table_len table_spec). Qed.
Print Assumptions C14_palette.

Theorem C14_indexed : forall bg n al,
  (0 <= n < 256 ->
     from_ansi (idx_seq bg n) al = Ok (mkColor (palette_entry n) bg al EIGHT_BIT (Some (idx_seq bg n)))) /\
  (~ 0 <= n < 256 -> from_ansi (idx_seq bg n) al = Err ValueError).
Proof. exact from_ansi_idx. Qed.
Print Assumptions C14_indexed.

Example C14_ex : dict_get NAMED_COLORS (lit "aliceblue") = Some (lit "#f0f8ff").
Proof. vm_compute. reflexivity. Qed.
Example C14_ex_idx : idx_seq true 141 = lit "48;5;141" /\ palette_entry 141 = (175, 135, 255).
Proof. split; reflexivity. Qed.
