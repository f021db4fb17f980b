(** C54, C55: color space detection and order (core.py:183-227, 275-302). *)
From Coq Require Import ZArith List Bool String.
From Verif Require Import PyBase SpaceModel SpaceSpec SpaceProofs.
Open Scope Z_scope.

(** C54: for every environment the result is the one the documented precedence describes, and
    that description leaves no choice. *)
Theorem C54_detection : forall e, detects e (get_color_space e).
Proof. exact detection. Qed.
Print Assumptions C54_detection.

Theorem C54_detection_determined : forall e r1 r2, detects e r1 -> detects e r2 -> r1 = r2.
Proof. exact detects_unique. Qed.
Print Assumptions C54_detection_determined.

Example C54_case_term :
  let e := {| SLATE_COLORSYS := None; NO_COLOR_VAR := None; TERM := Some (lit "xterm-256color");
              COLORTERM := Some (lit "  ") |} in
  get_color_space e = Ok EIGHT_BIT.
Proof. reflexivity. Qed.
Example C54_case_bad :
  get_color_space {| SLATE_COLORSYS := Some (lit "Rainbow"); NO_COLOR_VAR := None;
                     TERM := None; COLORTERM := None |} = Err ValueError.
Proof. reflexivity. Qed.
Example C54_case_forced_name :
  get_color_space {| SLATE_COLORSYS := Some (lit "EIGHT_bit"); NO_COLOR_VAR := Some [];
                     TERM := None; COLORTERM := None |} = Ok EIGHT_BIT.
Proof. reflexivity. Qed.

(** C55: all comparisons between color spaces are those of the documented rank. *)
Theorem C55_total_order : forall a b,
  cs_gt a (ArgSpace b) = Ok (rank b <? rank a) /\ cs_ge a (ArgSpace b) = Ok (rank b <=? rank a) /\
  cs_lt a (ArgSpace b) = Ok (rank a <? rank b) /\ cs_le a (ArgSpace b) = Ok (rank a <=? rank b) /\
  cs_eq a (ArgSpace b) = Ok (Some (rank a =? rank b)) /\ (rank a = rank b <-> a = b).
Proof. exact order_spaces. Qed.
Print Assumptions C55_total_order.

(** ... [>], [>=] and [==] with a name compare with the space it names, and raise ValueError
    for any other string. *)
Theorem C55_names : forall a s,
  (forall c, spells s c ->
     cs_gt a (ArgStr s) = cs_gt a (ArgSpace c) /\ cs_ge a (ArgStr s) = cs_ge a (ArgSpace c) /\
     cs_eq a (ArgStr s) = cs_eq a (ArgSpace c)) /\
  ((forall c, ~ spells s c) ->
     cs_gt a (ArgStr s) = Err ValueError /\ cs_ge a (ArgStr s) = Err ValueError /\
     cs_eq a (ArgStr s) = Err ValueError).
Proof. exact order_names. Qed.
Print Assumptions C55_names.

Example C55_case : cs_gt TRUE_COLOR (ArgStr (lit "no_color")) = Ok true /\ spells (lit "no_color") NO_COLOR
  /\ cs_ge STANDARD (ArgStr (lit "rgb")) = Err ValueError.
Proof. repeat split. Qed.
