(** C99: what color descriptions mean (color.py).  The grammar is in DescSpec.v, the numbers in
    NumSpec.v. *)
From Coq Require Import ZArith List Bool String Lia Reals Lra.
From Flocq Require Import Core IEEE754.BinarySingleNaN.
From Verif Require Import PyBase F64 SpaceModel ColorTab ColorModel ColorSpec BlendSpec DecSpec NumSpec DescSpec NumProofs DescProofs.
Import ListNotations.
Open Scope Z_scope.

(** ** C99 *)
(** What is made of a description is what it describes. *)
Theorem C99_reads : forall d c, color_of (DStr d) = Ok c ->
  exists v, describes d (c_rgb c) (c_bg c) (c_origin c) v /\ holds (c_alpha c) v.
Proof. exact color_reads. Qed.
Print Assumptions C99_reads.

(** Everything described is made. *)
Theorem C99_means : forall d rgb bg sp v, describes d rgb bg sp v ->
  exists c, color_of (DStr d) = Ok c /\ c_rgb c = rgb /\ c_bg c = bg /\ c_origin c = sp /\ holds (c_alpha c) v.
Proof. exact color_means. Qed.
Print Assumptions C99_means.

(** A number that is not a color code is taken for a palette entry. *)
Example C99_ex_code : describes (lit "38") (palette_entry 38) false STANDARD 1.
Proof.
  apply (by_ansi _ [lit "38"] [lit "38"] [lit "38"] 1%R); try discriminate.
  - split; [discriminate|]. split; [|reflexivity]. repeat constructor. cbn. lia.
  - right. repeat split. exists [], (lit "38"). split; [reflexivity|]. cbn. lia.
  - intros [h I]. apply (fun H => proj1 (named_table _ _ H)) in I. vm_compute in I. discriminate.
  - right. repeat split. exists [], (lit "38"). split; [reflexivity|]. cbn. lia.
  - apply (ansi_one _ 38 38).
    + exists [], [], 1, [], (lit "38"), [3; 8], []. split; [constructor|]. split; [left; auto|]. split; [now left|].
      split; [apply (num_more 10 51 3 []); [left; apply (digit_of_self 3); lia|now left|constructor; left; apply (digit_of_self 8); lia]|].
      split; [constructor|]. split; reflexivity.
    + unfold sgr_entry, byte. lia.
    + split; [discriminate|]. intros [H|[H|[t H]]]; [lia|lia|discriminate].
Qed.
(** Digits of other scripts, signs, blanks, underscores, exponents, and two alpha values of which
    the first counts. *)
Example C99_ex : exists a, color_of (DStr (lit "38;5; +1_4" ++ [1633] ++ lit ";2.5e-1;.75")) =
    Ok (mkColor (palette_entry 141) false a EIGHT_BIT (Some (lit "38;5; +1_4" ++ [1633] ++ lit ";2.5e-1"))) /\
  B2SF a = B2SF (fdiv (fofZ 1) (fofZ 4)).
Proof.
  match goal with |- context [color_of ?d] => destruct (color_of d) as [c|e] eqn:E end.
  - exists (c_alpha c). assert (X : option_map (fun c => (c_rgb c, c_bg c, c_origin c, c_ctor c, B2SF (c_alpha c)))
      (match color_of (DStr (lit "38;5; +1_4" ++ [1633] ++ lit ";2.5e-1;.75")) with Ok c => Some c | Err _ => None end) =
      Some (palette_entry 141, false, EIGHT_BIT, Some (lit "38;5; +1_4" ++ [1633] ++ lit ";2.5e-1"), B2SF (fdiv (fofZ 1) (fofZ 4)))).
    { vm_compute. reflexivity. }
    rewrite E in X. cbn [option_map] in X. destruct c as [r b al o k]. cbn [c_rgb c_bg c_origin c_ctor c_alpha] in *.
    injection X as -> -> -> -> X. split; [reflexivity|exact X].
  - exfalso. assert (X : match color_of (DStr (lit "38;5; +1_4" ++ [1633] ++ lit ";2.5e-1;.75")) with Ok _ => true | Err _ => false end = true) by (vm_compute; reflexivity).
    rewrite E in X. discriminate.
Qed.
Example C99_ex_hex : option_map (fun c => (c_rgb c, B2SF (c_alpha c))) (match color_of (DStr (lit "##12ABF")) with Ok c => Some c | Err _ => None end) =
  Some ((18, 171, 15), B2SF fone) /\ color_of (DStr (lit "#12AB")) = Err ValueError.
Proof. split; vm_compute; reflexivity. Qed.
(** A superscript is a digit to [isdigit] but not to [int]. *)
Example C99_ex_digit : isdigit [178] = true /\ color_of (DStr [178]) = Err ValueError.
Proof. split; vm_compute; reflexivity. Qed.
