(** C79-C81: where the pieces of an SVG export are. *)
From Coq Require Import ZArith List Bool Lia Reals Lra String.
From Flocq Require Import IEEE754.BinarySingleNaN.
From Verif Require Import PyBase F64 SpaceModel ColorTab ColorModel SpanModel ScreenModel SvgGeoModel SvgGeoSpec SvgGeoProofs.
Import ListNotations.
Open Scope R_scope.
Open Scope list_scope.

(** ** C79 *)
(** Every piece is at its column and row, however many additions and roundings led there. *)
Theorem C79_position : forall e s fs ps r l a sp b, font fs -> export_shapes e s fs = Ok ps -> row_groups e s r l ->
  (r < 8192)%Z -> (letters_in l <= 8192)%Z -> l = a ++ sp :: b ->
  exists p, shape_at ps r (List.length a) = Some p /\ finite_shape p /\
    Rabs (left_edge p - IZR (letters_in a) * (IZR fs * em_width)) <= / 100 /\
    Rabs (top_edge p - (IZR r * (IZR fs * em_height) - raise fs (s_text sp))) <= / 100 /\
    Rabs (B2R (sh_text_y p) - (IZR r * (IZR fs * em_height) + IZR fs)) <= / 100.
Proof. exact geo_position. Qed.
Print Assumptions C79_position.

(** Neighbours in a row touch: the background has no gaps, and covers less than a pixel of the next. *)
Theorem C79_row : forall e s fs ps r l a s1 s2 b, font fs -> export_shapes e s fs = Ok ps -> row_groups e s r l ->
  (r < 8192)%Z -> (letters_in l <= 8192)%Z -> l = a ++ s1 :: s2 :: b ->
  exists p q, shape_at ps r (List.length a) = Some p /\ shape_at ps r (S (List.length a)) = Some q /\
    left_edge q <= right_edge p <= left_edge q + 1.
Proof. exact geo_row. Qed.
Print Assumptions C79_row.

(** ** C80 *)
(** Rows touch too, except where text stands above block characters: there is always a gap, of at
    least a twentieth of the font size. *)
Theorem C80_rows : forall e s fs ps r l a s1 b l' a' s2 b', font fs -> export_shapes e s fs = Ok ps ->
  row_groups e s r l -> row_groups e s (r + 1) l' ->
  (r + 1 < 8192)%Z -> (letters_in l <= 8192)%Z -> (letters_in l' <= 8192)%Z -> l = a ++ s1 :: b -> l' = a' ++ s2 :: b' ->
  exists p q, shape_at ps r (List.length a) = Some p /\ shape_at ps (r + 1) (List.length a') = Some q /\
    (blocks (s_text s1) \/ ~ blocks (s_text s2) -> top_edge q < bottom_edge p) /\
    (~ blocks (s_text s1) -> blocks (s_text s2) -> bottom_edge p + IZR fs / 20 < top_edge q).
Proof. exact geo_rows. Qed.
Print Assumptions C80_rows.

(** ** C81 *)
(** Everything is inside the picture up to font size 94; from 95 on the text of the first row starts
    above it. *)
Theorem C81_inside : forall e s fs ps r l a sp b w h, font fs -> export_shapes e s fs = Ok ps -> row_groups e s r l ->
  (letters_in l <= w)%Z -> (r < h)%Z -> extent w -> extent h -> l = a ++ sp :: b ->
  exists p, shape_at ps r (List.length a) = Some p /\
    0 <= 16 + left_edge p /\ 16 + right_edge p <= B2R (total_width w fs) /\
    ((fs <= 94)%Z -> 0 <= 16 + top_edge p /\ 16 + bottom_edge p <= B2R (total_height h fs)) /\
    ((95 <= fs)%Z -> ~ blocks (s_text sp) -> r = 0%Z -> 16 + top_edge p < 0).
Proof. exact geo_inside. Qed.
Print Assumptions C81_inside.

(** * Examples: "ab" in red and a plain "c" above a full block in red *)
Definition ink : color := mkColor (255, 0, 0)%Z false fone TRUE_COLOR None.
Definition picture : screen :=
  mkScreen 3 2 [[([97], Some ink, None); ([98], Some ink, None); ([99], None, None)]%Z; [([9608], Some ink, None)]%Z] [] (0, 0)%Z 0.
Definition here : env := {| env_cs := TRUE_COLOR; env_pow := fun x _ => x |}.
Definition texts (r : res (list span)) : list str := match r with Ok l => map s_text l | Err _ => [] end.
Example C79_ex_groups : map (fun row => texts (group here row)) (sc_cells picture) = [[[97; 98]; [99]]; [[9608]]]%Z.
Proof. vm_compute. reflexivity. Qed.
(** 15 * 0.60167 * 2 = 18.0501 gives 18.05; 15 * 1.265 = 18.975 gives 18.97 *)
Example C79_ex_shapes : match export_shapes here picture 15 with
  | Ok ps => map (map (fun p => (fexact (sh_x p), fexact (sh_text_y p)))) ps =
      [[(fexact fzero, fexact (fofZ 15)); (fexact (flit 1805 100), fexact (fofZ 15))];
       [(fexact fzero, fexact (fadd (flit 1897 100) (fofZ 15)))]]
  | Err _ => False end.
Proof. vm_compute. reflexivity. Qed.
Example C79_ex_domain : font 15 /\ extent 3 /\ extent 2 /\ ~ blocks [97; 98]%Z /\ blocks [9608]%Z.
Proof.
  unfold font, extent. repeat split; try lia.
  - intro H. inversion H; subst. lia.
  - apply Forall_cons; [lia|apply Forall_nil].
Qed.
