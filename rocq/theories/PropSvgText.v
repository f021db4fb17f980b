(** C91: the text of an SVG export, numbers included. *)
From Coq Require Import ZArith List Bool Lia Reals Lra String.
From Verif Require Import PyBase F64 SpaceModel ColorTab ColorModel ColorSpec SpanModel ScreenModel SvgSpec SvgDocModel SvgDocSpec
  SvgGeoModel SvgGeoSpec ReprModel ReprSpec SvgTextModel SvgTextSpec SvgTextProofs.
Import ListNotations.
Open Scope R_scope.
Open Scope list_scope.

(** ** C91 *)
(** The text written, read as XML and its numbers as decimals, has every piece at its column and row. *)
Theorem C91_text : forall e s w h fs dfg dbg l, font fs -> extent w -> extent h -> color_ok dfg -> color_ok dbg ->
  Forall (Forall valid_cell) (sc_cells s) -> export_svg e s = Ok l -> Forall legible l -> moderate s l ->
  exists doc wt ht nl, export_text e s w h fs dfg dbg = Ok doc /\
    document (terminal_frame (dec fs) wt ht dbg l (numbered_nodes dfg dbg (combine l nl))) doc /\
    about wt (IZR w * (IZR fs * em_width) + 32) (/ 1000) /\ about ht (IZR h * (IZR fs * em_height) + 32) (/ 1000) /\
    Forall2 (placed fs) l nl.
Proof. exact export_text_spec. Qed.
Print Assumptions C91_text.

(** * Example: "ab" in red and a plain "c" above a full block in red *)
Definition ink : color := mkColor (255, 0, 0)%Z false fone TRUE_COLOR None.
Definition picture : screen :=
  mkScreen 3 2 [[([97], Some ink, None); ([98], Some ink, None); ([99], None, None)]%Z; [([9608], Some ink, None)]%Z] [] (0, 0)%Z 0.
Definition here : env := {| env_cs := TRUE_COLOR; env_pow := fun x _ => x |}.
Example C91_ex_tags : match export_svg_with_styles here picture 15 WHITE BLACK with
  | Ok (svg, css) => svg =
      lit "<rect x='0' y='-2.5500000000000003' fill='#000000' width='18.5500' height='20.493'></rect><text  dy='-0.25em' x='0' y='15' fill='#FF0000' class='screen__span1'>ab</text>"
      ++ lit "<rect x='18.05' y='-2.5500000000000003' fill='#000000' width='9.5300' height='20.493'></rect><text  dy='-0.25em' x='18.05' y='15' fill='#FFFFFF' class='screen__span2'>c</text>"
      ++ lit "<rect x='0' y='18.97' fill='#000000' width='9.5300' height='20.493'></rect><text  dy='-0.25em' x='0' y='33.97' fill='#FF0000' class='screen__span3'>" ++ [9608%Z] ++ lit "</text>"
      /\ css = lit ".screen__span1 {fill:#FF0000}" ++ [10%Z] ++ lit ".screen__span2 {}" ++ [10%Z] ++ lit ".screen__span3 {fill:#FF0000}" ++ [10%Z]
  | Err _ => False end.
Proof. vm_compute. split; reflexivity. Qed.
Example C91_ex_size : float_repr (total_width 80 15) = lit "754.004" /\ float_repr (total_height 24 15) = lit "487.4".
Proof. split; vm_compute; reflexivity. Qed.
(** the numerals read as numbers *)
Example C91_ex_reads : numeral_of (lit "-2.5500000000000003") = Some (-25500000000000003, -16)%Z /\ numeral_of (lit "1e-07") = Some (1, -7)%Z /\
  numeral_of (lit "15") = Some (15, 0)%Z /\ numeral_of (lit "1.2.3") = None.
Proof. repeat split. Qed.
Example C91_ex_domain : font 15 /\ extent 3 /\ extent 2 /\ match export_svg here picture with
  | Ok l => moderate picture l /\ Forall legible l /\ List.length l = 3%nat | Err _ => False end.
Proof.
  unfold font, extent. split; [lia|]. split; [lia|]. split; [lia|].
  assert (K : match export_svg here picture with Ok l => map (fun p => (p_column p, s_text (p_span p))) l | Err _ => [] end = [(0, [97; 98]); (2, [99]); (0, [9608])]%Z)
    by (vm_compute; reflexivity).
  destruct (export_svg here picture) as [l|]; [|discriminate].
  destruct l as [|p1 [|p2 [|p3 [|p4 l]]]]; try discriminate. cbn [map] in K. injection K as A1 A2 B1 B2 C1 C2.
  split; [split; [vm_compute; discriminate|]|split; [|reflexivity]].
  - repeat (apply Forall_cons); [rewrite A1, A2|rewrite B1, B2|rewrite C1, C2|apply Forall_nil]; vm_compute; discriminate.
  - repeat (apply Forall_cons); unfold legible; [rewrite A2|rewrite B2|rewrite C2|apply Forall_nil]; reflexivity.
Qed.
Example C91_ex_colors : Forall (Forall valid_cell) (sc_cells picture) /\ color_ok WHITE /\ color_ok BLACK.
Proof.
  assert (I : color_ok ink) by (unfold color_ok, channel_ok, ink; cbn; lia).
  assert (C : forall t c, c = Some ink \/ c = None -> valid_cell (t, c, None)).
  { intros t c [->| ->]; split; intros x H; try discriminate. injection H as <-. exact I. }
  split; [|split; unfold color_ok, channel_ok; cbn; lia].
  repeat (apply Forall_cons || apply Forall_nil); apply C; auto.
Qed.
