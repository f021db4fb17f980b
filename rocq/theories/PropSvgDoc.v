(** C78: the document of a terminal export. *)
From Coq Require Import ZArith List Bool Lia String.
From Verif Require Import PyBase F64 SpaceModel ColorTab ColorModel ColorSpec SpanModel SpanSpec ScreenModel TermModel SvgSpec SvgDocModel SvgDocSpec SvgDocProofs SvgDocProofs2.
Import ListNotations.
Open Scope Z_scope.
Open Scope list_scope.

(** ** C78 *)
(** The export is an XML document: an svg element with a style sheet, a background and, for every
    piece of text, a rect and a text element showing it. *)
Theorem C78_document : forall e s fs w h nums dfg dbg l, numeral fs -> numeral w -> numeral h ->
  color_ok dfg -> color_ok dbg -> Forall (Forall valid_cell) (sc_cells s) -> (forall p, good_numbers (nums p)) ->
  export_svg e s = Ok l -> Forall legible l ->
  exists doc, export_document e s fs w h nums dfg dbg = Ok doc /\ document (terminal_tree fs w h nums dfg dbg l) doc.
Proof. exact export_document_spec. Qed.
Print Assumptions C78_document.

(** A text is the document of one tree only: reading the export gives that tree and no other. *)
Theorem C78_unique : forall a b s, document a s -> document b s -> a = b.
Proof. exact document_unique. Qed.
Print Assumptions C78_unique.

(** A character XML does not allow on the screen makes the export no document. *)
Theorem C78_forbidden : forall e s fs w h nums dfg dbg l p c doc root,
  export_svg e s = Ok l -> In p l -> In c (s_text (p_span p)) -> xml_char c = false -> c <> 13 ->
  export_document e s fs w h nums dfg dbg = Ok doc -> ~ document root doc.
Proof. exact forbidden_breaks. Qed.
Print Assumptions C78_forbidden.

Definition e1 : env := {| env_cs := TRUE_COLOR; env_pow := fun x _ => x |}.
Definition red1 : color := mkColor (255, 0, 0) false fone TRUE_COLOR None.
Definition one_row (a b : Z) : screen := mkScreen 2 1 [[([a], Some red1, None); ([b], Some red1, None)]] [] (0, 0) 0.
Definition zeros (p : piece) : svg_numbers :=
  {| sv_x := lit "0"; sv_yrect := lit "0"; sv_width := lit "9.5"; sv_height := lit "18"; sv_ytext := lit "15" |}.
Example C78_ex : match export_svg e1 (one_row 60 32) with
  | Ok l => forallb (fun p => forallb xml_char (s_text (p_span p))) l = true /\
      flat_map (piece_nodes zeros red1 BLACK) l =
        [Element (lit "rect") [(lit "x", lit "0"); (lit "y", lit "0"); (lit "fill", lit "#000000"); (lit "width", lit "9.5"); (lit "height", lit "18")] [];
         Element (lit "text") [(lit "dy", lit "-0.25em"); (lit "x", lit "0"); (lit "y", lit "15"); (lit "fill", lit "#FF0000"); (lit "class", lit "screen__span1")]
           [Text [60; 160]]]
  | Err _ => False end.
Proof. vm_compute. auto. Qed.
Example C78_ex_valid : Forall (Forall valid_cell) (sc_cells (one_row 60 32)) /\ numeral (lit "15") /\ numeral (lit "50.06") /\ good_numbers (zeros (0, 0, 0, EMPTY_SPAN)).
Proof.
  assert (N : forall v, forallb (fun c => ((48 <=? c) && (c <=? 57)) || (c =? 46)) v = true -> numeral v).
  { intros v H. apply Forall_forall. intros c Hc. apply (proj1 (forallb_forall _ _) H) in Hc. apply orb_prop in Hc.
    destruct Hc as [Hc|Hc]; [left; apply andb_prop in Hc; destruct Hc as [A B]; apply Z.leb_le in A, B; lia|].
    apply Z.eqb_eq in Hc. subst. right. right. cbn. auto. }
  assert (C : color_ok red1) by (unfold color_ok, channel_ok; cbn; lia).
  split; [|split; [now apply N|split; [now apply N|repeat split; now apply N]]].
  assert (V : forall t, valid_cell (t, Some red1, None)) by (intro t; split; cbn [fst snd]; intros x Hx; [injection Hx as <-; exact C|discriminate]).
  apply Forall_cons; [|apply Forall_nil]. apply Forall_cons; [apply V|]. apply Forall_cons; [apply V|apply Forall_nil].
Qed.
Example C78_ex_forbidden : match export_svg e1 (one_row 7 32) with
  | Ok l => existsb (fun p => existsb (Z.eqb 7) (s_text (p_span p))) l = true /\ xml_char 7 = false
  | Err _ => False end.
Proof. vm_compute. auto. Qed.
