(** Specification: where the numbers written in an SVG export put its pieces. *)
From Coq Require Import ZArith List Bool String Reals.
From Verif Require Import PyBase F64 ColorModel SpanModel ScreenModel SvgSpec SvgDocSpec SvgGeoModel SvgGeoSpec ReprSpec.
Import ListNotations.
Open Scope R_scope.
Open Scope list_scope.

(** [about t v d]: the text t is a numeral whose value is within d of v *)
Definition about (t : str) (v d : R) : Prop := exists u, reads t u /\ Rabs (u - v) <= d.
(** the numbers of a piece, at its column and row *)
Definition placed (fs : Z) (p : piece) (n : svg_numbers) : Prop :=
  let text := s_text (p_span p) in
  about (sv_x n) (IZR (p_column p) * (IZR fs * em_width)) (/ 100) /\
  about (sv_yrect n) (IZR (p_row p) * (IZR fs * em_height) - raise fs text) (/ 100) /\
  about (sv_width n) (IZR (zlen text) * (IZR fs * em_width) + / 2) (IZR (zlen text) * / 10000 + / 100) /\
  about (sv_height n) (IZR fs * (em_height * (108 / 100))) (/ 1000) /\
  about (sv_ytext n) (IZR (p_row p) * (IZR fs * em_height) + IZR fs) (/ 100).
(** the nodes of the screen, each piece with its numbers *)
Definition numbered_nodes (dfg dbg : color) (l : list (piece * svg_numbers)) : list node :=
  match l with
  | [] => [Text [10; 10]%Z]
  | _ => Text [10%Z] :: flat_map (fun pn => piece_nodes (fun _ => snd pn) dfg dbg (fst pn)) l ++ [Text [10%Z]]
  end.
(** screens the statement is about *)
Definition moderate (s : screen) (l : list piece) : Prop :=
  (zlen (sc_cells s) <= 8192)%Z /\ Forall (fun p => (p_column p + zlen (s_text (p_span p)) <= 8192)%Z) l.
