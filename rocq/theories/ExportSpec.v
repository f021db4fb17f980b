(** Specification: the picture an SVG export is, and which of its pieces are in it. *)
From Coq Require Import ZArith Reals List Bool String.
From Verif Require Import PyBase F64 ColorModel SpanModel ScreenModel SvgSpec SvgGeoSpec ReprSpec SvgTextSpec TermModel.
Import ListNotations.
Open Scope R_scope.

(** the rectangle of a piece, moved by the margins of 16 pixels, in a picture of width [wt] and height [ht]; the
    numbers as they are written in the document *)
Definition inside (wt ht : str) (n : svg_numbers) : Prop := exists x y width height W H,
  reads (sv_x n) x /\ reads (sv_yrect n) y /\ reads (sv_width n) width /\ reads (sv_height n) height /\ reads wt W /\ reads ht H /\
  0 <= 16 + x /\ 16 + x + width <= W /\ 0 <= 16 + y /\ 16 + y + height <= H.
Definition past_right (wt : str) (n : svg_numbers) : Prop := exists x width W,
  reads (sv_x n) x /\ reads (sv_width n) width /\ reads wt W /\ W < 16 + x + width.
Definition past_bottom (ht : str) (n : svg_numbers) : Prop := exists y height H,
  reads (sv_yrect n) y /\ reads (sv_height n) height /\ reads ht H /\ H < 16 + y + height.
(** the column after the last one of a piece *)
Definition ends_at (p : piece) : Z := (p_column p + zlen (s_text (p_span p)))%Z.

(** a terminal with listeners that take note *)
Definition heard_by (ids : list Z) (s : tstate) : tstate :=
  mkT (t_screen s) (t_cache s) (t_prev s) (t_forced s) (t_title s) (t_bgcol s) (t_origin s) (map LNote ids)
    (t_out s) (t_writes s) (t_echo s) (t_log s) (t_cslog s).
(** the color that is given, or else the terminal's *)
Definition used (given : option color) (own : color) : color := match given with Some c => c | None => own end.
