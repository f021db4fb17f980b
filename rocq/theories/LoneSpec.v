(** Specification of writing a Span by itself: [write(span)] instead of [write([span])].  A Span is an iterable of
    Spans of one character each. *)
From Coq Require Import ZArith List Bool String.
From Verif Require Import PyBase F64 SpaceModel ColorModel AnsiRe SpanModel Vt SpanSpec ScreenModel ScreenSpec DrawSpec TileSpec PenSpec.
Import ListNotations.
Open Scope Z_scope.
Open Scope list_scope.

Inductive lone_act :=
| LWrite (p : pos) (s : span) (tb : color) (force : bool)
| LClear (fill : Z)
| LDraw
| LRedraw.
(** what the program does *)
Definition by_itself (a : lone_act) : event :=
  match a with
  | LWrite p s tb force => EAct (AWrite [(p, span_iter s)] tb force)
  | LClear fill => EAct (AClear fill)
  | LDraw => EAct ADraw
  | LRedraw => ERedraw
  end.
(** what it is to show: the picture of the same Spans written in lists *)
Definition in_list (a : lone_act) : act :=
  match a with
  | LWrite p s tb force => AWrite [(p, [s])] tb force
  | LClear fill => AClear fill
  | LDraw | LRedraw => ADraw
  end.
Definition lone_ok (w h : Z) (a : lone_act) : Prop :=
  match a with
  | LWrite (x, y) s tb _ =>
      y < h /\ inkable s /\ fine tb /\
      (* text that is longer than a character does not start in the last cell *)
      (2 <= zlen (s_text s) -> 0 <= x < w -> 0 <= y -> y * w + x + 1 < w * h)
  | LClear fill => is_ctl fill = false
  | _ => True
  end.
Definition no_redraw (a : lone_act) : Prop := match a with LRedraw => False | _ => True end.
(** the attributes of a picture's cell, without its colors *)
Definition uncolored (r : rend) : rend :=
  mkRend EDefault EDefault (r_bold r) (r_dim r) (r_italic r) (r_underline r) (r_blink r) (r_rapid r) (r_inverse r) (r_conceal r) (r_strike r).

(** * Screens that have scrolled *)
Definition with_off (o : Z) (s : screen) : screen := mkScreen (sc_w s) (sc_h s) (sc_cells s) (sc_buf s) (sc_cursor s) o.
(** each one-character Span [o] rows higher than the one before it *)
Fixpoint climbing (o x y : Z) (line : list span) : list (pos * list span) :=
  match line with
  | [] => []
  | s :: r => ((x, y - o), [s]) :: climbing o (x + 1) (y - o) r
  end.
