(** Specification notions for programs that write and draw through a Terminal. *)
From Coq Require Import ZArith List Bool String.
From Verif Require Import PyBase F64 SpaceModel ColorModel AnsiRe SpanModel Vt SpanSpec ScreenModel ScreenSpec DrawSpec RedrawSpec CoreModel TermModel TermSpec.
Import ListNotations.
Open Scope Z_scope.
Open Scope list_scope.

(** what a program asks a terminal to do *)
Inductive request := RWrite (data : payload) (p : pos) (force : bool) | RClear (fill : Z) | RDraw | RRedraw.
Definition ask (r : request) : M unit :=
  match r with
  | RWrite d p f => twrite d (Some p) f ;; retM tt
  | RClear c => tclear [c]
  | RDraw => draw false
  | RRedraw => draw true
  end.
Definition ask_all (l : list request) : M unit := fold_right (fun r k => ask r ;; k) (retM tt) l.

(** what is asked, as a change of the picture: a string stands for the spans Span.yield_from gives
    ([SpanSpec.v] and C20-C23 tell which) *)
Definition stands_for (tb : color) (r : request) (st : step) : Prop :=
  match r with
  | RWrite (PSpans l) p f => st = SAct (AWrite [(p, l)] tb f)
  | RWrite (PStr t) p f => exists l, parse_line t = Ok l /\ st = SAct (AWrite [(p, l)] tb f)
  | RClear c => st = SAct (AClear c)
  | RDraw => st = SAct ADraw
  | RRedraw => st = SRedraw
  end.

(** nothing fails: the stream accepts everything, the file screen.txt can be written *)
Definition peaceful (v : tenv) : Prop := calm v /\ te_file_ok v = true.
