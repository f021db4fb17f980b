(** Specification of several Spans with line breaks written by one call. *)
From Coq Require Import ZArith List Bool String.
From Verif Require Import PyBase F64 SpaceModel ColorModel AnsiRe SpanModel Vt SpanSpec ScreenModel ScreenSpec DrawSpec LineSpec.
Import ListNotations.
Open Scope Z_scope.
Open Scope list_scope.

(** the cell after text [t] written from [p] on *)
Definition after_end (w : Z) (p : pos) (t : str) : pos :=
  let n := snd p * w + fst p + zlen t in (n mod w, n / w).
(** ... after lines, each below the end of the one before it *)
Fixpoint after_lines (w : Z) (p : pos) (lines : list str) : pos :=
  match lines with
  | [] => p
  | [l] => after_end w p l
  | l :: r => after_lines w (below_end w p l) r
  end.
Definition after_text (w : Z) (p : pos) (t : str) : pos := after_lines w p (split_on NL t).
(** each Span starts where the one before it ended *)
Fixpoint flow (w h : Z) (p : pos) (spans : list span) : list (pos * list span) :=
  match spans with
  | [] => []
  | s :: r => stairs w h p s (split_on NL (s_text s)) ++ flow w h (after_text w p (s_text s)) r
  end.
Definition entry_flow (w h : Z) (entry : pos * list span) : list (pos * list span) := flow w h (fst entry) (snd entry).
(** Spans without attributes; the first one is not below the screen, and all but the last one end on the screen *)
Fixpoint flows (w h : Z) (p : pos) (spans : list span) : Prop :=
  match spans with
  | [] => True
  | [s] => no_attribute s /\ snd p < h
  | s :: r => no_attribute s /\ inside_screen w h p = true /\ inside_screen w h (after_text w p (s_text s)) = true /\
      flows w h (after_text w p (s_text s)) r
  end.
Definition flow_entry (w h : Z) (entry : pos * list span) : Prop := flows w h (fst entry) (snd entry).
(** histories of such writes *)
Definition flow_act (w h : Z) (a : act) : act :=
  match a with
  | AWrite data tb force => AWrite (flat_map (entry_flow w h) data) tb force
  | _ => a
  end.
Definition flow_act_ok (w h : Z) (a : act) : Prop :=
  match a with
  | AWrite data tb _ => Forall (flow_entry w h) data /\ fine tb /\ Forall (fun entry => Forall text_ok (snd entry)) data
  | AClear fill => is_ctl fill = false
  | ADraw => True
  end.
(** the number of the cell after the Span, counted row by row *)
Definition reach (w : Z) (p : pos) (s : span) : Z := snd p * w + fst p + zlen (s_text s).
