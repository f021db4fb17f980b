(** Specification of written text with line breaks. *)
From Coq Require Import ZArith List Bool String.
From Verif Require Import PyBase F64 SpaceModel ColorModel AnsiRe SpanModel Vt SpanSpec ScreenModel ScreenSpec DrawSpec.
Import ListNotations.
Open Scope Z_scope.
Open Scope list_scope.

Definition with_text (t : str) (s : span) : span := mkSpan t (s_fg s) (s_bg s) (s_link s) (s_flags s) (s_reset s).
Definition no_attribute (s : span) : Prop := forall k, get_flag k (s_flags s) = false.
(** the cell below the one after text [t] written from [p] on *)
Definition below_end (w : Z) (p : pos) (t : str) : pos :=
  let n := snd p * w + fst p + zlen t in (n mod w, n / w + 1).
Definition inside_screen (w h : Z) (p : pos) : bool := (0 <=? fst p) && (fst p <? w) && (0 <=? snd p) && (snd p <? h).
(** each line starts below the end of the one before it, until the bottom of the screen *)
Fixpoint stairs (w h : Z) (p : pos) (s : span) (lines : list str) : list (pos * list span) :=
  match lines with
  | [] => []
  | l :: r => if inside_screen w h p then (p, [with_text l s]) :: stairs w h (below_end w p l) s r else []
  end.
Definition entry_stairs (w h : Z) (entry : pos * list span) : list (pos * list span) :=
  flat_map (fun s => stairs w h (fst entry) s (split_on NL (s_text s))) (snd entry).
(** one Span without attributes, not below the screen *)
Definition text_entry (h : Z) (entry : pos * list span) : Prop :=
  exists s, snd entry = [s] /\ no_attribute s /\ snd (fst entry) < h.
(** histories of such writes *)
Definition text_act (w h : Z) (a : act) : act :=
  match a with
  | AWrite data tb force => AWrite (flat_map (entry_stairs w h) data) tb force
  | _ => a
  end.
Definition text_colors (s : span) : Prop :=
  (forall c, s_fg s = Some c -> by_value c /\ c_bg c = false) /\ (forall c, s_bg s = Some c -> by_value c /\ c_bg c = true).
Definition text_ok (s : span) : Prop :=
  Forall (fun c => c = NL \/ is_ctl c = false) (s_text s) /\ text_colors s.
Definition text_act_ok (w h : Z) (a : act) : Prop :=
  match a with
  | AWrite data tb _ => Forall (text_entry h) data /\ fine tb /\ Forall (fun entry => Forall text_ok (snd entry)) data
  | AClear fill => is_ctl fill = false
  | ADraw => True
  end.
