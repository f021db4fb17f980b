(** Specification of logs: lines written one below the other and drawn one by one. *)
From Coq Require Import ZArith List.
From Verif Require Import PyBase ColorModel SpanModel Vt ScreenModel ScreenSpec DrawSpec.
Import ListNotations.
Open Scope Z_scope.

(** each line in the row below the one before, drawn at once *)
Fixpoint log_from (i x : Z) (tb : color) (lines : list span) : list act :=
  match lines with
  | [] => []
  | sp :: rest => AWrite [((x, i), [sp])] tb false :: ADraw :: log_from (i + 1) x tb rest
  end.
Definition log := log_from 0.
(** a line of text that fits in the row *)
Definition a_line (w x : Z) (sp : span) : Prop := drawable sp /\ s_text sp <> [] /\ x + zlen (s_text sp) <= w.

(** the terminal shows the text of [sp] in row [r] of the window *)
Definition displayed (sh : triple -> ecolor) (origin : pos) (m : emu) (x r : Z) (sp : span) : Prop :=
  forall k g, nth_error (s_text sp) k = Some g ->
    seen origin m (x + Z.of_nat k, r) = (fst (painted sh (g, sp)), snd (painted sh (g, sp)), []).
(** the cells of row [r] of the screen hold the text of [sp] *)
Definition held (e : env) (s : screen) (x r : Z) (sp : span) : Prop :=
  forall k ch, nth_error (get_characters e sp true true) k = Some ch ->
    exists new, cell_at s (x + Z.of_nat k, r) = Some new /\ same_cell new (plain_cell (ch, sp)).
