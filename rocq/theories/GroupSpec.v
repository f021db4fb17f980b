(** Specification of what Span.group keeps of a row of cells: everything, but the mark "opaque" and
    the colors of cells that look, without their colors, like the character an uncolored run began
    with. *)
From Coq Require Import ZArith List Bool.
From Verif Require Import PyBase F64 ColorModel SpanModel Vt SpanSpec.
Import ListNotations.
Open Scope Z_scope.

Definition flags_dec (f g : flags) : {f = g} + {f <> g}.
Proof. decide equality; apply bool_dec. Defined.

(** without the mark "opaque", which is the screen's own and means nothing to a terminal *)
Definition clean (f : flags) : flags := set_flag FOpaque false f.
Definition own_flags (d : scell) : flags := clean (cell_flags d).
Definition unmark (d : scell) : scell := let '(ch, f, fg, bg, rst) := d in (ch, clean f, fg, bg, rst).
Definition scell_fine (e : env) (d : scell) : Prop :=
  let '(ch, _, fg, bg, _) := d in ch <> 27 /\ regular e fg /\ regular e bg.

(** The uncolored run reached: its attributes, and the character it began with (none for a run
    without attributes at the start of the row).  [None]: the cell before has a color. *)
Definition run := option (flags * option Z).
Definition row_start : run := Some (no_flags, None).
(** the text kept for the cell is that of the character [c] with the attributes [f] *)
Definition retold (r : run) (d : scell) : bool :=
  let '(ch, f, _, _, rst) := d in
  match r with
  | Some (f', Some c) =>
      (if flags_dec f' f then true else false) && (c =? ch) && (negb rst || if flags_dec f no_flags then true else false)
  | _ => false
  end.
Definition colorless (d : scell) : scell := let '(ch, f, _, _, rst) := d in (ch, f, None, None, rst).
Definition next_run (r : run) (d : scell) : run :=
  let '(ch, f, fg, bg, _) := d in
  match fg, bg with
  | None, None =>
      match r with
      | Some (f', o) => if flags_dec f' (clean f) then r else Some (clean f, Some ch)
      | None => Some (clean f, Some ch)
      end
  | _, _ => None
  end.
(** the row that is kept *)
Fixpoint kept_row (r : run) (row : list scell) : list scell :=
  match row with
  | [] => []
  | d :: rest =>
      if retold r d then colorless d :: kept_row r rest
      else unmark d :: kept_row (next_run r d) rest
  end.

(** * Rows that are kept as they are, but for the mark *)
(** the uncolored cell [c], after the cells [a], begins a run that has a beginning character *)
Definition begins (a : list scell) (c : scell) : Prop :=
  uncolored c /\
  match rev a with
  | [] => own_flags c <> no_flags
  | p :: _ => ~ (uncolored p /\ own_flags p = own_flags c)
  end.
(** no reset sequence is attached to it *)
Definition bare (d : scell) : Prop := let '(_, f, _, _, rst) := d in rst = false \/ f = no_flags.
(** no colored cell after an uncolored run repeats, apart from the color, its first cell *)
Definition faithful (row : list scell) : Prop := forall a c mid d b,
  row = a ++ c :: mid ++ d :: b -> begins a c -> Forall (fun x => own_flags x = own_flags c /\ uncolored x) mid ->
  cell_char d = cell_char c -> cell_flags d = own_flags c -> bare d -> uncolored d.
