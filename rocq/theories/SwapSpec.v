(** Specification: what a caller of a screen gets to see, and calls that differ in equal spans only. *)
From Coq Require Import ZArith List Bool String.
From Verif Require Import PyBase F64 SpaceModel ColorModel AnsiRe SpanModel Vt SpanSpec ScreenModel ScreenSpec SpanValueSpec.
Import ListNotations.
Open Scope Z_scope.

(** what a call returns or raises *)
Inductive sight :=
| Count (r : res Z)
| Chars (l : list str)
| Text (t : str)
| Nothing.
Definition sees (e : env) (st : screen * ccache) (o : op) : sight :=
  let '(s, c) := st in
  match o with
  | OWrite spans cursor tb force => Count (snd (write e c s spans cursor tb force))
  | OBulk data tb force => Count (snd (write_bulk e c s data tb force))
  | OChars sp x a => Chars (fst (cached_characters e c sp x a))
  | ORender origin redraw => Text (fst (render s origin redraw))
  | OClear _ | OResize _ _ _ => Nothing
  end.
(** everything a history returns *)
Fixpoint sights (e : env) (st : screen * ccache) (ops : list op) : list sight :=
  match ops with
  | [] => []
  | o :: rest => sees e st o :: sights e (step e st o) rest
  end.

(** spans that are ==, their colors written the usual way *)
Definition equal_spans (e : env) (a b : span) : Prop := regular_span e a /\ regular_span e b /\ span_eqb e a b = true.
Definition equal_entry (e : env) (a b : pos * list span) : Prop := fst a = fst b /\ Forall2 (equal_spans e) (snd a) (snd b).
(** the same call with equal spans *)
Definition equal_op (e : env) (o p : op) : Prop :=
  match o, p with
  | OWrite l c tb f, OWrite l' c' tb' f' => Forall2 (equal_spans e) l l' /\ c = c' /\ tb = tb' /\ f = f'
  | OBulk d tb f, OBulk d' tb' f' => Forall2 (equal_entry e) d d' /\ tb = tb' /\ f = f'
  | OChars s x a, OChars s' x' a' => equal_spans e s s' /\ x = x' /\ a = a'
  | _, _ => o = p
  end.
