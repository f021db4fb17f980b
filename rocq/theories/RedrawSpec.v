(** Specification of histories with full redraws (Terminal.draw(redraw=True)). *)
From Coq Require Import ZArith List Bool String.
From Verif Require Import PyBase F64 SpaceModel ColorModel AnsiRe SpanModel Vt SpanSpec ScreenModel ScreenSpec DrawSpec.
Import ListNotations.
Open Scope Z_scope.
Open Scope list_scope.

Inductive step := SAct (a : act) | SRedraw.
Definition perform_step (e : env) (origin : pos) (k : world) (st : step) : world :=
  match st with
  | SAct a => perform e origin k a
  | SRedraw => let '(s, c, m) := k in let '(out, s') := render s origin true in (s', c, vt out m)
  end.
Definition paint_step (sh : triple -> ecolor) (w h : Z) (p : picture) (st : step) : picture :=
  match st with SAct a => paint_act sh w h p a | SRedraw => p end.
(** text without attributes (bold, underline, ...); any colors *)
Definition unattributed (s : span) : Prop := Forall (eq false) (attributes (styled (s_flags s) None None rend0)).
Definition plain_act (a : act) : Prop :=
  match a with AWrite data _ _ => Forall (fun entry => Forall unattributed (snd entry)) data | _ => True end.
Definition step_ok (w h : Z) (st : step) : Prop :=
  match st with SAct a => act_ok w h a /\ plain_act a | SRedraw => True end.
(** the cell [q] was redrawn, and never changed after that *)
Definition redrawn (sh : triple -> ecolor) (w h : Z) (p0 : picture) (steps : list step) (q : pos) : Prop :=
  exists before after, steps = before ++ SRedraw :: after /\
    forall l l', after = l ++ l' ->
      fold_left (paint_step sh w h) (before ++ l) p0 q = fold_left (paint_step sh w h) steps p0 q.
