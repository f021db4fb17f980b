(** Specification notions for the mouse example. *)
From Coq Require Import ZArith List Bool String.
From Verif Require Import PyBase F64 SpaceModel ColorModel SpanModel CoreModel KeySpec KeyTab Vt DrawSpec KeyUseSpec.
Import ListNotations.
Open Scope Z_scope.
Open Scope list_scope.

(** what the user does: types a text, or uses the mouse at a cell of the window *)
Inductive input := Typed (t : str) | Mouse (code : Z) (pressed : bool) (x y : Z).
Definition received (i : input) : str :=
  match i with Typed t => t | Mouse n b x y => mouse_report (dec n) (dec x) (dec y) (if b then 77 else 109) end.
(** texts getch returns as they are and that do not end the program ("c" clears the screen); supported
    mouse actions *)
Definition sensible (w h : Z) (i : input) : Prop :=
  match i with
  | Typed t => keyboard t /\ dict_get POSIX_KEY_NAMES t = None /\ t <> [] /\ Forall character t /\
      t <> lit "ctrl-c" /\ startswith (lit "mouse:") t = false
  | Mouse n b x y => 0 <= n /\ mouse_event n b <> None /\ 1 <= x <= w /\ 1 <= y <= h
  end.
(** white text in the default background *)
Definition white_text (sh : triple -> ecolor) : rend := mkRend (sh (255, 255, 255)) EDefault false false false false false false false false false.
