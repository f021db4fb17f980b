(** Specification notions for reading with a timeout and on Windows. *)
From Coq Require Import ZArith List Bool String.
From Flocq Require Import IEEE754.BinarySingleNaN.
From Verif Require Import PyBase F64 CoreModel TimeoutModel.
Import ListNotations.
Open Scope Z_scope.

(** a finite duration above 0 *)
Definition positive (d : f64) : Prop := is_finite d = true /\ fltb fzero d = true.

(** the result of getch as getch_timeout hands it on *)
Definition typed (o : outcome (res key)) : outcome (res timed) :=
  match o with
  | Returned (Ok k) => Returned (Ok (Typed k))
  | Returned (Err x) => Returned (Err x)
  | Waits => Waits
  | Spins => Spins
  end.

(** what is left after a call that was not interrupted *)
Definition after {M} (w : world M) (s : stringio) (mode : M) (input : list Z) : world M :=
  mkWorld s mode input RaiseTimeout None.

Definition byte (b : Z) : Prop := 0 <= b < 256.
Definition ascii (b : Z) : Prop := 0 <= b < 128.
Definition is_ascii (b : Z) : bool := (0 <=? b) && (b <? 128).

(** the keys typed, as text: ASCII bytes, a prefix 0xE0 standing for ESC; nothing if any other byte
    is among them *)
Definition keyed_text (bytes : list Z) : option str :=
  match bytes with
  | [] => Some []
  | b :: rest =>
      if b =? 224 then (if forallb is_ascii rest then Some (ESC :: rest) else None)
      else (if forallb is_ascii bytes then Some bytes else None)
  end.

(** scan codes of the arrow keys of a PC keyboard, after the prefix 0xE0 *)
Definition arrow_keys : list (Z * str) :=
  [(72, lit "up"); (80, lit "down"); (75, lit "left"); (77, lit "right")].
(** scan codes of F1 to F10, after the prefix 0 *)
Definition function_keys : list (Z * str) :=
  [(59, lit "f1"); (60, lit "f2"); (61, lit "f3"); (62, lit "f4"); (63, lit "f5");
   (64, lit "f6"); (65, lit "f7"); (66, lit "f8"); (67, lit "f9"); (68, lit "f10")].
