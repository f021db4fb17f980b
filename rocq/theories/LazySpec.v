(** Specification of writing from iterables: the kinds of iterables. *)
From Coq Require Import ZArith List Bool.
From Verif Require Import PyBase F64 ColorModel AnsiRe SpanModel ScreenModel ScreenSpec LazyModel.
Import ListNotations.
Open Scope Z_scope.

(** gives these spans and does nothing else *)
Definition gives (line : list span) : supply := mkSupply (fun k => k) (Ok line).
(** raises this exception and does nothing else *)
Definition raises (ex : exn) : supply := mkSupply (fun k => k) (Err ex).
(** asks for the size of the terminal, finds that the window was resized (Terminal.size resizes the
    screen), and then gives these spans *)
Definition gives_resized (size : Z * Z) (line : list span) : supply :=
  mkSupply (fun k => (resize (fst k) size [32] true, snd k)) (Ok line).

(** entries that only give spans *)
Definition plain (data : list (pos * list span)) : list (pos * supply) := map (fun en => (fst en, gives (snd en))) data.
