(** Specification notions for input that is not UTF-8. *)
From Coq Require Import ZArith List Bool String.
From Verif Require Import PyBase KeySpec.
Import ListNotations.
Open Scope Z_scope.
Open Scope list_scope.

(** some character's encoding begins with the bytes *)
Definition utf8_prefix (p : list Z) : Prop := exists c t, scalar c /\ utf8 c = p ++ t.
(** the first two bytes of what would encode a surrogate *)
Definition surrogate_begin (p : list Z) : Prop := exists b, p = [237; b] /\ 160 <= b <= 191.
(** how Python writes the bytes object holding one byte *)
Inductive byte_shown : Z -> str -> Prop :=
| shown_quote : byte_shown 39 (lit "b""'""")
| shown_backslash : byte_shown 92 (lit "b'\\'")
| shown_tab : byte_shown 9 (lit "b'\t'")
| shown_newline : byte_shown 10 (lit "b'\n'")
| shown_return : byte_shown 13 (lit "b'\r'")
| shown_printable : forall b, 32 <= b <= 126 -> b <> 39 -> b <> 92 -> byte_shown b (lit "b'" ++ [b] ++ lit "'")
| shown_hex : forall b h l, 0 <= b < 32 \/ 127 <= b < 256 -> b <> 9 -> b <> 10 -> b <> 13 ->
    lower_hex h -> lower_hex l -> b = hex_num h * 16 + hex_num l -> byte_shown b (lit "b'\x" ++ [h; l] ++ lit "'").

(** What is understood of the bytes, [p] being those of a character not complete yet: the
    characters; a byte that can neither complete nor continue what came before appears as Python
    writes it, and what came before stays.  The last argument: whether the last byte leaves
    something incomplete. *)
Definition continues (p : list Z) (b : Z) : Prop :=
  (exists c r, scalar c /\ utf8 c = p ++ b :: r /\ r <> []) \/ surrogate_begin (p ++ [b]).
Inductive understood : list Z -> list Z -> str -> bool -> Prop :=
| u_end : forall p, understood p [] [] false
| u_char : forall p b c rest t w, scalar c -> utf8 c = p ++ [b] -> understood [] rest t w -> understood p (b :: rest) (c :: t) w
| u_more_end : forall p b, continues p b -> understood p [b] [] true
| u_more : forall p b b' rest t w, continues p b -> understood (p ++ [b]) (b' :: rest) t w -> understood p (b :: b' :: rest) t w
| u_bad : forall p b s rest t w, ~ utf8_prefix (p ++ [b]) -> ~ surrogate_begin (p ++ [b]) -> byte_shown b s ->
    understood p rest t w -> understood p (b :: rest) (s ++ t) w.
