(** core.py: Key objects; __main__.py: the commands [slate getch] and [slate size].  Definitions only
    (no proofs). *)
From Coq Require Import ZArith List Bool String.
From Verif Require Import PyBase F64 SpaceModel ColorModel SpanModel CoreModel MainModel.
Import ListNotations.
Open Scope Z_scope.
Open Scope list_scope.

(** What a Key may be compared with. *)
Inductive pyobj := OStr (s : str) | OKey (k : key) | OOther.

(** core.py:73-77 Key.__eq__; [str.__eq__] leaves a Key on its right to this method, so [s == k] is
    the same *)
Definition key_eq (k : key) (o : pyobj) : bool := match o with OStr s => key_eqb_str k s | _ => false end.
(** core.py:82-83 Key.__iter__ *)
Definition key_iter (k : key) : list str := k.
(** core.py:62-64: a dataclass with its own [__eq__], not frozen: its [__hash__] is None *)
Definition key_hash (k : key) : res Z := Err TypeError.

(** [key in [a, b, ...]], a list or tuple of strings: compared one by one *)
Definition in_list (k : key) (l : list str) : bool := existsb (fun s => key_eq k (OStr s)) l.
(** [key in {a, b, ...}], a set or a dictionary: hashes the key first, even if it is empty *)
Definition in_set (k : key) (l : list str) : res bool := let* _ := key_hash k in Ok (in_list k l).

(** [repr] of a string.  [pr]: str.isprintable for one character that is not ASCII. *)
Definition hex_char (n : Z) : Z := if n <? 10 then 48 + n else 87 + n.
Fixpoint hex_pad (digits : nat) (n : Z) : str :=
  match digits with O => [] | S d => hex_pad d (n / 16) ++ [hex_char (n mod 16)] end.
Definition repr_char (pr : Z -> bool) (quote c : Z) : str :=
  if (c =? quote) || (c =? 92) then [92; c]
  else if c =? 9 then [92; 116]
  else if c =? 10 then [92; 110]
  else if c =? 13 then [92; 114]
  else if (c <? 32) || (c =? 127) then [92; 120] ++ hex_pad 2 c
  else if c <? 127 then [c]
  else if pr c then [c]
  else if c <? 256 then [92; 120] ++ hex_pad 2 c
  else if c <? 65536 then [92; 117] ++ hex_pad 4 c
  else [92; 85] ++ hex_pad 8 c.
Definition repr_quote (s : str) : Z := if contains [39] s && negb (contains [34] s) then 34 else 39.
Definition repr_str (pr : Z -> bool) (s : str) : str :=
  let q := repr_quote s in q :: flat_map (repr_char pr q) s ++ [q].

(** __main__.py:8 *)
Definition prompt (e : env) : str := span_str e (styled_span (lit "Waiting for input...") FDim) ++ [32].
(** __main__.py:11 *)
Definition getch_line (pr : Z -> bool) (raw : bool) (k : key) : str :=
  join (lit " | ") (map (fun v => if raw || (zlen v =? 1) then repr_str pr v else v) k) ++ [NL].
(** __main__.py:7-11: [typed] is what was read; the printed text and how the command ends *)
Definition run_getch (e : env) (pr : Z -> bool) (raw : bool) (typed : str) : str * res unit :=
  match decode_key raw typed with
  | Ok k => (prompt e ++ getch_line pr raw k, Ok tt)
  | Err x => (prompt e, Err x)
  end.
(** __main__.py:13-14 *)
Definition run_size (size : Z * Z) : str := join (lit " x ") [dec (fst size); dec (snd size)] ++ [NL].
