(** Specification: the keys of an xterm, what they send and what they are called; Python's string
    literals. *)
From Coq Require Import ZArith List Bool String.
From Verif Require Import PyBase.
Import ListNotations.
Open Scope Z_scope.
Open Scope list_scope.

(** ** Keys (xterm's ctlseqs, "PC-Style Function Keys") *)
Inductive direction := Up | Down | Right_ | Left_.
Inductive button :=
  | Arrow (modifiers : Z) (d : direction)  (* 1 + shift 1 + alt 2 + ctrl 4 *)
  | Function (n : Z) | Insert | Delete | Home | End_ | PageUp | PageDown
  | Tab | BackTab | Enter | Escape | Backspace | AltBackspace | Ctrl (letter : Z).
Definition CSI (t : str) : str := [27; 91] ++ t.
Definition SS3 (t : str) : str := [27; 79] ++ t.
Definition final (d : direction) : str :=
  match d with Up => lit "A" | Down => lit "B" | Right_ => lit "C" | Left_ => lit "D" end.
(** the numbers of the function keys leave gaps after F5 and F10 *)
Definition function_number (n : Z) : Z := n + (if n <=? 5 then 10 else if n <=? 10 then 11 else 12).
(** what a key sends, in the default modes; return is a line feed because the line discipline
    translates it *)
Definition sends (b : button) : list str :=
  match b with
  | Arrow m d => [if m =? 1 then CSI (final d) else CSI (lit "1;" ++ dec m ++ final d)]
  | Function n => CSI (dec (function_number n) ++ lit "~") :: (if n <=? 4 then [SS3 [79 + n]] else [])
  | Insert => [CSI (lit "2~")] | Delete => [CSI (lit "3~")]
  | Home => [CSI (lit "H")] | End_ => [CSI (lit "F")]
  | PageUp => [CSI (lit "5~")] | PageDown => [CSI (lit "6~")]
  | Tab => [[9]] | BackTab => [CSI (lit "Z")] | Enter => [[10]] | Escape => [[27]]
  | Backspace => [[127]] | AltBackspace => [[27; 127]] | Ctrl c => [[c - 96]]
  end.
Definition prefix (m : Z) : str :=
  (if Z.testbit (m - 1) 2 then lit "ctrl-" else []) ++ (if Z.testbit (m - 1) 1 then lit "alt-" else []) ++
  (if Z.testbit (m - 1) 0 then lit "shift-" else []).
Definition direction_name (d : direction) : str :=
  match d with Up => lit "up" | Down => lit "down" | Right_ => lit "right" | Left_ => lit "left" end.
Definition called (b : button) : str :=
  match b with
  | Arrow m d => prefix m ++ direction_name d
  | Function n => lit "F" ++ dec n
  | Insert => lit "insert" | Delete => lit "delete" | Home => lit "home" | End_ => lit "end"
  | PageUp => lit "page-up" | PageDown => lit "page-down"
  | Tab => lit "tab" | BackTab => lit "shift-tab" | Enter => lit "return" | Escape => lit "escape"
  | Backspace => lit "backspace" | AltBackspace => lit "alt-backspace" | Ctrl c => lit "ctrl-" ++ [c]
  end.
(** the keys meant *)
Definition on_keyboard (b : button) : Prop :=
  match b with
  | Arrow m _ => 1 <= m <= 8 | Function n => 1 <= n <= 12 | Ctrl c => 97 <= c <= 122 | _ => True
  end.
(** Slate's table lacks the page keys and most combinations of two modifiers with arrows ... *)
Definition tabled (b : button) : bool :=
  match b with
  | Arrow m d => (m <=? 5) || ((m =? 6) && match d with Up | Down => true | _ => false end)
  | PageUp | PageDown => false | _ => true
  end.
(** ... and mixes two up *)
Definition swapped (b : button) : bool := match b with Home | End_ => true | _ => false end.

(** ** The value of a Python string literal *)
Definition digit16 (c : Z) : option Z :=
  if (48 <=? c) && (c <=? 57) then Some (c - 48)
  else if (97 <=? c) && (c <=? 102) then Some (c - 87)
  else if (65 <=? c) && (c <=? 70) then Some (c - 55) else None.
Fixpoint number16 (acc : Z) (t : str) : option Z :=
  match t with
  | [] => Some acc
  | c :: r => match digit16 c with Some d => number16 (16 * acc + d) r | None => None end
  end.
Definition add_char (c : option Z) (s : option str) : option str :=
  match c, s with Some c, Some s => Some (c :: s) | _, _ => None end.
Fixpoint literal_rest (q : Z) (t : str) : option str :=
  match t with
  | [] => None
  | c :: r =>
      if c =? q then match r with [] => Some [] | _ => None end
      else if c =? 10 then None
      else if c =? 92 then
        match r with
        | [] => None
        | k :: r1 =>
            if (k =? 39) || (k =? 34) || (k =? 92) then add_char (Some k) (literal_rest q r1)
            else if k =? 116 then add_char (Some 9) (literal_rest q r1)
            else if k =? 110 then add_char (Some 10) (literal_rest q r1)
            else if k =? 114 then add_char (Some 13) (literal_rest q r1)
            else if k =? 120 then
              match r1 with a :: b :: r2 => add_char (number16 0 [a; b]) (literal_rest q r2) | _ => None end
            else if k =? 117 then
              match r1 with a :: b :: c :: d :: r2 => add_char (number16 0 [a; b; c; d]) (literal_rest q r2) | _ => None end
            else if k =? 85 then
              match r1 with
              | a :: b :: c :: d :: a' :: b' :: c' :: d' :: r2 =>
                  add_char (number16 0 [a; b; c; d; a'; b'; c'; d']) (literal_rest q r2)
              | _ => None
              end
            else None
        end
      else add_char (Some c) (literal_rest q r)
  end.
Definition literal (t : str) : option str :=
  match t with q :: r => if (q =? 39) || (q =? 34) then literal_rest q r else None | [] => None end.

(** the characters there are *)
Definition character (c : Z) : Prop := 0 <= c < 1114112.
(** the prompt: dim, and a blank after it *)
Definition waiting : str := [27; 91; 50; 109] ++ lit "Waiting for input..." ++ [27; 91; 48; 109] ++ [32].
