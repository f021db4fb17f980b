(** Python values and builtins used by Slate.  Definitions only (no proofs).

    A Python [str] is the list of its code points.  Builtins that consult Unicode tables
    ([str.isdigit], [str.strip], [int]) use those of Unicode 14 (CPython 3.11). *)
From Coq Require Export List ZArith Bool Lia.
From Coq Require Import String Ascii.
Export ListNotations.
Open Scope Z_scope.

Definition str := list Z.

(** ASCII literals. *)
Definition lit (s : string) : str :=
  map (fun a => Z.of_N (N_of_ascii a)) (list_ascii_of_string s).

Definition ESC : Z := 27.
Definition NL : Z := 10.
Definition BEL : Z := 7.

(** Exceptions as values. *)
Inductive exn :=
| ValueError | TypeError | IndexError | KeyError | AttributeError
| OverflowError | RecursionError | OSError | NotImplementedErr | KeyboardInterrupt
| RuntimeError | TimeoutException | UnicodeDecodeError
| UserError (n : Z).

Inductive res (A : Type) :=
| Ok (a : A)
| Err (e : exn).
Arguments Ok {A} a.
Arguments Err {A} e.

Definition bindr {A B} (r : res A) (k : A -> res B) : res B :=
  match r with Ok a => k a | Err e => Err e end.
Notation "'let*' x ':=' r 'in' k" := (bindr r (fun x => k))
  (at level 200, x pattern, r at level 100, k at level 200).

Definition exn_eqb (a b : exn) : bool :=
  match a, b with
  | ValueError, ValueError | TypeError, TypeError | IndexError, IndexError
  | KeyError, KeyError | AttributeError, AttributeError | OverflowError, OverflowError
  | RecursionError, RecursionError | OSError, OSError
  | NotImplementedErr, NotImplementedErr | KeyboardInterrupt, KeyboardInterrupt => true
  | UserError n, UserError m => n =? m
  | _, _ => false
  end.

(** [a == b] on strings. *)
Fixpoint str_eqb (a b : str) : bool :=
  match a, b with
  | [], [] => true
  | x :: a', y :: b' => (x =? y) && str_eqb a' b'
  | _, _ => false
  end.

(** [x in list_of_strings] *)
Definition str_in (x : str) (l : list str) : bool := existsb (str_eqb x) l.

Definition zlen {A} (l : list A) : Z := Z.of_nat (List.length l).

(** [s.startswith(p)] *)
Fixpoint startswith (p s : str) : bool :=
  match p, s with
  | [], _ => true
  | x :: p', y :: s' => (x =? y) && startswith p' s'
  | _ :: _, [] => false
  end.

(** [s.endswith(p)] *)
Definition endswith (p s : str) : bool := startswith (rev p) (rev s).

(** [c in s] for one character, and [s.count(c)] *)
Definition contains_char (c : Z) (s : str) : bool := existsb (Z.eqb c) s.
Definition count_char (c : Z) (s : str) : Z := zlen (filter (Z.eqb c) s).

(** [p in s] for strings *)
Fixpoint contains (p s : str) : bool :=
  startswith p s || match s with [] => false | _ :: t => contains p t end.

(** [s.split(sep)] for a one character separator *)
Fixpoint split_on (sep : Z) (s : str) : list str :=
  match s with
  | [] => [[]]
  | c :: t =>
      if c =? sep then [] :: split_on sep t
      else match split_on sep t with
           | [] => [[c]]
           | h :: r => (c :: h) :: r
           end
  end.

(** [s.split(sep)] for a non empty separator: scan left to right, non overlapping.
    [skip] counts characters of a separator already recognised. *)
Fixpoint split_str_aux (sep s : str) (skip : nat) (cur : str) : list str :=
  match s with
  | [] => [rev cur]
  | c :: t =>
      match skip with
      | S k => split_str_aux sep t k cur
      | O =>
          if startswith sep (c :: t)
          then rev cur :: split_str_aux sep t (List.length sep - 1)%nat []
          else split_str_aux sep t O (c :: cur)
      end
  end.
Definition split_str (sep s : str) : res (list str) :=
  match sep with
  | [] => Err ValueError                       (* "empty separator" *)
  | _ => Ok (split_str_aux sep s O [])
  end.

(** [sep.join(l)] *)
Fixpoint join (sep : str) (l : list str) : str :=
  match l with
  | [] => []
  | [x] => x
  | x :: r => x ++ sep ++ join sep r
  end.

(** [s.replace(old, new)] for non empty [old] *)
Fixpoint replace_aux (old new s : str) (skip : nat) : str :=
  match s with
  | [] => []
  | c :: t =>
      match skip with
      | S k => replace_aux old new t k
      | O =>
          if startswith old (c :: t)
          then new ++ replace_aux old new t (List.length old - 1)%nat
          else c :: replace_aux old new t O
      end
  end.
Definition replace (old new s : str) : str := replace_aux old new s O.

(** [s.lstrip(chars)], [s.rstrip(chars)], [s.strip(chars)] *)
Fixpoint lstrip_by (f : Z -> bool) (s : str) : str :=
  match s with
  | [] => []
  | c :: t => if f c then lstrip_by f t else s
  end.
Definition rstrip_by (f : Z -> bool) (s : str) : str := rev (lstrip_by f (rev s)).
Definition strip_by (f : Z -> bool) (s : str) : str := rstrip_by f (lstrip_by f s).

(** [str.isspace] of one character: the complete list of Unicode white space. *)
Definition is_space (c : Z) : bool :=
  ((9 <=? c) && (c <=? 13)) || ((28 <=? c) && (c <=? 32)) || (c =? 133) || (c =? 160)
  || (c =? 5760) || ((8192 <=? c) && (c <=? 8202)) || (c =? 8232) || (c =? 8233)
  || (c =? 8239) || (c =? 8287) || (c =? 12288).

(** ASCII [str.lower] *)
Definition lower_char (c : Z) : Z := if (65 <=? c) && (c <=? 90) then c + 32 else c.
Definition lower (s : str) : str := map lower_char s.

Definition is_digit (c : Z) : bool := (48 <=? c) && (c <=? 57).

(** Unicode 14, category Nd: the zero of each script; its digits follow in order. *)
Definition DECIMAL_ZEROS : list Z :=
  [48; 1632; 1776; 1984; 2406; 2534; 2662; 2790; 2918; 3046; 3174; 3302; 3430; 3558; 3664; 3792;
   3872; 4160; 4240; 6112; 6160; 6470; 6608; 6784; 6800; 6992; 7088; 7232; 7248; 42528; 43216;
   43264; 43472; 43504; 43600; 44016; 65296; 66720; 68912; 69734; 69872; 69942; 70096; 70384;
   70736; 70864; 71248; 71360; 71472; 71904; 72016; 72784; 73040; 73120; 92768; 92864; 93008;
   120782; 120792; 120802; 120812; 120822; 123200; 123632; 125264; 130032].
(** Unicode 14, Numeric_Type=Digit: superscripts, circled digits and the like. *)
Definition OTHER_DIGITS : list (Z * Z) :=
  [(178, 179); (185, 185); (4969, 4977); (6618, 6618); (8304, 8304); (8308, 8313); (8320, 8329);
   (9312, 9320); (9332, 9340); (9352, 9360); (9450, 9450); (9461, 9469); (9471, 9471);
   (10102, 10110); (10112, 10120); (10122, 10130); (68160, 68163); (69216, 69224);
   (69714, 69722); (127232, 127242)].

(** unicodedata.decimal *)
Definition decimal (c : Z) : option Z :=
  match find (fun z => (z <=? c) && (c <=? z + 9)) DECIMAL_ZEROS with
  | Some z => Some (c - z)
  | None => None
  end.
(** [str.isdecimal] of one character; the class \d of [re] *)
Definition is_decimal (c : Z) : bool := match decimal c with Some _ => true | None => false end.
(** [s.isdigit()] *)
Definition is_digit_char (c : Z) : bool :=
  is_decimal c || existsb (fun r => (fst r <=? c) && (c <=? snd r)) OTHER_DIGITS.
Definition isdigit (s : str) : bool :=
  match s with [] => false | _ => forallb is_digit_char s end.

(** CPython's _PyUnicode_TransformDecimalAndSpaceToASCII, which [int] and [float] apply first:
    decimal digits of every script become ASCII digits. *)
Definition ascii_digit (c : Z) : Z := match decimal c with Some d => 48 + d | None => c end.
Definition ascii_digits (s : str) : str := map ascii_digit s.
(** What [int] and [float] strip: white space other than the ASCII separators 28 to 31. *)
Definition num_space (c : Z) : bool := is_space c && negb ((28 <=? c) && (c <=? 31)).

(** Value of one digit in bases up to 36 *)
Definition digit_val (c : Z) : option Z :=
  if is_digit c then Some (c - 48)
  else if (97 <=? c) && (c <=? 122) then Some (c - 87)
  else if (65 <=? c) && (c <=? 90) then Some (c - 55)
  else None.

(** Digits with single underscores between them. [us]: an underscore (or the start) is
    just behind us, so a digit must follow. *)
Fixpoint parse_digits (base acc : Z) (us : bool) (s : str) : option Z :=
  match s with
  | [] => if us then None else Some acc
  | c :: t =>
      if c =? 95 then (if us then None else parse_digits base acc true t)
      else match digit_val c with
           | Some d => if d <? base then parse_digits base (acc * base + d) false t else None
           | None => None
           end
  end.

(** Optional 0x prefix accepted by [int(_, base=16)] *)
Definition drop_0x (s : str) : str :=
  match s with
  | a :: b :: t =>
      if (a =? 48) && ((b =? 120) || (b =? 88))
      then match t with
           | c :: t' => if c =? 95 then t' else t
           | [] => t
           end
      else s
  | _ => s
  end.

(** An optional sign: (negative, rest) *)
Definition split_sign (s : str) : bool * str :=
  match s with
  | c :: t => if c =? 43 then (false, t) else if c =? 45 then (true, t) else (false, s)
  | [] => (false, [])
  end.

(** [int(s)] and [int(s, base=16)]; [None] is ValueError. *)
Definition parse_int (base : Z) (s : str) : option Z :=
  let s := strip_by num_space (ascii_digits s) in
  let '(neg, s) := split_sign s in
  let s := if base =? 16 then drop_0x s else s in
  match parse_digits base 0 true s with
  | Some v => Some (if neg then - v else v)
  | None => None
  end.
Definition py_int (s : str) : res Z :=
  match parse_int 10 s with Some v => Ok v | None => Err ValueError end.
Definition py_int16 (s : str) : res Z :=
  match parse_int 16 s with Some v => Ok v | None => Err ValueError end.

(** [str(n)] for an integer *)
Fixpoint dec_fuel (fuel : nat) (n : Z) (acc : str) : str :=
  match fuel with
  | O => acc
  | S f => let acc' := (48 + n mod 10) :: acc in
           if n <? 10 then acc' else dec_fuel f (n / 10) acc'
  end.
Definition dec_nonneg (n : Z) : str := dec_fuel (S (Z.to_nat (Z.log2 n))) n [].
Definition dec (n : Z) : str := if n <? 0 then 45 :: dec_nonneg (- n) else dec_nonneg n.

(** [f"{n:02X}"] for 0 <= n < 256 (all uses are on validated channels) *)
Definition hex_digit (d : Z) : Z := if d <? 10 then 48 + d else 55 + d.
Definition hex02 (n : Z) : str := [hex_digit (n / 16); hex_digit (n mod 16)].

(** Python slices with step 1: [s[a:b]], bounds optional and possibly negative. *)
Definition clamp_index (len i : Z) : Z :=
  let i := if i <? 0 then i + len else i in
  if i <? 0 then 0 else if len <? i then len else i.
Definition slice (a b : option Z) (s : str) : str :=
  let n := zlen s in
  let lo := match a with Some i => clamp_index n i | None => 0 end in
  let hi := match b with Some i => clamp_index n i | None => n end in
  firstn (Z.to_nat (hi - lo)) (skipn (Z.to_nat lo) s).

(** [s[i]] *)
Definition index (i : Z) (s : str) : res str :=
  let n := zlen s in
  let j := if i <? 0 then i + n else i in
  if (j <? 0) || (n <=? j) then Err IndexError
  else match nth_error s (Z.to_nat j) with Some c => Ok [c] | None => Err IndexError end.

(** [range(n)] (empty when n is negative) and [enumerate] *)
Definition range (n : Z) : list Z := map Z.of_nat (seq 0 (Z.to_nat n)).
Fixpoint enum_from {A} (i : Z) (l : list A) : list (Z * A) :=
  match l with
  | [] => []
  | a :: r => (i, a) :: enum_from (i + 1) r
  end.
Definition enumerate {A} (l : list A) : list (Z * A) := enum_from 0 l.

(** [d.get(k)] on a dict literal given in source order: the last binding of a key wins. *)
Definition dict_get {A} (d : list (str * A)) (k : str) : option A :=
  fold_left (fun acc kv => if str_eqb (fst kv) k then Some (snd kv) else acc) d None.

Definition last_of (l : list str) : str := last l [].

(** Lists updated in place: [l[i] = v] for an index known to be in range. *)
Fixpoint set_nth {A} (n : nat) (v : A) (l : list A) : list A :=
  match l, n with
  | [], _ => []
  | _ :: r, O => v :: r
  | a :: r, S k => a :: set_nth k v r
  end.
