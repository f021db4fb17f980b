(** The two regular expressions used on styled text, as leftmost / lazy scanners.
    Definitions only. *)
From Coq Require Import ZArith List Bool.
From Verif Require Import PyBase.
Open Scope Z_scope.

Definition is_mH (c : Z) : bool := (c =? 109) || (c =? 72).

(** [(.*?)[mH]]: length up to and including the first m or H; "." stops at a newline. *)
Fixpoint find_mH (s : str) : option nat :=
  match s with
  | [] => None
  | c :: t => if is_mH c then Some 1%nat
              else if c =? NL then None
              else option_map S (find_mH t)
  end.

(** [(.*?)\x1b\\] : length up to and including the first ESC backslash *)
Fixpoint find_ST (s : str) : option nat :=
  match s with
  | [] => None
  | c :: t =>
      if (c =? ESC) && startswith [92] t then Some 2%nat
      else if c =? NL then None
      else option_map S (find_ST t)
  end.

Definition add_len (k : nat) (o : option nat) : option nat := option_map (fun n => (k + n)%nat) o.

(** core.py:162 RE_ANSI, matched at the start of [s]; the length of the match *)
Definition match_ansi (s : str) : option nat :=
  if startswith [ESC; 91] s then add_len 2 (find_mH (skipn 2 s))           (* ESC [ *)
  else if startswith [ESC; 93] s then add_len 2 (find_ST (skipn 2 s))      (* ESC ] *)
  else if startswith [ESC; 95; 71] s then add_len 3 (find_ST (skipn 3 s))  (* ESC _ G *)
  else None.

(** [RE_ANSI.sub("", s)] *)
Fixpoint strip_ansi_aux (s : str) (skip : nat) : str :=
  match s with
  | [] => []
  | c :: t =>
      match skip with
      | S k => strip_ansi_aux t k
      | O => match match_ansi (c :: t) with
             | Some n => strip_ansi_aux t (n - 1)%nat
             | None => c :: strip_ansi_aux t O
             end
      end
  end.
Definition strip_ansi (s : str) : str := strip_ansi_aux s O.

(** Longest prefix without ESC, and the rest: greedy [^\x1b]* *)
Fixpoint until_esc (s : str) : str * str :=
  match s with
  | [] => ([], [])
  | c :: t => if c =? ESC then ([], s)
              else let '(a, b) := until_esc t in (c :: a, b)
  end.

(** span.py:46 RE_ANSI_STYLES after its leading ESC [ : the lazy body ends at the first m or
    H that is followed by at least one non ESC character and then an ESC.  (If the run of non
    ESC characters reaches the end of the string the lookahead fails for every shorter run
    too.)  [acc] is the reversed body so far. *)
Fixpoint match_style_body (acc s : str) : option (str * str) :=
  match s with
  | [] => None
  | c :: t =>
      let here :=
        if is_mH c then
          let '(run, rest) := until_esc t in
          match run, rest with
          | _ :: _, _ :: _ => Some (rev acc, run)
          | _, _ => None
          end
        else None in
      match here with
      | Some r => Some r
      | None => if c =? NL then None else match_style_body (c :: acc) t
      end
  end.

Definition match_style (s : str) : option (str * str) :=
  if startswith [ESC; 91] s then match_style_body [] (skipn 2 s) else None.

(** [RE_ANSI_STYLES.finditer(s)]: (group 1, group 2, end offset) of each match *)
Fixpoint finditer_aux (s : str) (pos : Z) (skip : nat) : list (str * str * Z) :=
  match s with
  | [] => []
  | c :: t =>
      match skip with
      | S k => finditer_aux t (pos + 1) k
      | O => match match_style (c :: t) with
             | Some (body, plain) =>
                 let n := (3 + List.length body + List.length plain)%nat in
                 (body, plain, pos + Z.of_nat n) :: finditer_aux t (pos + 1) (n - 1)%nat
             | None => finditer_aux t (pos + 1) O
             end
      end
  end.
Definition finditer (s : str) : list (str * str * Z) := finditer_aux s 0 O.
