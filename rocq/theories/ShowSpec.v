(** Specification: reading a Python expression made of calls with positional and keyword
    arguments, tuples, numbers, strings and True / False / None, and evaluating it where only the
    classes Color and Span are known. *)
From Coq Require Import ZArith List Bool Reals String.
From Flocq Require Import Core IEEE754.BinarySingleNaN.
From Verif Require Import PyBase F64 SpaceModel ColorModel SpanModel KeyUseSpec ReprSpec DecSpec.
Import ListNotations.
Open Scope Z_scope.
Open Scope list_scope.

(** ** Tokens *)
Inductive token := TNum (t : str) | TStr (s : str) | TName (n : str) | TSym (c : Z).
Definition digit_char (c : Z) : bool := (48 <=? c) && (c <=? 57).
Definition letter_char (c : Z) : bool := ((97 <=? c) && (c <=? 122)) || ((65 <=? c) && (c <=? 90)) || (c =? 95).
Definition name_char (c : Z) : bool := letter_char c || digit_char c.
Fixpoint name_token (t : str) : str * str :=
  match t with
  | c :: r => if name_char c then let '(n, u) := name_token r in (c :: n, u) else ([], t)
  | [] => ([], [])
  end.
(** digits, points, e's and a sign right after an e; whether they make a numeral is seen later *)
Fixpoint number_token (after_e : bool) (t : str) : str * str :=
  match t with
  | c :: r =>
      if digit_char c || (c =? 46) || (c =? 101) || (after_e && ((c =? 43) || (c =? 45)))
      then let '(n, u) := number_token (c =? 101) r in (c :: n, u) else ([], t)
  | [] => ([], [])
  end.
Definition put_char (c : option Z) (s : option (str * str)) : option (str * str) :=
  match c, s with Some c, Some (s, u) => Some (c :: s, u) | _, _ => None end.
(** the rest of a string literal, and what follows it (compare [literal_rest]) *)
Fixpoint string_token (q : Z) (t : str) : option (str * str) :=
  match t with
  | [] => None
  | c :: r =>
      if c =? q then Some ([], r)
      else if c =? 10 then None
      else if c =? 92 then
        match r with
        | [] => None
        | k :: r1 =>
            if (k =? 39) || (k =? 34) || (k =? 92) then put_char (Some k) (string_token q r1)
            else if k =? 116 then put_char (Some 9) (string_token q r1)
            else if k =? 110 then put_char (Some 10) (string_token q r1)
            else if k =? 114 then put_char (Some 13) (string_token q r1)
            else if k =? 120 then
              match r1 with a :: b :: r2 => put_char (number16 0 [a; b]) (string_token q r2) | _ => None end
            else if k =? 117 then
              match r1 with a :: b :: c :: d :: r2 => put_char (number16 0 [a; b; c; d]) (string_token q r2) | _ => None end
            else if k =? 85 then
              match r1 with
              | a :: b :: c :: d :: a' :: b' :: c' :: d' :: r2 =>
                  put_char (number16 0 [a; b; c; d; a'; b'; c'; d']) (string_token q r2)
              | _ => None
              end
            else None
        end
      else put_char (Some c) (string_token q r)
  end.
Definition symbol_char (c : Z) : bool := existsb (Z.eqb c) (lit "(),=-").
(** [n] bounds the number of steps *)
Fixpoint tokens (n : nat) (t : str) : option (list token) :=
  match n with
  | O => None
  | S n =>
      match t with
      | [] => Some []
      | c :: r =>
          if c =? 32 then tokens n r
          else if (c =? 39) || (c =? 34) then
            match string_token c r with Some (s, u) => option_map (cons (TStr s)) (tokens n u) | None => None end
          else if letter_char c then let '(m, u) := name_token t in option_map (cons (TName m)) (tokens n u)
          else if digit_char c then let '(m, u) := number_token false t in option_map (cons (TNum m)) (tokens n u)
          else if symbol_char c then option_map (cons (TSym c)) (tokens n r)
          else None
      end
  end.

(** ** Expressions.  An argument has a keyword or not. *)
Inductive expr :=
  | ENum (t : str) | EStr (s : str) | EName (n : str)
  | ETuple (l : list expr) | ECall (f : str) (args : list (option str * expr)).
Definition no_keyword (a : option str * expr) : bool := match fst a with None => true | Some _ => false end.
Definition is_sym (c : Z) (k : token) : bool := match k with TSym d => d =? c | _ => false end.
(** [name =], if the tokens start with it *)
Definition keyword (ts : list token) : option str * list token :=
  match ts with TName k :: tk :: r => if is_sym 61 tk then (Some k, r) else (None, ts) | _ => (None, ts) end.
Fixpoint parse (n : nat) (ts : list token) : option (expr * list token) :=
  match n with
  | O => None
  | S n =>
      match ts with
      | TNum t :: r => Some (ENum t, r)
      | TStr s :: r => Some (EStr s, r)
      | TName f :: r =>
          match r with
          | TSym c :: r1 =>
              if c =? 40 then match parse_args n r1 with Some (l, r2) => Some (ECall f l, r2) | None => None end
              else Some (EName f, r)
          | _ => Some (EName f, r)
          end
      | TSym c :: r =>
          if c =? 45 then match r with TNum t :: r1 => Some (ENum (45 :: t), r1) | _ => None end
          else if c =? 40 then
            (* a tuple; an expression in parentheses is not needed *)
            match parse_args n r with
            | Some (l, r1) => if (2 <=? zlen l) && forallb no_keyword l then Some (ETuple (map snd l), r1) else None
            | None => None
            end
          else None
      | [] => None
      end
  end
(** arguments up to the closing parenthesis; a comma may follow the last *)
with parse_args (n : nat) (ts : list token) : option (list (option str * expr) * list token) :=
  match n with
  | O => None
  | S n =>
      match ts with
      | [] => None
      | tk :: r0 =>
          if is_sym 41 tk then Some ([], r0)
          else
            let '(k, r) := keyword ts in
            match parse n r with
            | Some (x, tk1 :: r1) =>
                if is_sym 41 tk1 then Some ([(k, x)], r1)
                else if is_sym 44 tk1 then
                  match parse_args n r1 with Some (l, r2) => Some ((k, x) :: l, r2) | None => None end
                else None
            | _ => None
            end
      end
  end.

(** ** Values *)
Inductive value :=
  | VInt (n : Z) | VFloat (x : f64) | VStr (s : str) | VBool (b : bool) | VNone
  | VTuple (l : list value) | VColor (c : color) | VSpan (s : span).
(** [read] is how floats are read: the nearest double *)
Definition reader (read : str -> f64) : Prop :=
  forall t v, reads t v -> (Rabs v <= bpow radix2 1023)%R ->
    is_finite (read t) = true /\ B2R (read t) = nearest v.

(** binding of arguments: positions first, then keywords, none twice *)
Fixpoint lookup (k : str) (l : list (str * value)) : option value :=
  match l with (j, v) :: r => if str_eqb k j then Some v else lookup k r | [] => None end.
Fixpoint bind_keywords (params : list str) (args : list (option str * value)) (got : list (str * value)) :
    option (list (str * value)) :=
  match args with
  | [] => Some got
  | (Some k, v) :: r =>
      if existsb (str_eqb k) params && match lookup k got with None => true | Some _ => false end
      then bind_keywords params r ((k, v) :: got) else None
  | (None, _) :: _ => None
  end.
Fixpoint bind_args (all params : list str) (args : list (option str * value)) (got : list (str * value)) :
    option (list (str * value)) :=
  match args with
  | (None, v) :: r => match params with p :: ps => bind_args all ps r ((p, v) :: got) | [] => None end
  | _ => bind_keywords all args got
  end.
Definition given (k : string) (default : value) (l : list (str * value)) : value :=
  match lookup (lit k) l with Some v => v | None => default end.

(** the arguments of the two classes and their defaults (the private ones of Color left out) *)
Definition color_params : list str := map lit ["rgb"; "is_background"; "alpha"]%string.
Definition make_color (l : list (str * value)) : option value :=
  match lookup (lit "rgb") l, given "is_background" (VBool false) l, given "alpha" (VFloat fone) l with
  | Some (VTuple [VInt r; VInt g; VInt b]), VBool bg, VFloat a =>
      match plain_color (r, g, b) bg a with Ok c => Some (VColor c) | Err _ => None end
  | _, _, _ => None
  end.
Definition style_params : list string :=
  ["bold"; "dim"; "italic"; "underline"; "blink"; "fast_blink"; "invert"; "conceal"; "strike"; "opaque"]%string.
Definition span_params : list str :=
  map lit (["text"; "foreground"; "background"; "hyperlink"]%string ++ style_params ++ ["reset_after"]%string).
Definition as_bool (v : value) : option bool := match v with VBool b => Some b | _ => None end.
Definition as_color_or_none (v : value) : option (option color) :=
  match v with VColor c => Some (Some c) | VNone => Some None | _ => None end.
Fixpoint all_some {A} (l : list (option A)) : option (list A) :=
  match l with
  | [] => Some []
  | Some a :: r => option_map (cons a) (all_some r)
  | None :: _ => None
  end.
Definition make_span (l : list (str * value)) : option value :=
  match lookup (lit "text") l, as_color_or_none (given "foreground" VNone l), as_color_or_none (given "background" VNone l),
        given "hyperlink" (VStr []) l, all_some (map (fun k => as_bool (given k (VBool false) l)) style_params),
        as_bool (given "reset_after" (VBool true) l) with
  | Some (VStr t), Some fg, Some bg, VStr link, Some [b0; b1; b2; b3; b4; b5; b6; b7; b8; b9], Some rs =>
      Some (VSpan (mkSpan t fg bg link (mkFlags b0 b1 b2 b3 b4 b5 b6 b7 b8 b9) rs))
  | _, _, _, _, _, _ => None
  end.
Definition call (f : str) (args : list (option str * value)) : option value :=
  if str_eqb f (lit "Color") then match bind_args color_params color_params args [] with Some l => make_color l | None => None end
  else if str_eqb f (lit "Span") then match bind_args span_params span_params args [] with Some l => make_span l | None => None end
  else None.
Fixpoint eval (read : str -> f64) (x : expr) : option value :=
  match x with
  | ENum t =>
      if forallb digit_char t then option_map VInt (whole 0 t)
      else match numeral_of t with Some _ => Some (VFloat (read t)) | None => None end
  | EStr s => Some (VStr s)
  | EName n =>
      if str_eqb n (lit "True") then Some (VBool true)
      else if str_eqb n (lit "False") then Some (VBool false)
      else if str_eqb n (lit "None") then Some VNone else None
  | ETuple l => option_map VTuple (all_some (map (eval read) l))
  | ECall f args =>
      match all_some (map (fun a => option_map (pair (fst a)) (eval read (snd a))) args) with
      | Some vs => call f vs
      | None => None
      end
  end.
(** [evaluates read t v]: the text is an expression and its value is v *)
Definition evaluates (read : str -> f64) (t : str) (v : value) : Prop :=
  exists n ts x, tokens n t = Some ts /\ parse n ts = Some (x, []) /\ eval read x = Some v.
(** a text that is no expression or whose evaluation raises *)
Definition fails (read : str -> f64) (t : str) : Prop := forall v, ~ evaluates read t v.

(** ** What is expected *)
(** colors whose text makes sense: channels in range, alpha finite (and below 2^1022) *)
Definition printable (c : color) : Prop :=
  valid_rgb (c_rgb c) = true /\ is_finite (c_alpha c) = true /\ (2 * Rabs (B2R (c_alpha c)) + 1 <= bpow radix2 1023)%R.
(** the same color value, as a freshly made foreground color *)
Definition plain_again (c c' : color) : Prop :=
  c_rgb c' = c_rgb c /\ B2R (c_alpha c') = B2R (c_alpha c) /\ is_finite (c_alpha c') = true /\
  c_bg c' = false /\ c_origin c' = TRUE_COLOR /\ c_ctor c' = None.
Definition plain_again_opt (a b : option color) : Prop :=
  match a, b with None, None => True | Some c, Some c' => plain_again c c' | _, _ => False end.
(** a color as [Color((r, g, b), alpha=a)] makes it *)
Definition made_plainly (c : color) : Prop := c_bg c = false /\ c_origin c = TRUE_COLOR /\ c_ctor c = None.
Definition each_color (P : color -> Prop) (s : span) : Prop :=
  (forall c, s_fg s = Some c -> P c) /\ (forall c, s_bg s = Some c -> P c).
(** nothing to write between the text and the colors, and something after *)
Definition comma_twice (s : span) : Prop :=
  (forall k, get_flag k (s_flags s) = false) /\ s_reset s = false /\
  (s_fg s <> None \/ s_bg s <> None \/ s_link s <> []).
