(** core.py: _getch_posix and get_default_color step by step, against a terminal whose bytes arrive
    at any time.  Definitions only (no proofs). *)
From Coq Require Import ZArith List Bool String.
From Verif Require Import PyBase F64 ColorModel CoreModel.
Import ListNotations.
Open Scope Z_scope.
Open Scope list_scope.

(** Where a thread is in core.py:431-447: outside; in [_read], having read [acc] and the bytes [buf]
    of an unfinished character; after a [_read], before asking [_is_ready].  Nothing has been fed. *)
Inductive place_in :=
| Outside
| InRead (acc : str) (buf : list Z)
| Asking (acc : str) (buf : list Z).

(** What the reading thread does next *)
Inductive action :=
| Enter       (* 432-433: tty.setcbreak with its default TCSAFLUSH discards the bytes that wait *)
| Take        (* 416-421: os.read gives one byte *)
| More        (* 440: something is ready *)
| Finish.     (* 440-447: nothing is ready; the mode is restored, the text returned *)

(** One action: the place, the bytes that wait, and the text when the call returns; [None]: not
    possible now (os.read blocks while nothing waits). *)
Definition act (a : action) (p : place_in) (queue : list Z) : option (place_in * list Z * option str) :=
  match a, p with
  | Enter, Outside => Some (InRead [] [], [], None)
  | Take, InRead acc buf =>
      match queue with
      | [] => None
      | b :: rest =>
          match utf8_step buf b with
          | None => Some (Asking (acc ++ byte_repr b) buf, rest, None)
          | Some ([], buf') => Some (InRead acc buf', rest, None)
          | Some (t, buf') => Some (Asking (acc ++ t) buf', rest, None)
          end
      end
  | More, Asking acc buf => match queue with [] => None | _ => Some (InRead acc buf, queue, None) end
  | Finish, Asking acc buf => match queue with [] => Some (Outside, [], Some acc) | _ => None end
  | _, _ => None
  end.

(** ** A program that calls getch again and again *)
Inductive event := Arrive (bytes : list Z) | Does (a : action).

Record tty := mkTty { y_queue : list Z; y_place : place_in; y_keys : list str }.
Definition quiet_tty : tty := mkTty [] Outside [].

Definition tty_step (e : event) (s : tty) : option tty :=
  match e with
  | Arrive bytes => Some (mkTty (y_queue s ++ bytes) (y_place s) (y_keys s))
  | Does a =>
      match act a (y_place s) (y_queue s) with
      | Some (p, q, None) => Some (mkTty q p (y_keys s))
      | Some (p, q, Some t) => Some (mkTty q p (y_keys s ++ [t]))
      | None => None
      end
  end.
Fixpoint tty_run (tr : list event) (s : tty) : option tty :=
  match tr with
  | [] => Some s
  | e :: r => match tty_step e s with Some s' => tty_run r s' | None => None end
  end.

(** ** Terminal(): the two color queries *)

(** the thread of core.py:247-253 *)
Inductive thread := NoThread | Started | Inside | Ended.

(** core.py:247-258, for the layers still to be asked for ([true]: "10", the foreground).  [su_wire]:
    the answers of the terminal under way. *)
Record startup := mkStart {
  su_todo : list bool;
  su_asked : bool;
  su_thread : thread;
  su_queue : list Z;
  su_place : place_in;
  su_wire : list (list Z);
  su_heard : list str
}.
(** terminal.py:91-92: the background first *)
Definition starting : startup := mkStart [false; true] false NoThread [] Outside [] [].

Inductive move :=
| StartThread     (* core.py:252-253 *)
| Ask             (* 255-257: the query is written *)
| Join            (* 258-260: the thread has ended *)
| Reader (a : action)
| Answer          (* an answer arrives as a whole *)
| Piece (n : nat) (* the first bytes of an answer arrive *)
| Type_ (bytes : list Z).

Definition start_step (reply : bool -> option (list Z)) (m : move) (s : startup) : option startup :=
  let '(mkStart todo asked th q p wire heard) := s in
  match m with
  | StartThread =>
      match todo, th with
      | _ :: _, NoThread => Some (mkStart todo false Started q p wire heard)
      | _, _ => None
      end
  | Ask =>
      match todo, th, asked with
      | _, NoThread, _ => None
      | fg :: _, _, false =>
          Some (mkStart todo true th q p (wire ++ match reply fg with Some t => [t] | None => [] end) heard)
      | _, _, _ => None
      end
  | Join =>
      match todo, th, asked with
      | _ :: r, Ended, true => Some (mkStart r false NoThread q p wire heard)
      | _, _, _ => None
      end
  | Reader a =>
      match th, a with
      | Started, Enter | Inside, Take | Inside, More | Inside, Finish =>
          match act a p q with
          | Some (p', q', None) => Some (mkStart todo asked Inside q' p' wire heard)
          | Some (p', q', Some t) => Some (mkStart todo asked Ended q' p' wire (heard ++ [t]))
          | None => None
          end
      | _, _ => None
      end
  | Answer =>
      match wire with
      | t :: r => Some (mkStart todo asked th (q ++ t) p r heard)
      | [] => None
      end
  | Piece n =>
      match wire with
      | t :: r => Some (mkStart todo asked th (q ++ firstn n t) p (skipn n t :: r) heard)
      | [] => None
      end
  | Type_ bytes => Some (mkStart todo asked th (q ++ bytes) p wire heard)
  end.
Fixpoint start_run (reply : bool -> option (list Z)) (tr : list move) (s : startup) : option startup :=
  match tr with
  | [] => Some s
  | m :: r => match start_step reply m s with Some s' => start_run reply r s' | None => None end
  end.

(** core.py:260-272: the colors made of what the two threads read *)
Definition start_colors (heard : list str) : option (res color * res color) :=
  match heard with
  | [b; f] => Some (get_default_color true false (decode_key false b), get_default_color true true (decode_key false f))
  | _ => None
  end.
