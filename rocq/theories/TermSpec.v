(** Specification vocabulary for the terminal properties: histories of calls, the bytes that open
    and close each context manager (xterm's control sequences, spelled out), title sessions. *)
From Coq Require Import ZArith List Bool String.
From Verif Require Import PyBase F64 SpaceModel ColorModel SpanModel ScreenModel Vt TermModel.
Open Scope Z_scope.
Open Scope list_scope.

(** * Size histories *)
(** What an application may ask of a terminal between looks at its size *)
Inductive call :=
| CSize | CWidth | CHeight
| CWrite (d : payload) (cursor : option pos) (force : bool)
| CBulk (d : list (pos * payload)) (force : bool)
| CClear (fill : str)
| CCursor (p : pos)
| CTitle (t : option str)
| CDraw (redraw : bool)
| CSpace (c : option colorspace).

(** each call happens in its own surroundings, in particular at its own window size; exceptions are
    caught by the application *)
Definition do_call (fuel : nat) (s : tstate) (k : tenv * call) : tstate :=
  let '(v, c) := k in
  match c with
  | CSize => fst (size fuel v s)
  | CWidth => fst (twidth fuel v s)
  | CHeight => fst (theight fuel v s)
  | CWrite d p f => fst (twrite d p f v s)
  | CBulk d f => fst (twrite_bulk d f v s)
  | CClear f => fst (tclear f v s)
  | CCursor p => fst (set_cursor p v s)
  | CTitle t => fst (set_title t v s)
  | CDraw r => fst (draw r v s)
  | CSpace c => fst (set_color_space c v s)
  end.
Definition do_calls (fuel : nat) (s : tstate) (l : list (tenv * call)) : tstate := fold_left (do_call fuel) l s.

(** the sizes the application saw, in order *)
Definition looked (k : tenv * call) : list (Z * Z) :=
  match snd k with CSize | CWidth | CHeight => [te_size (fst k)] | _ => [] end.
Definition seen_sizes (l : list (tenv * call)) : list (Z * Z) := flat_map looked l.

(** those that differ from the one before *)
Fixpoint differing (before : Z * Z) (l : list (Z * Z)) : list (Z * Z) :=
  match l with
  | [] => []
  | a :: r => (if (fst a =? fst before) && (snd a =? snd before) then [] else [a]) ++ differing a r
  end.
(** every listener once for each, in registration order *)
Definition notices (ids : list Z) (sizes : list (Z * Z)) : list (Z * (Z * Z)) :=
  flat_map (fun sz => map (fun id => (id, sz)) ids) sizes.

(** * Context managers *)
Inductive mgr := AltBuffer (hide : bool) | NoEcho | ReportMouse | Batch.
Definition within {A} (m : mgr) (body : M A) : M A :=
  match m with
  | AltBuffer h => alt_buffer h body
  | NoEcho => no_echo body
  | ReportMouse => report_mouse body
  | Batch => batch body
  end.
(** [with m1: with m2: ... body] *)
Definition nest {A} (ms : list mgr) (body : M A) : M A := fold_right within body ms.

Definition seq_ (s : string) : str := 27 :: 91 :: lit s.
Definition opening (m : mgr) : str :=
  match m with
  | AltBuffer h => seq_ "?1049h" ++ (if h then seq_ "?25l" else [])
  | NoEcho => []
  | ReportMouse => seq_ "?1006h" ++ seq_ "?1002h" ++ seq_ "?1003h"
  | Batch => seq_ "?2026$h"
  end.
Definition closing (m : mgr) : str :=
  match m with
  | AltBuffer h => seq_ "?1049l" ++ seq_ "23;0t" ++ (if h then seq_ "?25h" else [])
  | NoEcho => []
  | ReportMouse => seq_ "?1006l" ++ seq_ "?1002l" ++ seq_ "?1003l"
  | Batch => seq_ "?2026$l"
  end.
(** entering: the opening sequences, write by write *)
Definition enter (m : mgr) : M unit :=
  match m with
  | AltBuffer h => stream_write (seq_ "?1049h") ;; (if h then stream_write (seq_ "?25l") else retM tt)
  | NoEcho => set_echo false
  | ReportMouse => stream_write (opening ReportMouse)
  | Batch => stream_write (opening Batch)
  end.
Definition openings (ms : list mgr) : str := flat_map opening ms.
Definition closings (ms : list mgr) : str := flat_map closing (rev ms).
Definition silences (m : mgr) : bool := match m with NoEcho => true | _ => false end.

(** the stream accepts everything *)
Definition calm (v : tenv) : Prop := forall n, te_fail v n = false.
(** ... everything from the n-th write on *)
Definition calm_from (v : tenv) (n : nat) : Prop := forall k, (n <= k)%nat -> te_fail v k = false.

(** the same terminal object but for what went to the stream and the tty's echo *)
Definition same_object (s s' : tstate) : Prop :=
  t_screen s' = t_screen s /\ t_cache s' = t_cache s /\ t_prev s' = t_prev s /\ t_forced s' = t_forced s /\
  t_title s' = t_title s /\ t_bgcol s' = t_bgcol s /\ t_origin s' = t_origin s /\ t_listeners s' = t_listeners s /\
  t_log s' = t_log s /\ t_cslog s' = t_cslog s.

(** no unterminated operating system command *)
Definition osc_closed (m : emu) : Prop := match e_parse m with POsc _ | POscEsc _ => False | _ => True end.

(** the private modes a manager's exit must leave, with the value *)
Definition left_modes (m : mgr) : list (Z * bool) :=
  match m with
  | AltBuffer h => (1049, false) :: if h then [(25, true)] else []
  | NoEcho => []
  | ReportMouse => [(1006, false); (1002, false); (1003, false)]
  | Batch => []
  end.

(** * Titles *)
(** what a session does: set (or reset) the title, or something else that writes to the stream *)
Inductive tact := TTitle (t : option str) | TOther (m : M unit).
Fixpoint acts (l : list tact) : M unit :=
  match l with
  | [] => retM tt
  | TTitle t :: r => set_title t ;; acts r
  | TOther m :: r => m ;; acts r
  end.
(** output that has nothing to do with the title *)
Definition quiet (o : str) : Prop :=
  forall m, e_parse m = PGround ->
    e_parse (vt o m) = PGround /\ e_title (vt o m) = e_title m /\ e_titles (vt o m) = e_titles m.
Definition untitled (m : M unit) : Prop :=
  forall v s, exists s' r o, m v s = (s', r) /\ t_title s' = t_title s /\ t_out s' = t_out s ++ o /\ quiet o.
(** a title as one writes it: not empty and free of BEL and ESC *)
Definition clean_title (t : str) : Prop := t <> [] /\ ~ In 7 t /\ ~ In 27 t.
Definition fair (a : tact) : Prop :=
  match a with TTitle (Some t) => clean_title t | TTitle None => True | TOther m => untitled m end.

(** * Reading a color's sequence again and again *)
Fixpoint reads (es : list env) (o : color_obj) : list str :=
  match es with
  | [] => []
  | e :: r => let '(a, o') := read_ansi e o in a :: reads r o'
  end.

(** no title, or an empty one *)
Definition blank_title (t : option str) : Prop := match t with Some (_ :: _) => False | _ => True end.

(** an action that does not reset the title *)
Definition only_sets (a : tact) : Prop := match a with TTitle None => False | _ => True end.

(** setting titles one after the other *)
Definition sets (l : list str) : list tact := map (fun t => TTitle (Some t)) l.

(** whether the terminal echoes now *)
Definition echoing : M bool := fun _ s => (s, Ok (t_echo s)).

(** DECRPM answers "set" and "reset" for private mode 2026: the mode is supported *)
Definition sync_answers : list str := [seq_ "?2026;1$y"; seq_ "?2026;2$y"].

(** DECRQM and DECRPM: the request for the state of a private mode, and the report *)
Definition mode_request (n : Z) : str := seq_ "?" ++ dec n ++ lit "$p".
Definition mode_report (n state : Z) : str := seq_ "?" ++ dec n ++ lit ";" ++ dec state ++ lit "$y".
(** a terminal that reports the states of its modes when asked: 0 unknown, 1 set, 2 reset,
    3 and 4 permanently set and reset *)
Definition reports (answer : str -> option str) (state : Z -> Z) : Prop :=
  (forall n, 0 <= state n <= 4) /\ forall out n, answer (out ++ mode_request n) = Some (mode_report n (state n)).

(** * Controls *)
(** Ringing the bell, showing or hiding the cursor, reporting the mouse or not *)
Inductive control := Ring | ShowCursor (b : bool) | Mouse (b : bool).
Definition asks (c : control) (mode : Z) : option bool :=
  match c with
  | Ring => None
  | ShowCursor b => if mode =? 25 then Some b else None
  | Mouse b => if (mode =? 1002) || (mode =? 1003) || (mode =? 1006) then Some b else None
  end.
(** A mode after some controls: what the last of them to ask for it asked *)
Definition mode_after (l : list control) (mode : Z) (before : option bool) : option bool :=
  fold_left (fun old c => match asks c mode with Some b => Some b | None => old end) l before.
Definition rings (l : list control) : Z :=
  Z.of_nat (List.length (filter (fun c => match c with Ring => true | _ => false end) l)).

(** How many times a terminal receiving [out] rings: BEL on its own, not ending a command *)
Fixpoint rung (out : str) (t : emu) : Z :=
  match out with
  | [] => 0
  | c :: r => (match e_parse t with PGround => if c =? 7 then 1 else 0 | _ => 0 end) + rung r (feed1 t c)
  end.
(** Two terminals that differ in their private modes only *)
Definition same_but_modes (t t' : emu) : Prop := t' = set_modes (e_modes t') t.
