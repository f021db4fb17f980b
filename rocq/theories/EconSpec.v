(** Specification of what a draw costs. *)
From Coq Require Import ZArith List Bool.
From Verif Require Import PyBase F64 ColorModel AnsiRe SpanModel ScreenModel ScreenSpec TermModel.
Import ListNotations.
Open Scope Z_scope.

Definition total (l : list Z) : Z := fold_right Z.add 0 l.
(** how many characters a call is given *)
Definition given (o : op) : Z :=
  match o with
  | OWrite spans _ _ _ => total (map (fun s => zlen (s_text s)) spans)
  | OBulk data _ _ => total (map (fun entry => total (map (fun s => zlen (s_text s)) (snd entry))) data)
  | _ => 0
  end.
(** the sum of the numbers returned by a series of writes; [None]: something else, or a write that raises *)
Fixpoint returned (e : env) (st : screen * ccache) (ops : list op) : option (screen * ccache * Z) :=
  match ops with
  | [] => Some (st, 0)
  | o :: r =>
      let next := match o with
                  | OWrite spans cursor tb force => Some (write e (snd st) (fst st) spans cursor tb force)
                  | OBulk data tb force => Some (write_bulk e (snd st) (fst st) data tb force)
                  | _ => None
                  end in
      match next with
      | Some (s, c, Ok n) => match returned e (s, c) r with Some (st', m) => Some (st', n + m) | None => None end
      | _ => None
      end
  end.
(** no call of the series changes the cell [q] *)
Fixpoint untouched (e : env) (st : screen * ccache) (ops : list op) (q : pos) : Prop :=
  match ops with
  | [] => True
  | o :: r => cell_at (fst (step e st o)) q = cell_at (fst st) q /\ untouched e (step e st o) r q
  end.
(** colors without errors, and nothing scrolls *)
Definition plain_write (s : screen) (o : op) : Prop :=
  match o with
  | OWrite spans (Some p) tb _ => calm_write s [(p, spans)] /\ fine tb /\ fine_data [(p, spans)]
  | OBulk data tb _ => calm_write s data /\ fine tb /\ fine_data data
  | _ => False
  end.
Fixpoint plain_run (e : env) (st : screen * ccache) (ops : list op) : Prop :=
  match ops with
  | [] => True
  | o :: r => plain_write (fst st) o /\ plain_run e (step e st o) r
  end.
(** the texts waiting to be sent *)
Definition texts (s : screen) : Z := total (map (fun i => zlen (snd i)) (sc_buf s)).
(** how many runs of neighbouring cells they form: those whose left neighbour is not waiting *)
Definition runs (s : screen) : Z :=
  zlen (filter (fun i => negb (existsb (fun j => (fst (fst j) =? fst (fst i) - 1) && (snd (fst j) =? snd (fst i))) (sc_buf s))) (sc_buf s)).
(** the size of what [Terminal.write] is given *)
Definition size_of (p : payload) : Z :=
  match p with PSpans l => total (map (fun s => zlen (s_text s)) l) | PStr t => zlen t end.
