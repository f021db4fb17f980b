(** Specification of programs that repaint when the window gets another size: turns of a main loop, in each of which
    the window may have changed, the size is read, and requests are made. *)
From Coq Require Import ZArith List Bool String.
From Verif Require Import PyBase F64 SpaceModel ColorModel AnsiRe SpanModel Vt SpanSpec ScreenModel ScreenSpec DrawSpec RedrawSpec TileSpec PenSpec
  CoreModel TermModel TermSpec SessionSpec ReshapeSpec ReshapeModel.
Import ListNotations.
Open Scope Z_scope.
Open Scope list_scope.

Record turn := mkTurn {
  tn_env : tenv;
  tn_window : option emu;          (* the terminal, if something else changed it (a new size, e.g.) *)
  tn_reqs : list request
}.
(** what was sent so far has arrived *)
Definition heard (s : tstate) : tstate := set_out [] (t_writes s) s.
(** listeners that make requests *)
Definition asking (paints : list (Z * Z -> list request)) : list painter := map (fun p sz => ask_all (p sz)) paints.
Definition take_turn (ls : list painter) (t : turn) (k : tstate * emu) : res (tstate * emu) :=
  let '(s, m) := k in
  match (size_with ls ;; ask_all (tn_reqs t)) (tn_env t) (heard s) with
  | (s', Ok _) => Ok (s', vt (t_out s') (match tn_window t with Some m' => m' | None => m end))
  | (_, Err x) => Err x
  end.
Fixpoint take_turns (ls : list painter) (ts : list turn) (k : tstate * emu) : res (tstate * emu) :=
  match ts with
  | [] => Ok k
  | t :: ts => let* k := take_turn ls t k in take_turns ls ts k
  end.

(** what happens in a turn: the listeners' steps only if the size is not the screen's *)
Definition dos (sts : list step) : list happening := map (fun st => HDo (event_of st)) sts.
Definition turn_happenings (paint : Z * Z -> list step) (V : view) (t : turn) (sts : list step) : list happening :=
  let sz := te_size (tn_env t) in
  (match tn_window t with Some m => [HTerminal m] | None => [] end) ++
  (if size_eqb sz (v_w V, v_h V) then [] else HResize (fst sz) (snd sz) 32 true :: dos (paint sz)) ++ dos sts.
Fixpoint turns_view (sh : triple -> ecolor) (paint : Z * Z -> list step) (V : view) (ts : list (turn * list step)) : view :=
  match ts with
  | [] => V
  | (t, sts) :: ts => turns_view sh paint (shows sh (1, 1) V (turn_happenings paint V t sts)) ts
  end.
Fixpoint turns_ok (sh : triple -> ecolor) (paint : Z * Z -> list step) (V : view) (ts : list (turn * list step)) : Prop :=
  match ts with
  | [] => True
  | (t, sts) :: ts => happenings_ok sh (1, 1) V (turn_happenings paint V t sts) /\
                      turns_ok sh paint (shows sh (1, 1) V (turn_happenings paint V t sts)) ts
  end.
(** a turn in the world of the program: nothing fails, colors in the environment [e], requests that stand for steps *)
Definition turn_fair (v0 : tenv) (bg : color) (e : env) (tb : color) (t : turn * list step) : Prop :=
  peaceful (tn_env (fst t)) /\ color_env (tn_env (fst t)) (new_terminal v0 bg) = Ok e /\ Forall2 (stands_for tb) (tn_reqs (fst t)) (snd t).

(** * Loops that only read the size and draw *)
Definition draw_turn (v : tenv) (window : option emu) : turn * list step := (mkTurn v window [RDraw], [SAct ADraw]).
(** the window: at rest, and the size that is read is its size *)
Definition window_of (v : tenv) (m : emu) : Prop := at_rest m /\ (e_w m, e_h m) = te_size v /\ 0 <= e_w m /\ 0 <= e_h m.
(** each turn either finds a new terminal of another size, or nothing has changed *)
Fixpoint polls (size : Z * Z) (l : list (tenv * option emu)) : Prop :=
  match l with
  | [] => True
  | (v, Some m) :: l => window_of v m /\ te_size v <> size /\ polls (te_size v) l
  | (v, None) :: l => te_size v = size /\ polls size l
  end.
Definition last_size (size : Z * Z) (l : list (tenv * option emu)) : Z * Z := fold_left (fun _ t => te_size (fst t)) l size.
(** these acts give every cell its character, without attributes, whatever was there before *)
Definition covers (sh : triple -> ecolor) (w h : Z) (acts : list act) (chars : pos -> Z) : Prop :=
  forall P q, on_screen w h q -> let c := fold_left (paint_act sh w h) acts P q in
    fst c = chars q /\ Forall (eq false) (attributes (snd c)).
(** the program: it paints, and then reads the size and draws again and again *)
Definition looping (reqs : Z * Z -> list request) (v0 : tenv) (l : list (tenv * option emu)) : list turn :=
  mkTurn v0 None (reqs (te_size v0)) :: map (fun t => mkTurn (fst t) (snd t) [RDraw]) l.
