(** Specification of several screens shown at different places of one terminal: each is given by
    its size, its origin and its fill; histories name the screen each operation is made on. *)
From Coq Require Import ZArith List Bool.
From Verif Require Import PyBase SpaceModel ColorModel SpanModel Vt ScreenModel ScreenSpec DrawSpec.
Import ListNotations.
Open Scope Z_scope.

Record window := mkWin { win_w : Z; win_h : Z; win_origin : pos; win_fill : Z }.
(** the screens, the cache of blended colors they share (color.py:409) and the terminal *)
Definition desk := (list screen * ccache * emu)%type.
Definition opened (ws : list window) : list screen := map (fun v => new_screen (win_w v) (win_h v) (0, 0) [win_fill v]) ws.
(** an operation on the screen number [fst x] *)
Definition perform_on (e : env) (ws : list window) (k : desk) (x : nat * act) : desk :=
  let '(ss, c, m) := k in
  match nth_error ws (fst x), nth_error ss (fst x) with
  | Some v, Some s => let '(s', c', m') := perform e (win_origin v) (s, c, m) (snd x) in (set_nth (fst x) s' ss, c', m')
  | _, _ => k
  end.
(** the operations made on the screen [i] *)
Definition own (i : nat) (acts : list (nat * act)) : list act := map snd (filter (fun x => Nat.eqb (fst x) i) acts).
(** what these alone describe *)
Definition win_picture (sh : triple -> ecolor) (v : window) (acts : list act) : picture :=
  fold_left (paint_act sh (win_w v) (win_h v)) acts (blank (win_fill v)).
Definition win_ok (m : emu) (v : window) : Prop := is_ctl (win_fill v) = false /\ fits (win_w v) (win_h v) (win_origin v) m.
Definition on_window (ws : list window) (x : nat * act) : Prop :=
  exists v, nth_error ws (fst x) = Some v /\ act_ok (win_w v) (win_h v) (snd x).
(** the cell of the terminal in column [X], row [Y] (from 0) belongs to the window *)
Definition covers (v : window) (X Y : Z) : Prop :=
  fst (win_origin v) - 1 <= X < fst (win_origin v) - 1 + win_w v /\ snd (win_origin v) - 1 <= Y < snd (win_origin v) - 1 + win_h v.
(** no cell belongs to two of them *)
Definition apart (ws : list window) : Prop := forall i j v v' X Y, nth_error ws i = Some v -> nth_error ws j = Some v' ->
  covers v X Y -> covers v' X Y -> i = j.
