(** Specification of what a terminal shows when the window or the screen changes its size between writes, clears,
    draws and full redraws: what the screen holds, what the next draw draws where, what is shown, and the pen. *)
From Coq Require Import ZArith List Bool String.
From Verif Require Import PyBase F64 SpaceModel ColorModel AnsiRe SpanModel Vt SpanSpec ScreenModel ScreenSpec DrawSpec TileSpec PenSpec.
Import ListNotations.
Open Scope Z_scope.
Open Scope list_scope.

Record view := mkView {
  v_w : Z; v_h : Z;              (* the size of the screen *)
  v_tw : Z; v_th : Z;            (* the size of the terminal *)
  v_ink : pos -> ink;            (* what each cell of the screen holds *)
  v_due : pos -> option ink;     (* what the next draw draws where *)
  v_seen : pos -> ecell;         (* what the terminal shows at the places of cells, on the screen or not *)
  v_pen : rend
}.
Definition inside (w h : Z) (q : pos) : bool := (0 <=? fst q) && (fst q <? w) && (0 <=? snd q) && (snd q <? h).

Inductive happening :=
| HDo (v : event)
(** The screen is resized to [w] by [h], and keeps its cells or not; new cells hold [fill]. *)
| HResize (w h fill : Z) (keep : bool)
(** Something else changed the terminal, e.g. its window got another size *)
| HTerminal (m : emu).

(** the pen at the cell with the number [n] of a draw *)
Fixpoint pen_due (w : Z) (due : pos -> option ink) (pen : rend) (n : nat) : rend :=
  match n with
  | O => pen
  | S k => match due (nth_pos w k) with
           | Some i => if written i then rend0 else pen_due w due pen k
           | None => pen_due w due pen k
           end
  end.
Definition nothing_due : pos -> option ink := fun _ => None.
Definition show (sh : triple -> ecolor) (origin : pos) (V : view) (v : happening) : view :=
  let '(mkView w h tw th ink due seen_ pen) := V in
  match v with
  | HDo (EAct (AWrite data _ _)) =>
      let ink' := fun q => match rev (covering q (flat_map (ink_spots w h) data)) with [] => ink q | i :: _ => i end in
      mkView w h tw th ink' (fun q => if inside w h q && negb (same_ink (ink' q) (ink q)) then Some (ink' q) else due q) seen_ pen
  | HDo (EAct (AClear fill)) =>
      mkView w h tw th (fun _ => bare_ink fill) (fun q => if inside w h q then Some (bare_ink fill) else due q) seen_ pen
  | HDo (EAct ADraw) =>
      mkView w h tw th ink nothing_due
        (fun q => match due q with Some i => inked sh i (pen_due w due pen (pos_no w q)) | None => seen_ q end) rend0
  | HDo ERedraw =>
      let T := fun q => ink_tile (ink q) in
      mkView w h tw th ink nothing_due
        (fun q => if inside w h q
                  then (tile_char (T q), styled (tile_flags (T q)) None None (pen_at w T pen (pos_no w q)), [])
                  else seen_ q)
        (pen_at w T pen (Z.to_nat h * Z.to_nat w))
  | HDo (EPen pen') => mkView w h tw th ink due seen_ pen'
  | HResize w' h' fill keep =>
      mkView w' h' tw th (fun q => if keep && inside w h q then ink q else bare_ink fill)
        (fun q => if inside w' h' q then Some (bare_ink fill) else due q) seen_ pen
  | HTerminal m => mkView w h (e_w m) (e_h m) ink due (seen origin m) (e_rend m)
  end.
(** a new screen at [origin] of a terminal *)
Definition first_view (w h fill : Z) (origin : pos) (m : emu) : view :=
  mkView w h (e_w m) (e_h m) (fun _ => bare_ink fill) (fun q => if inside w h q then Some (bare_ink fill) else None)
    (seen origin m) (e_rend m).

(** * The program *)
Definition happen (e : env) (origin : pos) (k : world) (v : happening) : world :=
  match v with
  | HDo v => perform_event e origin k v
  | HResize w h fill keep => let '(s, c, m) := k in (resize s (w, h) [fill] keep, c, m)
  | HTerminal m' => let '(s, c, _) := k in (s, c, m')
  end.
(** the screen is within the terminal *)
Definition roomy (origin : pos) (V : view) : Prop :=
  1 <= fst origin /\ 1 <= snd origin /\ fst origin - 1 + v_w V <= v_tw V /\ snd origin - 1 + v_h V <= v_th V.
(** the next draw draws only on the screen *)
Definition due_inside (V : view) : Prop := forall q, v_due V q <> None -> on_screen (v_w V) (v_h V) q.
Definition happening_ok (origin : pos) (V : view) (v : happening) : Prop :=
  match v with
  | HDo v => event_ok (v_w V) (v_h V) v /\ match v with EAct ADraw => roomy origin V /\ due_inside V | ERedraw => roomy origin V | _ => True end
  | HResize _ _ fill _ => is_ctl fill = false
  | HTerminal m => listening m
  end.
Fixpoint happenings_ok (sh : triple -> ecolor) (origin : pos) (V : view) (l : list happening) : Prop :=
  match l with
  | [] => True
  | v :: l => happening_ok origin V v /\ happenings_ok sh origin (show sh origin V v) l
  end.
Definition shows (sh : triple -> ecolor) (origin : pos) (V : view) (l : list happening) : view := fold_left (show sh origin) l V.

(** * Repainting *)
Definition do_acts (acts : list act) : list happening := map (fun a => HDo (EAct a)) acts.
Definition no_clear (a : act) : Prop := match a with AClear _ => False | _ => True end.
(** the window has become [m], and the screen follows *)
Definition window (m : emu) (w h fill : Z) (keep : bool) : list happening := [HTerminal m; HResize w h fill keep].
(** what the cell [q] holds never becomes different during [acts] *)
Definition untouched (sh : triple -> ecolor) (origin : pos) (V : view) (acts : list act) (q : pos) : Prop :=
  forall a b, acts = a ++ b -> v_ink (shows sh origin V (do_acts a)) q = v_ink V q.
(** text without attributes *)
Definition no_attributes (V : view) : Prop := forall q, on_screen (v_w V) (v_h V) q -> Forall (eq false) (attributes (own (ink_tile (v_ink V q)))).
