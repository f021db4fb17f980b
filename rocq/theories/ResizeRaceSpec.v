(** Specification of writing while another thread resizes or clears the screen. *)
From Coq Require Import ZArith List Bool.
From Verif Require Import PyBase F64 ColorModel AnsiRe SpanModel ScreenModel ScreenSpec RaceModel RaceSpec ResizeRaceModel.
Import ListNotations.
Open Scope Z_scope.

Definition by_writer (ev : step2) : Prop := match ev with Call _ _ _ | Lay | Save _ | Enter _ | Return => True | _ => False end.
Definition by_resizer (ev : step2) : Prop :=
  match ev with Ask _ _ _ _ | Fill _ | Filled | Copy _ | Copied | Width | Height | Swap => True | _ => False end.
(** every resize of the history keeps the size *)
Definition same_size (w h : Z) (ev : step2) : Prop := match ev with Ask w' h' _ _ => w' = w /\ h' = h | _ => True end.
(** every resize of the history is a clear *)
Definition clears (w h : Z) (ev : step2) : Prop := match ev with Ask w' h' _ keep => w' = w /\ h' = h /\ keep = false | _ => True end.

(** if something is to be drawn at [q], it is what the screen holds there *)
Definition synced (e : env) (q : pos) (s : screen) : Prop :=
  forall c t, cell_at s q = Some c -> pending s q = Some t -> t = drawn e c \/ t = drawn e c ++ [NL].
(** the write does not store the cell between the moment a clear fills it and the moment the clear ends, and
    the clear does not fill it between the moment the write stores it and the moment the write notes it *)
Fixpoint untorn (q : pos) (filled busy : bool) (tr : list step2) : bool :=
  match tr with
  | [] => true
  | Fill q' :: r => if pos_eqb q' q then negb busy && untorn q true busy r else untorn q filled busy r
  | Swap :: r => untorn q false busy r
  | Save q' :: r => if pos_eqb q' q then negb filled && untorn q filled true r else untorn q filled false r
  | (Call _ _ _ | Lay | Enter _ | Return) :: r => untorn q filled false r
  | _ :: r => untorn q filled busy r
  end.

(** the step neither stores the cell [q] nor begins a resize *)
Definition not_at (q : pos) (ev : step2) : Prop := match ev with Save q' => q' <> q | Ask _ _ _ _ => False | _ => True end.
(** the new matrix of a clear that has filled the cell [q] *)
Definition filled_with (q : pos) (rz : resizer) (c : cell) : Prop :=
  match rz with
  | Filling w h fill false todo => ~ In q todo /\ on_screen w h q /\ c = (fill, None, None)
  | Resized _ _ cells | Widened _ cells | Heightened cells => mget cells (fst q) (snd q) = Some c
  | _ => False
  end.
(** what the terminal was last sent for the cell, or is to be sent next *)
Definition newest_for (q : pos) (k : scene) : option str :=
  match pending (z_screen k) q with Some t => Some t | None => last_sent q (z_sent k) end.
