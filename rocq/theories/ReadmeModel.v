(** The animation of README.md:45-85.  Definitions only (no proofs). *)
From Coq Require Import ZArith List Bool String.
From Verif Require Import PyBase F64 SpaceModel ColorModel AnsiRe SpanModel CoreModel ScreenModel TermModel PlayModel.
Import ListNotations.
Open Scope Z_scope.
Open Scope list_scope.

Definition liftM {A} (r : res A) : M A := fun _ s => (s, r).
(** README.md:55-60 *)
Definition bold_only : flags := mkFlags true false false false false false false false false false.
Definition readme_line (width : Z) : res span :=
  let* f := color_black false in
  let* f := lighten f 2 default_step in
  let* b := color_black true in
  let* b := lighten b 1 default_step in
  Ok (mkSpan (repeat 88 (Z.to_nat width)) (Some f) (Some b) [] bold_only true).
(** README.md:54-62: the height is read once, the width for each line *)
Fixpoint readme_lines (fuel n : nat) : M (list span) :=
  match n with
  | O => retM []
  | S n => bindM (twidth fuel) (fun w => bindM (liftM (readme_line w)) (fun s => bindM (readme_lines fuel n) (fun l => retM (s :: l))))
  end.
Definition readme_content (fuel : nat) : M (list span) := bindM (theight fuel) (fun h => readme_lines fuel (Z.to_nat h)).
(** README.md:66-67, as it is written *)
Definition readme_writes (content : list span) : M unit :=
  fold_right (fun _ k => twrite (PSpans content) None false ;; k) (retM tt) content.
(** the same with the place of each line given, as Screen.write requires *)
Fixpoint placed_writes (content : list span) (y : Z) : M unit :=
  match content with
  | [] => retM tt
  | line :: r => twrite (PSpans [line]) (Some (0, y)) false ;; placed_writes r (y + 1)
  end.
(** random.randint(0, n - 1) on the number [k] of some generator *)
Definition randint (n k : Z) : res Z := if n <=? 0 then Err ValueError else Ok (k mod n).
(** README.md:76-83: one turn of the loop.  AssertionError is [UserError 0]; the sleep is left out *)
Definition readme_frame (fuel : nat) (k : Z * Z) : M unit :=
  bindM (twidth fuel) (fun w => bindM (liftM (randint w (fst k))) (fun x =>
  bindM (theight fuel) (fun h => bindM (liftM (randint h (snd k))) (fun y =>
  bindM (twrite (PStr (lit "0")) (Some (x, y)) false) (fun n =>
  if n <=? 1 then draw false else raiseM (UserError 0)))))).
Definition readme_frames (fuel : nat) (ks : list (Z * Z)) : M unit := fold_right (fun k r => readme_frame fuel k ;; r) (retM tt) ks.
(** README.md:51-84, interrupted after as many turns as there are numbers in [ks] *)
Definition readme_program (writes : list span -> M unit) (fuel : nat) (ks : list (Z * Z)) : M unit :=
  show_cursor false ;;
  bindM (readme_content fuel) (fun content =>
  alt_buffer true (writes content ;; draw false ;; readme_frames fuel ks ;; raiseM KeyboardInterrupt)).
Definition readme : nat -> list (Z * Z) -> M unit := readme_program readme_writes.
Definition readme_placed : nat -> list (Z * Z) -> M unit := readme_program (fun content => placed_writes content 0).
