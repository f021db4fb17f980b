(** terminal.py: reading the size with listeners that paint; experiments/resize.py.  Definitions only. *)
From Coq Require Import ZArith List Bool String.
From Verif Require Import PyBase F64 SpaceModel ColorModel AnsiRe SpanModel CoreModel ScreenModel TermModel ReadmeModel.
Import ListNotations.
Open Scope Z_scope.
Open Scope list_scope.

(** event.py:52-55 over listeners that are programs; what they return is not used by terminal.py *)
Definition painter := Z * Z -> M unit.
Fixpoint tell (sz : Z * Z) (ls : list painter) : M unit :=
  match ls with
  | [] => retM tt
  | f :: r => f sz ;; tell sz r
  end.
(** terminal.py:83-88, 141-152: the screen's own listener first, then the application's.  Simplification: these do
    not read the size themselves (C43 says what happens if one does). *)
Definition size_with (ls : list painter) : M (Z * Z) := fun v s =>
  let sz := te_size v in
  let notify : M unit :=
    match t_prev s with
    | Some p =>
        if size_eqb sz p then retM tt
        else (fun _ s => (set_screen (resize (t_screen s) sz (lit " ") true) (t_cache s) s, Ok tt)) ;; tell sz ls
    | None => retM tt
    end in
  match notify v s with
  | (s', Err x) => (s', Err x)
  | (s', Ok _) => (set_prev (Some sz) s', Ok sz)
  end.

(** experiments/resize.py:6-7: [int(val / limit * 256)].  The limit is not 0: for an empty range there is no call. *)
Definition normalize (val : f64) (limit : Z) : res Z := py_int_of_float (fmul (fdiv val (fofZ limit)) (fofZ 256)).
(** experiments/resize.py:14-31: one cell *)
Definition uv_span (w h x y : Z) : res span :=
  let* r := normalize (fofZ x) w in
  let* g := normalize (fofZ y) h in
  let* c1 := color_of (DTriple (r, g, 0)) in
  let* c1 := as_background c1 true None in
  let* r2 := normalize (fofZ x) w in
  let* g2 := normalize (fadd (fofZ y) (flit 1 2)) h in
  let* c2 := color_of (DTriple (r2, g2, 0)) in
  Ok (mkSpan [9604] (Some c2) (Some c1) [] no_flags true).
Definition uv_cell (w h : Z) (q : Z * Z) : M unit :=
  bindM (liftM (uv_span w h (fst q) (snd q))) (fun s => twrite (PSpans (span_iter s)) (Some q) false ;; retM tt).
(** experiments/resize.py:10-33; [write] gets a Span, whose iteration gives Spans of one character *)
Definition print_uv : painter := fun size =>
  let '(w, h) := size in
  fold_right (fun q k => uv_cell w h q ;; k) (retM tt) (flat_map (fun x => map (fun y => (x, y)) (range h)) (range w)) ;;
  draw true.
