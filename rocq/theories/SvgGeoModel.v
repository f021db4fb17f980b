(** The coordinates of an SVG export, in binary64 (screen.py:395-419, span.py:48-58, 498-540,
    terminal.py:449-450).  Simplification: the printing of floats is not modelled; the integer 0 of
    the origin is the float 0. *)
From Coq Require Import ZArith List Bool.
From Flocq Require Import IEEE754.BinarySingleNaN.
From Verif Require Import PyBase F64 ColorModel SpanModel ScreenModel.
Import ListNotations.
Open Scope Z_scope.
Open Scope list_scope.

(** a / b to the nearest integer, ties to even; 0 <= a, 0 < b *)
Definition half_even (a b : Z) : Z :=
  let q := a / b in
  let r := a mod b in
  if 2 * r <? b then q else if b <? 2 * r then q + 1 else if Z.even q then q else q + 1.
(** [round(x, n)] for finite x and d = 10^n: the float nearest to the decimal nearest to x *)
Definition fround (x : f64) (d : Z) : f64 :=
  let '(m, e) := fexact x in
  let a := Z.abs m * d in
  let q := if 0 <=? e then a * 2 ^ e else half_even a (2 ^ (- e)) in
  let r := fratio q d in
  if m <? 0 then Bopp r else r.

(** span.py:48-58 *)
Definition SVG_CHAR_WIDTH : f64 := flit 60167 100000.
Definition SVG_CHAR_HEIGHT : f64 := flit 1265 1000.
Definition SVG_RECT_HEIGHT : f64 := fmul SVG_CHAR_HEIGHT (flit 108 100).
Definition SVG_RECT_BASELINE_OFFSET : f64 := flit 17 100.

(** a rectangle and the start of the text on it *)
Record shape := mkShape { sh_x : f64; sh_y : f64; sh_width : f64; sh_height : f64; sh_text_y : f64 }.

(** span.py:498-540 *)
Definition span_shape (fs : Z) (x y : f64) (text : str) : shape :=
  let char_width := fround (fmul (fofZ fs) SVG_CHAR_WIDTH) 10000 in
  let rect_height := fround (fmul (fofZ fs) SVG_RECT_HEIGHT) 10000 in
  let baseline_offset := if is_block text then fzero else fmul SVG_RECT_BASELINE_OFFSET (fofZ fs) in
  let x := fround x 100 in
  let y := fround y 100 in
  mkShape x (fsub y baseline_offset)
    (fround (fadd (fmul char_width (fofZ (zlen text))) (flit 1 2)) 100)
    rect_height (fadd y (fofZ fs)).

(** screen.py:406-419: one row *)
Fixpoint row_shapes (fs : Z) (x y : f64) (spans : list span) : list shape :=
  match spans with
  | [] => []
  | s :: rest =>
      span_shape fs x y (s_text s)
      :: row_shapes fs (fadd x (fmul (fofZ (span_len s)) (fmul (fofZ fs) SVG_CHAR_WIDTH))) y rest
  end.
Fixpoint rows_shapes (e : env) (fs : Z) (y : f64) (rows : list (list cell)) : res (list (list shape)) :=
  match rows with
  | [] => Ok []
  | row :: rest =>
      let* spans := group e row in
      let* r := rows_shapes e fs (fadd y (fmul (fofZ fs) SVG_CHAR_HEIGHT)) rest in
      Ok (row_shapes fs fzero y spans :: r)
  end.
(** the shapes of an export, row by row; origin (0, 0) *)
Definition export_shapes (e : env) (s : screen) (fs : Z) : res (list (list shape)) :=
  rows_shapes e fs fzero (sc_cells s).

(** terminal.py:449-450, margins 16 *)
Definition total_width (w fs : Z) : f64 := fadd (fmul (fmul (fofZ w) SVG_CHAR_WIDTH) (fofZ fs)) (fofZ 32).
Definition total_height (h fs : Z) : f64 := fadd (fmul (fmul (fofZ h) SVG_CHAR_HEIGHT) (fofZ fs)) (fofZ 32).
