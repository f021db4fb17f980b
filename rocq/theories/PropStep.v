(** C17, C18, C87: colors by description, slices with a step, iteration, [slate size] (span.py,
    __main__.py). *)
From Coq Require Import ZArith List Bool String Lia.
From Verif Require Import PyBase PyLemmas F64 SpaceModel ColorModel ColorSpec AnsiRe SpanModel SpanSpec StepModel StepSpec StepProofs KeyUseModel PropSpan.
Import ListNotations.
Open Scope string_scope.
Open Scope list_scope.
Open Scope Z_scope.

(** ** C17 *)
(** as_color with a description is as_color with the color described, and fails as Color does *)
Theorem C17_described : forall s d,
  (forall c, color_of d = Ok c -> as_color_desc s d = Ok (as_color s c)) /\
  (forall x, color_of d = Err x -> as_color_desc s d = Err x).
Proof. exact described_color. Qed.
Print Assumptions C17_described.

(** ** C18 *)
(** A slice with a step takes the characters at the positions the step reaches, in the order it
    reaches them; a step of zero is an error *)
Theorem C18_step : forall s a b k,
  (k <> 0 -> span_slice_step s a b k = Ok (mkSpan (characters_at (s_text s) (positions_taken (zlen (s_text s)) a b k)) (s_fg s) (s_bg s) (s_link s) (s_flags s) true)) /\
  (k = 0 -> span_slice_step s a b k = Err ValueError).
Proof. exact step_of_span. Qed.
Print Assumptions C18_step.
Theorem C18_reversed : forall s, span_slice_step s None None (-1) = Ok (mkSpan (rev (s_text s)) (s_fg s) (s_bg s) (s_link s) (s_flags s) true).
Proof. exact reversed. Qed.
Print Assumptions C18_reversed.
(** Iterating over a span gives its characters one by one, as indexing does *)
Theorem C18_iter : forall s,
  (forall k sp, nth_error (span_iter s) k = Some sp <-> span_index s (Z.of_nat k) = Ok sp) /\
  span_index s (zlen (s_text s)) = Err IndexError /\
  List.concat (map s_text (span_iter s)) = s_text s.
Proof. exact iteration. Qed.
Print Assumptions C18_iter.
Example C18_step_ex : positions_taken 7 (Some 1) (Some (-1)) 2 = [1; 3; 5] /\ positions_taken 7 (Some (-2)) (Some 0) (-2) = [5; 3; 1] /\
  positions_taken 7 (Some 100) None (-3) = [6; 3; 0] /\ positions_taken 7 (Some (-100)) (Some 100) 3 = [0; 3; 6] /\
  positions_taken 7 None (Some (-100)) (-3) = [6; 3; 0] /\ positions_taken 7 (Some 3) (Some 1) 1 = [] /\
  characters_at (lit "slate") [4; 2; 0] = lit "eas" /\ map s_text (span_iter fancy) = [lit "H"; lit "i"].
Proof. repeat split. Qed.

(** ** C87 *)
(** [slate size] prints the two numbers of the size in decimal *)
Theorem C87_size : forall w h, exists a b, run_size (w, h) = a ++ lit " x " ++ b ++ [NL] /\ py_int a = Ok w /\ py_int b = Ok h.
Proof. exact size_line. Qed.
Print Assumptions C87_size.
Example C87_size_ex : run_size (120, 7) = lit "120 x 7" ++ [NL].
Proof. reflexivity. Qed.
