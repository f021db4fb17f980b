(** C115: the animation in the README (README.md:45-85). *)
From Coq Require Import ZArith List Bool String Lia.
From Verif Require Import PyBase F64 SpaceModel ColorModel ColorSpec AnsiRe SpanModel Vt SpanSpec ScreenModel ScreenSpec DrawSpec CoreModel TermModel TermSpec
  SessionSpec PlaySpec CommandSpec AltSpec ReadmeModel ReadmeSpec ReadmeProofs PropScreen PropDraw PropSession.
Import ListNotations.
Open Scope string_scope.
Open Scope list_scope.
Open Scope Z_scope.

(** ** C115 *)
(** As it is written, the program raises TypeError at its first write, on any terminal of one row or more: what is sent
    hides the cursor, enters and leaves the alternate buffer, and draws nothing. *)
Theorem C115_readme_refuted : forall fuel ks v e bg tb, peaceful v -> color_env v (new_terminal v bg) = Ok e -> as_background bg true None = Ok tb ->
  1 <= snd (te_size v) ->
  exists s, readme fuel ks v (new_terminal v bg) = (s, Err TypeError) /\ t_out s = seq_ "?25l" ++ opening (AltBuffer true) ++ closing (AltBuffer true).
Proof. exact as_written. Qed.
Print Assumptions C115_readme_refuted.

(** With the place of each line given it does what it says, on any terminal, for any random numbers and any number of turns
    before it is interrupted: the assertion never fails; every cell is a white 0 where one was drawn and a bold gray X elsewhere;
    each turn sends one cursor movement and one character, and nothing but a reset where there was a 0 already; and
    whenever it is interrupted, even within a draw, the terminal is as it was before. *)
Theorem C115_animation : forall v e bg tb sh w h, peaceful v -> color_env v (new_terminal v bg) = Ok e -> as_background bg true None = Ok tb -> fine tb ->
  shades e sh -> te_size v = (w, h) -> 1 <= w -> 1 <= h ->
  exists sent : list (Z * Z) -> str,
    (forall fuel ks, exists s, readme_placed fuel ks v (new_terminal v bg) = (s, Err KeyboardInterrupt) /\
       t_out s = seq_ "?25l" ++ opening (AltBuffer true) ++ sent ks ++ closing (AltBuffer true)) /\
    (forall ks m, at_rest m -> fits w h (1, 1) m ->
       let m' := vt (sent ks) m in
       (forall q, on_screen w h q -> marked w h ks q -> e_grid m' (fst q) (snd q) = (48, white_text sh, [])) /\
       (forall q, on_screen w h q -> ~ marked w h ks q -> e_grid m' (fst q) (snd q) = (88, gray_bold sh, [])) /\
       (forall x y, ~ on_screen w h (x, y) -> e_grid m' x y = e_grid m x y) /\ at_rest m') /\
    (forall ks k, (marked w h ks (chosen w h k) -> sent (ks ++ [k]) = sent ks ++ [27; 91; 48; 109]) /\
       (~ marked w h ks (chosen w h k) -> sent (ks ++ [k]) = sent ks ++ turn_text e (chosen w h k))) /\
    (plain_code tb -> forall T c1 ks p q r b, tidy T -> sent ks = p ++ q ->
       (exists r' b', shown T c1 (seq_ "?25l" ++ opening (AltBuffer true) ++ p) (r, Normal b) = (r', Alternate b b')) /\
       exists r', shown T c1 (seq_ "?25l" ++ opening (AltBuffer true) ++ p ++ closing (AltBuffer true)) (r, Normal b) = (r', Normal b)).
Proof. exact animation. Qed.
Print Assumptions C115_animation.

(** * Examples *)
Example C115_ex : peaceful (rich 3 2) /\ (exists e, color_env (rich 3 2) (new_terminal (rich 3 2) BLACK) = Ok e /\ shades e exact_shade) /\
  as_background BLACK true None = Ok BLACK_BG /\ fine BLACK_BG /\ plain_code BLACK_BG /\ te_size (rich 3 2) = (3, 2) /\ 1 <= 3 /\ 1 <= 2 /\
  at_rest term /\ fits 3 2 (1, 1) term /\ marked 3 2 [(7, 3); (4, 5)] (1, 1) /\ ~ marked 3 2 [(7, 3); (4, 5)] (2, 1).
Proof.
  split; [split; [intro n; reflexivity|reflexivity]|]. split; [eexists; split; [reflexivity|apply C35_true_color; reflexivity]|].
  split; [reflexivity|]. split; [apply C89_ex|]. split; [exact I|]. split; [reflexivity|]. split; [lia|]. split; [lia|].
  split; [apply term_ok|]. split; [unfold fits; cbn; lia|]. split; [left; reflexivity|]. intros [H|[H|[]]]; discriminate.
Qed.
(** three turns on a terminal of three columns and two rows, the second at the place of the first *)
Example C115_run_ex :
  let '(s, r) := readme_placed 0 [(7, 3); (4, 5); (3, 2)] (rich 3 2) (new_terminal (rich 3 2) BLACK) in
  r = Err KeyboardInterrupt /\
  map (fun q => fst (fst (e_grid (vt (t_out s) term) (fst q) (snd q)))) [(0, 0); (1, 0); (2, 0); (0, 1); (1, 1); (2, 1)] = lit "0XXX0X" /\
  snd (readme 0 [(7, 3)] (rich 3 2) (new_terminal (rich 3 2) BLACK)) = Err TypeError /\
  turn_text {| env_cs := TRUE_COLOR; env_pow := fun x _ => x |} (1, 1) = seq_ "2;2H" ++ seq_ "38;2;255;255;255m0" ++ seq_ "0m".
Proof. vm_compute. repeat split. Qed.
