(** C100: logs longer than the window (screen.py, terminal.py). *)
From Coq Require Import ZArith List Bool String Lia.
From Verif Require Import PyBase F64 SpaceModel ColorModel ColorSpec AnsiRe SpanModel Vt SpanSpec ScreenModel ScreenSpec ScreenProofs7 DrawSpec LogSpec DrawProofs3 LogProofs PropScreen PropDraw.
Import ListNotations.
Open Scope Z_scope.
Open Scope list_scope.

(** ** C100 *)
(** The screen holds the last lines of the log, however long it is. *)
Theorem C100_screen : forall e sh w h cursor fill origin m x tb lines, shades e sh -> is_ctl fill = false ->
  at_rest m -> fits w h origin m -> 0 < h -> 0 <= x -> fine tb -> Forall (a_line w x) lines ->
  let '(s, _, _) := fold_left (perform e origin) (log x tb lines) (new_screen w h cursor [fill], [], m) in
  forall i sp, nth_error lines i = Some sp -> zlen lines - h <= Z.of_nat i ->
    held e s x (Z.of_nat i - Z.max 0 (zlen lines - h)) sp.
Proof. exact log_screen. Qed.
Print Assumptions C100_screen.

(** The terminal shows a log that fits... *)
Theorem C100_short : forall e sh w h cursor fill origin m x tb lines, shades e sh -> is_ctl fill = false ->
  at_rest m -> fits w h origin m -> 0 < h -> 0 <= x -> fine tb -> Forall (a_line w x) lines -> zlen lines <= h ->
  let '(_, _, m') := fold_left (perform e origin) (log x tb lines) (new_screen w h cursor [fill], [], m) in
  forall i sp, nth_error lines i = Some sp -> displayed sh origin m' x (Z.of_nat i) sp.
Proof. exact log_short. Qed.
Print Assumptions C100_short.

(** ... but of a longer one, when the window ends at the last row of the terminal, the line that
    filled the window is overwritten by the next one, every later line is one row too high, and the
    last row is blank ... *)
Theorem C100_bottom_partial : forall e sh w h cursor fill origin m x tb lines, shades e sh -> is_ctl fill = false ->
  at_rest m -> fits w h origin m -> 0 < h -> 0 <= x -> fine tb -> Forall (a_line w x) lines ->
  snd origin - 1 + h = e_h m -> h < zlen lines ->
  let '(_, _, m') := fold_left (perform e origin) (log x tb lines) (new_screen w h cursor [fill], [], m) in
  (forall i sp, nth_error lines i = Some sp -> Z.of_nat i <> h - 1 ->
     let r := Z.of_nat i - (zlen lines - h) - (if h <=? Z.of_nat i then 1 else 0) in 0 <= r -> displayed sh origin m' x r sp) /\
  (forall X, 0 <= X < w -> seen origin m' (X, h - 1) = eblank).
Proof. exact log_bottom. Qed.
Print Assumptions C100_bottom_partial.

(** ... and when there are rows below, nothing scrolls: all later lines overwrite each other in the
    last row *)
Theorem C100_room_refuted : forall e sh w h cursor fill origin m x tb lines, shades e sh -> is_ctl fill = false ->
  at_rest m -> fits w h origin m -> 0 < h -> 0 <= x -> fine tb -> Forall (a_line w x) lines ->
  snd origin - 1 + h < e_h m -> h < zlen lines ->
  let '(_, _, m') := fold_left (perform e origin) (log x tb lines) (new_screen w h cursor [fill], [], m) in
  (forall i sp, nth_error lines i = Some sp -> Z.of_nat i < h - 1 -> displayed sh origin m' x (Z.of_nat i) sp) /\
  (forall i sp, nth_error lines i = Some sp -> Z.of_nat i = zlen lines - 1 -> displayed sh origin m' x (h - 1) sp).
Proof. exact log_room. Qed.
Print Assumptions C100_room_refuted.

(** Of a line of two spans written below the last row the first is lost; the second is written in its
    place. *)
Theorem C100_spans_refuted : forall e c s a b x y tb force, cache_ok e c -> sc_h s + sc_off s <= y ->
  let '(s1, _, r1) := write_bulk e c s [((x, y), [a; b])] tb force in
  let '(s2, _, r2) := write_bulk e c s [((x, y - sc_off s), [b])] tb force in s1 = s2 /\ r1 = r2.
Proof. exact first_span_lost. Qed.
Print Assumptions C100_spans_refuted.

Definition abcd := [sp_ "a" None None; bold_ "b"; sp_ "c" (Some red_) None; sp_ "d" None (Some on_blue)].
Example C100_ex : Forall (a_line 3 1) abcd /\ fits 3 2 (2, 3) term /\ snd (2, 3) - 1 + 2 = e_h term /\ fits 3 2 (2, 2) term /\ snd (2, 2) - 1 + 2 < e_h term /\
  shades e0 exact_shade /\ at_rest term /\ fine BLACK /\ 2 < zlen abcd.
Proof.
  split; [|split; [unfold fits; cbn; lia|split; [reflexivity|split; [unfold fits; cbn; lia|split; [cbn; lia|
    split; [apply C35_true_color; reflexivity|split; [apply term_ok|split; [apply fine_solid; lia|reflexivity]]]]]]]].
  unfold abcd. repeat (apply Forall_cons; [split; [draw_tac|split; [discriminate|vm_compute; discriminate]]|]). apply Forall_nil.
Qed.
(** "a", "b", "c", "d" in two rows: at the bottom of the terminal "d" is in the first row and the
    second is blank; above, "a" and "d" are shown *)
Example C100_ex_bottom : let m' := snd (fold_left (perform e0 (2, 3)) (log 1 BLACK abcd) (new_screen 3 2 (0, 0) [46], [], term)) in
  map (fun q => fst (fst (seen (2, 3) m' q))) [(1, 0); (1, 1)] = [100; 32].
Proof. vm_compute. reflexivity. Qed.
Example C100_ex_room : let m' := snd (fold_left (perform e0 (2, 2)) (log 1 BLACK abcd) (new_screen 3 2 (0, 0) [46], [], term)) in
  map (fun q => fst (fst (seen (2, 2) m' q))) [(1, 0); (1, 1)] = [97; 100].
Proof. vm_compute. reflexivity. Qed.
(** The full statement, the last lines on the terminal, is false *)
Theorem C100_log_refuted : exists lines, Forall (a_line 3 1) lines /\ exists i sp, nth_error lines i = Some sp /\ zlen lines - 2 <= Z.of_nat i /\
  ~ displayed exact_shade (2, 3) (snd (fold_left (perform e0 (2, 3)) (log 1 BLACK lines) (new_screen 3 2 (0, 0) [46], [], term))) 1
      (Z.of_nat i - Z.max 0 (zlen lines - 2)) sp.
Proof.
  exists abcd. split; [apply C100_ex|]. exists 3%nat, (sp_ "d" None (Some on_blue)). split; [reflexivity|]. split; [vm_compute; discriminate|].
  intro H. specialize (H 0%nat 100 eq_refl). apply (f_equal (fun c => fst (fst c))) in H. vm_compute in H. discriminate.
Qed.
Print Assumptions C100_log_refuted.
