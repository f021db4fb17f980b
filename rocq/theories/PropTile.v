(** C116: exactly what a full redraw shows (screen.py, Terminal.draw(redraw=True)). *)
From Coq Require Import ZArith List Bool String Lia.
From Verif Require Import PyBase F64 SpaceModel ColorModel ColorSpec AnsiRe SpanModel Vt SpanSpec ScreenModel ScreenSpec DrawSpec TileSpec TileProofs
  PropScreen PropDraw.
Import ListNotations.
Open Scope string_scope.
Open Scope list_scope.
Open Scope Z_scope.

(** ** C116 *)
(** After any history of writes, clears and draws, on a terminal with any pen (colors and attributes a program
    turned on by itself): a full redraw shows each character in its own attributes on top of the pen that the
    characters above it, in reading order, have left: each adds its attributes to the pen, and the last one
    written of a span with attributes resets it.  The rest of the terminal is untouched, and the pen that the
    last cell leaves stays on. *)
Theorem C116_redraw : forall e sh w h cursor fill origin m acts pen, shades e sh -> is_ctl fill = false ->
  at_rest m -> fits w h origin m -> Forall (act_ok w h) acts ->
  let '(s, _, m1) := fold_left (perform e origin) acts (new_screen w h cursor [fill], [], m) in
  let T := fold_left (tile_act w h) acts (fun _ => bare fill) in
  let m' := vt (fst (render s origin true)) (set_rend pen m1) in
  (forall q, on_screen w h q ->
     seen origin m' q = (tile_char (T q), styled (tile_flags (T q)) None None (pen_at w T pen (pos_no w q)), [])) /\
  (forall X Y, ~ on_screen w h (X - fst origin + 1, Y - snd origin + 1) -> e_grid m' X Y = e_grid m X Y) /\
  e_rend m' = pen_at w T pen (Z.to_nat h * Z.to_nat w) /\ e_parse m' = PGround /\ e_link m' = [].
Proof. exact redraw_exact. Qed.
Print Assumptions C116_redraw.

(** The same when the draw before it was cut short anywhere, whatever pen that left. *)
Theorem C116_cut : forall e sh w h cursor fill origin m acts, shades e sh -> is_ctl fill = false ->
  at_rest m -> fits w h origin m -> Forall (act_ok w h) acts ->
  let '(s, _, m1) := fold_left (perform e origin) acts (new_screen w h cursor [fill], [], m) in
  let T := fold_left (tile_act w h) acts (fun _ => bare fill) in
  forall a b, fst (render s origin false) = a ++ b ->
  let m' := vt (fst (render (snd (render s origin false)) origin true)) (vt a m1) in
  forall q, on_screen w h q ->
     seen origin m' q = (tile_char (T q), styled (tile_flags (T q)) None None (pen_at w T (e_rend (vt a m1)) (pos_no w q)), []).
Proof. exact cut_exact. Qed.
Print Assumptions C116_cut.

(** A cell is shown with an attribute exactly if it, or a cell above it in reading order, was written with it,
    and no span with attributes ended from there up to the cell. *)
Theorem C116_attributes : forall e sh w h cursor fill origin m acts i, shades e sh -> is_ctl fill = false ->
  at_rest m -> fits w h origin m -> Forall (act_ok w h) acts ->
  let '(s, _, m1) := fold_left (perform e origin) acts (new_screen w h cursor [fill], [], m) in
  let T := fold_left (tile_act w h) acts (fun _ => bare fill) in
  let m' := vt (fst (render s origin true)) m1 in
  forall q, on_screen w h q -> (attribute i (snd (fst (seen origin m' q))) = true <->
    exists k, (k <= pos_no w q)%nat /\ attribute i (own (T (nth_pos w k))) = true /\
      forall j, (k <= j < pos_no w q)%nat -> tile_ends (T (nth_pos w j)) = false).
Proof. exact redraw_attributes. Qed.
Print Assumptions C116_attributes.

(** A full redraw shows every cell with the attributes a draw shows it with exactly if each cell is the end of
    a span with attributes or has no attribute that the next cell lacks. *)
Theorem C116_right : forall e sh w h cursor fill origin m acts, shades e sh -> is_ctl fill = false ->
  at_rest m -> fits w h origin m -> Forall (act_ok w h) acts ->
  let '(s, _, m1) := fold_left (perform e origin) acts (new_screen w h cursor [fill], [], m) in
  let p := fold_left (paint_act sh w h) acts (blank fill) in
  let T := fold_left (tile_act w h) acts (fun _ => bare fill) in
  let m' := vt (fst (render s origin true)) m1 in
  (forall q, on_screen w h q -> attributes (snd (fst (seen origin m' q))) = attributes (snd (p q))) <->
  (forall n, (S n < Z.to_nat h * Z.to_nat w)%nat ->
     tile_ends (T (nth_pos w n)) = true \/ at_least (snd (p (nth_pos w n))) (snd (p (nth_pos w (S n))))).
Proof. exact redraw_right. Qed.
Print Assumptions C116_right.
(** The tiles and the picture of a history agree *)
Theorem C116_look : forall sh w h fill acts q,
  let p := fold_left (paint_act sh w h) acts (blank fill) in
  let T := fold_left (tile_act w h) acts (fun _ => bare fill) in
  fst (p q) = tile_char (T q) /\ attributes (snd (p q)) = attributes (own (T q)).
Proof. exact look. Qed.
Print Assumptions C116_look.

(** Bold "abc" whose "b" was replaced by a plain "x": "a" bold, "x" shown bold, "c" bold, and it ends there; in
    [unended] its "c" was replaced, and the terminal stays bold. *)
Definition bold_rend : rend := styled (set_flag FBold true no_flags) None None rend0.
Example C116_ex : Forall (act_ok 3 2) patched /\ Forall (act_ok 3 2) unended /\ shades e0 exact_shade /\ at_rest term /\ fits 3 2 (2, 2) term /\
  (let '(s, _, m1) := fold_left (perform e0 (2, 2)) patched (new_screen 3 2 (0, 0) [32], [], term) in
   let T := fold_left (tile_act 3 2) patched (fun _ => bare 32) in
   let m' := vt (fst (render s (2, 2) true)) m1 in
   T (0, 1) = mkTile 97 (set_flag FBold true no_flags) false /\ T (1, 1) = bare 120 /\ T (2, 1) = mkTile 99 (set_flag FBold true no_flags) true /\
   map (seen (2, 2) m') [(2, 0); (0, 1); (1, 1); (2, 1)] = [(32, rend0, []); (97, bold_rend, []); (120, bold_rend, []); (99, bold_rend, [])] /\
   e_rend m' = rend0) /\
  (let '(s, _, m1) := fold_left (perform e0 (2, 2)) unended (new_screen 3 2 (0, 0) [32], [], term) in
   let m' := vt (fst (render s (2, 2) true)) m1 in
   map (seen (2, 2) m') [(2, 0); (0, 1); (1, 1); (2, 1)] = [(32, rend0, []); (97, bold_rend, []); (98, bold_rend, []); (120, bold_rend, [])] /\
   e_rend m' = bold_rend).
Proof.
  split; [apply patches_ok|]. split; [apply patches_ok|]. split; [exact e0_shades|]. split; [apply term_ok|]. split; [apply term_ok|].
  split; vm_compute; auto 10.
Qed.
(** whole bold spans are redrawn right; a patched one is not *)
Definition whole_bold := [AWrite [((0, 1), [bold_ "abc"]); ((0, 0), [bold_ "x"])] BLACK false].
Example C116_right_ex :
  (forall n, (S n < 6)%nat -> let T := fold_left (tile_act 3 2) whole_bold (fun _ => bare 32) in
     let p := fold_left (paint_act exact_shade 3 2) whole_bold (blank 32) in
     tile_ends (T (nth_pos 3 n)) = true \/ at_least (snd (p (nth_pos 3 n))) (snd (p (nth_pos 3 (S n))))) /\
  ~ (forall n, (S n < 6)%nat -> let T := fold_left (tile_act 3 2) patched (fun _ => bare 32) in
     let p := fold_left (paint_act exact_shade 3 2) patched (blank 32) in
     tile_ends (T (nth_pos 3 n)) = true \/ at_least (snd (p (nth_pos 3 n))) (snd (p (nth_pos 3 (S n))))).
Proof.
  split.
  - intros n Hn. cbv zeta. do 5 (destruct n as [|n]; [first [left; vm_compute; reflexivity|right; vm_compute; repeat constructor; intro H; first [reflexivity|discriminate H]]|]). lia.
  - intro H. specialize (H 3%nat ltac:(lia)). cbv zeta in H. destruct H as [H|H]; [vm_compute in H; discriminate|].
    vm_compute in H. inversion H as [|? ? ? ? B _]. specialize (B eq_refl). discriminate.
Qed.
