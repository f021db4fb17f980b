(** C105: characters that take two columns, or none (screen.py). *)
From Coq Require Import ZArith Reals List Bool String Lia.
From Verif Require Import PyBase PyLemmas F64 SpaceModel ColorModel ColorSpec AnsiRe SpanModel Vt SpanSpec SpanProofs2 ScreenModel ScreenSpec
  GreySpec DrawSpec WideSpec WideProofs2 WideProofs3 PropScreen PropDraw.
Import ListNotations.
Open Scope string_scope.
Open Scope list_scope.
Open Scope Z_scope.

(** * Objects of the examples *)
(** U+65E5 takes two columns, U+0301 none *)
Definition widths (c : Z) : Z := if c =? 26085 then 2 else if c =? 769 then 0 else 1.
Definition text_ (t : str) : span := mkSpan t None None [] no_flags true.
Definition sun_b : span := text_ [26085; 98].
Definition accent : span := text_ [97; 769; 98].
Lemma widths_ok : terminal_widths widths.
Proof.
  split; intros c; unfold widths.
  - destruct (c =? 26085), (c =? 769); lia.
  - intro H. rewrite (proj2 (Z.eqb_neq c 26085)), (proj2 (Z.eqb_neq c 769)) by lia. reflexivity.
Qed.
Lemma text_act : forall w h x y t, 0 <= x -> 0 <= y < h -> Forall (fun c => is_ctl c = false) t -> act_ok w h (AWrite [((x, y), [text_ t])] BLACK false).
Proof.
  intros w h x y t Hx Hy Ht. split; [|split; [apply fine_solid; lia|]].
  - apply Forall_cons; [|apply Forall_nil]. split; [lia|]. split; [|exact I]. apply Forall_cons; [|apply Forall_nil].
    intro Hn. rewrite Forall_forall in Ht. specialize (Ht _ Hn). discriminate Ht.
  - apply Forall_cons; [|apply Forall_nil]. apply Forall_cons; [|apply Forall_nil].
    split; [exact Ht|]. split; [discriminate|]. split; discriminate.
Qed.
Ltac plain_text := repeat (apply Forall_cons; [reflexivity|]); apply Forall_nil.

(** ** C105 *)
(** If every character takes one column, everything proved of the terminal whose characters all do
    (C35 in particular) holds: each history leaves the same screen and the same terminal *)
Theorem C105_narrow_partial : forall wd e sh w h cursor fill origin m acts, terminal_widths wd -> shades e sh -> is_ctl fill = false ->
  at_rest m -> fits w h origin m -> Forall (act_ok w h) acts -> wd fill = 1 -> Forall (act_narrow wd) acts ->
  fold_left (performw wd e origin) acts (new_screen w h cursor [fill], [], m) = fold_left (perform e origin) acts (new_screen w h cursor [fill], [], m).
Proof. exact narrow_histories. Qed.
Print Assumptions C105_narrow_partial.
Example C105_narrow_ex : terminal_widths widths /\ Forall (act_ok 3 2) history /\ Forall (act_narrow widths) history /\ widths 32 = 1.
Proof.
  split; [exact widths_ok|]. split; [exact history_ok|]. split; [|reflexivity]. unfold history, abc, act_narrow, narrow.
  repeat (first [apply Forall_nil|apply Forall_cons|exact I|reflexivity|progress cbn]).
Qed.

(** Text written over cells that all looked different, and drawn, appears one character after the
    other, each as many columns further as the characters before it take: not at the column of its
    cell, once one of them does not take one.  Nothing else changes. *)
Theorem C105_run : forall wd e sh w h cursor fill origin m acts x y sp tb force,
  terminal_widths wd -> shades e sh -> is_ctl fill = false -> at_rest m -> fits w h origin m -> Forall (act_ok w h) acts ->
  0 <= x -> 0 <= y < h -> x + zlen (s_text sp) <= w -> fine tb -> drawable sp ->
  fst origin - 1 + x + advance wd (s_text sp) <= e_w m ->
  let p := fold_left (paint_act sh w h) acts (blank fill) in
  (forall k c, nth_error (s_text sp) k = Some c -> painted sh (c, sp) <> p (x + Z.of_nat k, y)) ->
  let '(s1, c1, m1) := fold_left (performw wd e origin) (acts ++ [ADraw]) (new_screen w h cursor [fill], [], m) in
  let '(_, _, m2) := fold_left (performw wd e origin) [AWrite [((x, y), [sp])] tb force; ADraw] (s1, c1, m1) in
  let X := x + fst origin - 1 in let Y := y + snd origin - 1 in
  (forall k c, nth_error (s_text sp) k = Some c -> wd c <> 0 ->
     e_grid m2 (X + advance wd (firstn k (s_text sp))) Y = (c, snd (painted sh (c, sp)), []) /\
     (wd c = 2 -> e_grid m2 (X + advance wd (firstn k (s_text sp)) + 1) Y = (TAIL, snd (painted sh (c, sp)), []))) /\
  (forall X' Y', ~ (Y' = Y /\ X <= X' < X + advance wd (s_text sp)) -> e_grid m2 X' Y' = e_grid m1 X' Y').
Proof. exact drawn_run. Qed.
Print Assumptions C105_run.
Example C105_run_ex : terminal_widths widths /\ shades e0 exact_shade /\ at_rest term /\ fits 3 2 (2, 2) term /\ Forall (act_ok 3 2) history /\
  drawable sun_b /\ drawable accent /\ fine BLACK /\
  0 + zlen (s_text sun_b) <= 3 /\ fst (2, 2) - 1 + 0 + advance widths (s_text sun_b) <= e_w term /\
  (let p := fold_left (paint_act exact_shade 3 2) history (blank 32) in
   forall k c, nth_error (s_text sun_b) k = Some c -> painted exact_shade (c, sun_b) <> p (0 + Z.of_nat k, 0)) /\
  map (fun k => advance widths (firstn k (s_text sun_b))) [0; 1; 2]%nat = [0; 2; 3] /\
  map (fun k => advance widths (firstn k (s_text accent))) [0; 1; 2; 3]%nat = [0; 1; 1; 2].
Proof.
  split; [exact widths_ok|]. split; [exact e0_shades|]. split; [apply term_ok|]. split; [apply term_ok|]. split; [exact history_ok|].
  split; [split; [plain_text|split; [discriminate|split; discriminate]]|]. split; [split; [plain_text|split; [discriminate|split; discriminate]]|].
  split; [apply fine_solid; lia|]. split; [vm_compute; discriminate|]. split; [vm_compute; discriminate|]. split; [|split; reflexivity].
  intros p k c E. destruct k as [|[|k]]; cbn [nth_error sun_b text_ s_text] in E; [| |destruct k; discriminate]; injection E as <-; vm_compute; discriminate.
Qed.

(** The full statement (what is written at a cell appears at that cell) is false: "b", written
    second, appears in the third column, and the right half of the first character in its place *)
Theorem C105_columns_refuted : exists wd acts, terminal_widths wd /\ Forall (act_ok 3 2) acts /\
  let p := fold_left (paint_act exact_shade 3 2) acts (blank 32) in
  let '(_, _, m') := fold_left (performw wd e0 (2, 2)) (acts ++ [ADraw]) (new_screen 3 2 (0, 0) [32], [], term) in
  fst (p (1, 0)) = 98 /\ fst (fst (seen (2, 2) m' (1, 0))) = TAIL /\ fst (fst (seen (2, 2) m' (2, 0))) = 98.
Proof.
  exists widths, [AWrite [((0, 0), [sun_b])] BLACK false]. split; [exact widths_ok|].
  split; [apply Forall_cons; [apply text_act; [lia|lia|plain_text]|apply Forall_nil]|]. vm_compute. auto.
Qed.
Print Assumptions C105_columns_refuted.
(** ... nor does what the terminal shows only depend on what was written: the same two writes show
    "b" in the third column if they are drawn together, in the second if each is drawn alone *)
Theorem C105_timing_refuted : exists wd a b, terminal_widths wd /\ Forall (act_ok 3 2) [a; b] /\ a <> ADraw /\ b <> ADraw /\
  let start := (new_screen 3 2 (0, 0) [32], [], term) in
  let '(s1, _, together) := fold_left (performw wd e0 (2, 2)) [ADraw; a; b; ADraw] start in
  let '(s2, _, alone) := fold_left (performw wd e0 (2, 2)) [ADraw; a; ADraw; b; ADraw] start in
  map (map (fun c => fst (fst c))) (sc_cells s1) = map (map (fun c => fst (fst c))) (sc_cells s2) /\
  fst (fst (seen (2, 2) together (1, 0))) = TAIL /\ fst (fst (seen (2, 2) together (2, 0))) = 98 /\
  fst (fst (seen (2, 2) alone (1, 0))) = 98 /\ fst (fst (seen (2, 2) alone (2, 0))) = 32.
Proof.
  exists widths, (AWrite [((0, 0), [text_ [26085]])] BLACK false), (AWrite [((1, 0), [text_ [98]])] BLACK false).
  split; [exact widths_ok|].
  split; [apply Forall_cons; [apply text_act; [lia|lia|plain_text]|apply Forall_cons; [apply text_act; [lia|lia|plain_text]|apply Forall_nil]]|].
  split; [discriminate|]. split; [discriminate|]. vm_compute. auto 10.
Qed.
Print Assumptions C105_timing_refuted.
(** ... and when the screen fills the terminal, one wide character in its last row scrolls the
    whole display: the first row, "a", is lost *)
Theorem C105_scroll_refuted : exists wd acts, terminal_widths wd /\ Forall (act_ok 3 2) acts /\
  let p := fold_left (paint_act exact_shade 3 2) acts (blank 32) in
  let '(_, _, m') := fold_left (performw wd e0 (1, 1)) (acts ++ [ADraw]) (new_screen 3 2 (0, 0) [32], [], emu0 3 2) in
  fst (p (0, 0)) = 97 /\ (forall x y, 0 <= x < 3 -> 0 <= y < 2 -> fst (fst (seen (1, 1) m' (x, y))) <> 97).
Proof.
  exists widths, [AWrite [((0, 0), [text_ [97]]); ((0, 1), [sun_b])] BLACK false]. split; [exact widths_ok|]. split.
  - apply Forall_cons; [|apply Forall_nil].
    destruct (text_act 3 2 0 0 [97]) as [A1 [A2 A3]]; [lia|lia|plain_text|]. destruct (text_act 3 2 0 1 [26085; 98]) as [B1 [B2 B3]]; [lia|lia|plain_text|].
    split; [|split; [exact A2|]].
    + apply Forall_cons; [exact (Forall_inv A1)|exact B1].
    + apply Forall_cons; [exact (Forall_inv A3)|exact B3].
  - match goal with |- let p := _ in match ?f with _ => _ end => remember f as k eqn:Ek end. destruct k as [[s c] m'].
    split; [reflexivity|]. intros x y Hx Hy.
    assert (Hx' : x = 0 \/ x = 1 \/ x = 2) by lia. assert (Hy' : y = 0 \/ y = 1) by lia.
    assert (Em : m' = snd (fold_left (performw widths e0 (1, 1)) [AWrite [((0, 0), [text_ [97]]); ((0, 1), [sun_b])] BLACK false; ADraw] (new_screen 3 2 (0, 0) [32], [], emu0 3 2))).
    { cbn [app] in Ek. rewrite <- Ek. reflexivity. }
    rewrite Em. clear - Hx' Hy'. destruct Hx' as [-> |[-> | ->]], Hy' as [-> | ->]; vm_compute; discriminate.
Qed.
Print Assumptions C105_scroll_refuted.
