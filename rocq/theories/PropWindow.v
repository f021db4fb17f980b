(** C110: several screens on one terminal (Terminal.origin, Terminal.draw). *)
From Coq Require Import ZArith List Bool String Lia.
From Verif Require Import PyBase PyLemmas SpaceModel ColorModel ColorSpec AnsiRe SpanModel Vt SpanSpec ScreenModel ScreenSpec DrawSpec WindowSpec WindowProofs PropScreen PropDraw.
Import ListNotations.
Open Scope string_scope.
Open Scope list_scope.
Open Scope Z_scope.

(** Any number of screens, of any sizes, whose areas share no cell; writes, clears and draws on them
    interleaved in any way.  Every screen whose last operation was a draw is displayed as its own
    operations describe it, whatever was done to the others; cells of no screen are untouched. *)
Theorem C110_windows : forall e sh ws m acts, shades e sh -> at_rest m -> Forall (win_ok m) ws -> apart ws -> Forall (on_window ws) acts ->
  let '(_, _, m') := fold_left (perform_on e ws) acts (opened ws, [], m) in
  (forall i v own_acts, nth_error ws i = Some v -> own i acts = own_acts ++ [ADraw] ->
     let p := win_picture sh v own_acts in
     forall q, on_screen (win_w v) (win_h v) q -> seen (win_origin v) m' q = (fst (p q), snd (p q), [])) /\
  (forall X Y, (forall v, In v ws -> ~ covers v X Y) -> e_grid m' X Y = e_grid m X Y) /\
  at_rest m'.
Proof. exact windows. Qed.
Print Assumptions C110_windows.
(** Screens that share cells: every shared cell keeps showing the screen that sent it last; drawing
    the other one again does not bring it to the front, for any two screens sharing a cell. *)
Theorem C110_overlap : forall e sh v v' X Y m, shades e sh -> at_rest m -> Forall (win_ok m) [v; v'] -> covers v X Y -> covers v' X Y ->
  let '(_, _, m') := fold_left (perform_on e [v; v']) [(0%nat, ADraw); (1%nat, ADraw); (0%nat, ADraw)] (opened [v; v'], [], m) in
  e_grid m' X Y = (win_fill v', rend0, []).
Proof. exact overlapping. Qed.
Print Assumptions C110_overlap.

Definition two : list window := [mkWin 3 2 (2, 2) 32; mkWin 1 4 (1, 1) 124].
Definition both : list (nat * act) := [(0%nat, AWrite abc BLACK false); (1%nat, ADraw); (0%nat, ADraw); (1%nat, AClear 45); (1%nat, ADraw)].
Example C110_ex : shades e0 exact_shade /\ at_rest term /\ Forall (win_ok term) two /\ apart two /\ Forall (on_window two) both /\
  own 0 both = [AWrite abc BLACK false] ++ [ADraw] /\ own 1 both = [ADraw; AClear 45] ++ [ADraw] /\
  fst (win_picture exact_shade (mkWin 3 2 (2, 2) 32) [AWrite abc BLACK false] (2, 0)) = 98 /\
  fst (win_picture exact_shade (mkWin 1 4 (1, 1) 124) [ADraw; AClear 45] (0, 3)) = 45.
Proof.
  split; [exact e0_shades|]. split; [apply term_ok|]. split. { repeat constructor; cbn; lia. }
  split.
  { intros i j v v' X Y Ei Ej. destruct i as [|[|i]]; destruct j as [|[|j]]; cbn in Ei, Ej; try reflexivity;
      try (destruct i; discriminate Ei); try (destruct j; discriminate Ej); injection Ei as <-; injection Ej as <-; unfold covers; cbn; lia. }
  split.
  { unfold both. repeat (apply Forall_cons; [eexists; split; [reflexivity|first [exact abc_act|exact I|reflexivity]]|]). apply Forall_nil. }
  split; [reflexivity|]. split; [reflexivity|]. split; vm_compute; reflexivity.
Qed.
Example C110_overlap_ex : Forall (win_ok term) [mkWin 3 2 (2, 2) 97; mkWin 2 2 (1, 1) 98] /\
  covers (mkWin 3 2 (2, 2) 97) 1 1 /\ covers (mkWin 2 2 (1, 1) 98) 1 1.
Proof. split; [repeat constructor; cbn; lia|]. unfold covers. cbn. lia. Qed.
