(** C93: drawing translucent content (screen.py:168-306, Terminal.draw). *)
From Coq Require Import ZArith Reals List Bool String Lia.
From Flocq Require Import IEEE754.BinarySingleNaN.
From Verif Require Import PyBase PyLemmas F64 SpaceModel ColorModel ColorSpec AnsiRe SpanModel Vt SpanSpec ScreenModel ScreenSpec
  DrawSpec TransSpec TransProofs PropScreen PropDraw.
Import ListNotations.
Open Scope string_scope.
Open Scope list_scope.
Open Scope Z_scope.

(** ** C93 *)
(** After any history of writes (whose spans may have translucent backgrounds), clears and draws
    ending in a draw, the terminal displays the picture the history describes: each cell written by
    a call shows the topmost character that is not a see-through blank, with its attributes, on the
    background of the lowest one tinted by those of the layers on it (a lone translucent background
    is on that of the terminal); if a blank is on top the foreground is tinted as well.  Cells a call
    does not write keep what they show; nothing of it shines through what later calls write. *)
Theorem C93_films : forall e sh w h cursor fill origin m acts, shades e sh -> is_ctl fill = false ->
  at_rest m -> fits w h origin m -> Forall (tact_ok w h) acts ->
  let '(s, _, m') := fold_left (perform e origin) (acts ++ [ADraw]) (new_screen w h cursor [fill], [], m) in
  exists p, tpainted sh w h (blank fill) acts p /\
  (forall q, on_screen w h q -> seen origin m' q = (fst (p q), snd (p q), [])) /\
  (forall X Y, ~ on_screen w h (X - fst origin + 1, Y - snd origin + 1) -> e_grid m' X Y = e_grid m X Y) /\
  at_rest m' /\ sc_buf s = [].
Proof. exact films_drawn. Qed.
Print Assumptions C93_films.
(** The history determines the picture, but for the foreground of blanks *)
Theorem C93_determined : forall sh w h fill acts p p', tpainted sh w h (blank fill) acts p -> tpainted sh w h (blank fill) acts p' ->
  forall q, on_screen w h q -> same_look (p q) (p' q).
Proof. exact films_determined. Qed.
Print Assumptions C93_determined.

(** "abc" in red on blue; a half transparent white layer whose blank is over "b" and whose "x" is
    over "c"; a half transparent green "z" on nothing *)
Definition on_dew := mkColor (0, 255, 0) true (flit 1 2) TRUE_COLOR None.
Definition on_black := mkColor (0, 0, 0) true fone TRUE_COLOR None.
Definition glass : list (pos * list span) :=
  [((0, 0), [sp_ "abc" (Some red_) (Some on_blue)]); ((1, 0), [sp_ " x" None (Some on_mist)]); ((0, 1), [sp_ "z" None (Some on_dew)])].
Lemma half_alpha : forall r g b, c_alpha (mkColor (r, g, b) true (flit 1 2) TRUE_COLOR None) <> fone.
Proof. intros r g b H. cbn [c_alpha] in H. apply (f_equal B2SF) in H. vm_compute in H. discriminate. Qed.
Lemma half_fine : forall r g b, 0 <= r < 256 -> 0 <= g < 256 -> 0 <= b < 256 -> fine (mkColor (r, g, b) true (flit 1 2) TRUE_COLOR None).
Proof. intros r g b Hr Hg Hb. split; [now apply ok_rgb|]. exact (proj2 fine_mist). Qed.
Ltac layer_tac := split; [repeat (apply Forall_cons; [reflexivity|]); apply Forall_nil|split; [intros H; discriminate H|
  split; intros c H; cbn in H; first [discriminate H|injection H as <-;
    first [split; [apply value_rgb; lia|reflexivity] |
           split; [apply fine_solid; lia|split; [reflexivity|intros _; apply value_rgb; lia]] |
           split; [apply half_fine; lia|split; [reflexivity|intro; exfalso; eapply half_alpha; eassumption]]]]]].
Lemma glass_ok : forall force, tact_ok 3 2 (AWrite glass on_black force).
Proof.
  intro force. split; [|split; [apply fine_solid; lia|split; [reflexivity|split; [unfold glass; all_data layer_tac|]]]].
  - repeat (apply Forall_cons; [split; [reflexivity|split; [repeat (apply Forall_cons; [cbn; intuition discriminate|]); apply Forall_nil|exact I]]|]). apply Forall_nil.
  - assert (One : forall g, let items := [g] in exists base layers bgs, stacked items base layers bgs).
    { intro g. exists g, [], []. split; [exists []; split; [reflexivity|]; split; [constructor|now left]|]. split; [constructor|].
      unfold films. destruct (s_bg (snd g)) as [b|]; [destruct (negb (feqb (c_alpha b) fone)); exact I|exact I]. }
    assert (Two : forall c c', let items := [(c, sp_ "abc" (Some red_) (Some on_blue)); (c', sp_ " x" None (Some on_mist))] in exists base layers bgs, stacked items base layers bgs).
    { intros c c'. exists (c, sp_ "abc" (Some red_) (Some on_blue)), [(c', sp_ " x" None (Some on_mist))], [on_mist].
      split; [exists []; split; [reflexivity|]; split; [constructor|now left]|]. split; [|exact I].
      constructor; [|constructor]. split; [reflexivity|apply half_alpha]. }
    intros [x y] [Hx Hy]. cbn [fst snd] in *.
    assert (C : (x = 0 \/ x = 1 \/ x = 2) /\ (y = 0 \/ y = 1)) by lia. destruct C as [[-> |[-> | ->]] [-> | ->]].
    + right. exact (One (97, _)).
    + right. exact (One (122, _)).
    + right. exact (Two 98 32).
    + left. reflexivity.
    + right. exact (Two 99 120).
    + left. reflexivity.
Qed.
Definition shown_at (acts : list act) (q : pos) : ecell :=
  seen (2, 2) (snd (fold_left (perform e0 (2, 2)) (acts ++ [ADraw]) (new_screen 3 2 (0, 0) [32], [], term))) q.
(** "b" is red tinted white on blue tinted white, "x" white on the same, "z" on green blended onto
    the background of the terminal *)
Example C93_ex : shades e0 exact_shade /\ at_rest term /\ fits 3 2 (2, 2) term /\ Forall (tact_ok 3 2) [AWrite glass on_black false] /\
  shown_at [AWrite glass on_black false] (0, 0) = (97, styled no_flags (Some (ERgb 255 0 0)) (Some (ERgb 0 0 255)) rend0, []) /\
  shown_at [AWrite glass on_black false] (1, 0) = (98, styled no_flags (Some (ERgb 255 153 153)) (Some (ERgb 153 153 255)) rend0, []) /\
  shown_at [AWrite glass on_black false] (2, 0) = (120, styled no_flags (Some (ERgb 255 255 255)) (Some (ERgb 153 153 255)) rend0, []) /\
  shown_at [AWrite glass on_black false] (0, 1) = (122, styled no_flags (Some (ERgb 255 255 255)) (Some (ERgb 0 153 0)) rend0, []) /\
  shown_at [AWrite glass on_black false] (1, 1) = (32, rend0, []).
Proof.
  split; [exact e0_shades|]. split; [apply term_ok|]. split; [apply term_ok|].
  split; [apply Forall_cons; [apply glass_ok|apply Forall_nil]|]. repeat match goal with |- _ /\ _ => split end; vm_compute; reflexivity.
Qed.
