(** Corollaries combining the terminal with drawing. *)
From Coq Require Import ZArith List Bool Lia String.
From Verif Require Import PyBase F64 SpaceModel ColorModel SpanModel ScreenModel ScreenSpec Vt DrawSpec DrawProofs2 TermModel TermSpec.
Import ListNotations.
Open Scope Z_scope.
Open Scope list_scope.

Lemma draw_needs_file : forall redraw v s, te_file_ok v = false ->
  exists s', draw redraw v s = (s', Err OSError) /\ t_out s' = t_out s /\ sc_buf (t_screen s') = [].
Proof.
  intros redraw v s H. unfold draw. destruct (render (t_screen s) (t_origin s) redraw) as [ansi sc] eqn:E. rewrite H.
  eexists. split; [reflexivity|]. split; [reflexivity|]. cbn. unfold render in E. destruct (t_origin s), redraw; injection E as _ <-; reflexivity.
Qed.

Lemma links_lost : forall e sh w h cursor fill origin m acts, shades e sh -> is_ctl fill = false ->
  at_rest m -> fits w h origin m -> Forall (act_ok w h) acts ->
  let '(_, _, m') := fold_left (perform e origin) (acts ++ [ADraw]) (new_screen w h cursor [fill], [], m) in
  forall q, on_screen w h q -> snd (seen origin m' q) = [].
Proof.
  intros e sh w h cursor fill origin m acts H1 H2 H3 H4 H5.
  pose proof (drawing e sh w h cursor fill origin m acts H1 H2 H3 H4 H5) as D.
  destruct (fold_left _ _ _) as [[s c] m']. destruct D as [D _]. intros q Hq. now rewrite D.
Qed.
