(** Properties that combine the terminal with drawing. *)
From Coq Require Import ZArith List Bool Lia String.
From Verif Require Import PyBase F64 SpaceModel ColorModel SpanModel ScreenModel ScreenSpec Vt DrawSpec DrawProofs2 DrawProofs3 TermModel TermSpec MiscProofs PropScreen PropDraw.
Import ListNotations.
Open Scope Z_scope.
Open Scope list_scope.

(** ** C70 *)
(** False in every case: where no file can be created in the working directory nothing is drawn *)
Theorem C70_file_refuted : forall redraw v s, te_file_ok v = false ->
  exists s', draw redraw v s = (s', Err OSError) /\ t_out s' = t_out s /\ sc_buf (t_screen s') = [].
Proof. exact draw_needs_file. Qed.
Print Assumptions C70_file_refuted.

(** ** C71 *)
(** False in every case: no cell drawn carries a hyperlink, whatever links the spans written have *)
Theorem C71_links_refuted : forall e sh w h cursor fill origin m acts, shades e sh -> is_ctl fill = false ->
  at_rest m -> fits w h origin m -> Forall (act_ok w h) acts ->
  let '(_, _, m') := fold_left (perform e origin) (acts ++ [ADraw]) (new_screen w h cursor [fill], [], m) in
  forall q, on_screen w h q -> snd (seen origin m' q) = [].
Proof. exact links_lost. Qed.
Print Assumptions C71_links_refuted.
Example C70_ex : te_file_ok (mkTenv (3, 2) {| SLATE_COLORSYS := None; NO_COLOR_VAR := None; TERM := None; COLORTERM := None |}
  (fun x _ => x) (fun _ => false) false true) = false.
Proof. reflexivity. Qed.
Definition linked_a : span := as_hyperlink bold_a (lit "https://a").
Example C71_ex : shades e0 exact_shade /\ at_rest term /\ fits 3 2 (2, 2) term /\ s_link linked_a <> [] /\ drawable linked_a.
Proof.
  split; [exact e0_shades|]. split; [apply term_ok|]. split; [apply term_ok|]. split; [discriminate|]. draw_tac.
Qed.
