(** Lemmas: the color queries of Terminal(), in every order of events. *)
From Coq Require Import ZArith List Bool String Lia.
From Verif Require Import PyBase F64 ColorModel CoreModel KeySpec KeyProofs KeyProofs2 TtyModel TtySpec.
Import ListNotations.
Open Scope Z_scope.
Open Scope list_scope.

Definition ascii7 (b : Z) : Prop := 0 <= b < 128.
Lemma utf8_step_ascii : forall b, ascii7 b -> utf8_step [] b = Some ([b], []).
Proof.
  intros b H. unfold ascii7 in H. unfold utf8_step. cbn [app].
  replace (b <? 128) with true by (symmetry; apply Z.ltb_lt; lia). reflexivity.
Qed.

Section Calm.
Variable R : bool -> list Z.
Hypothesis R_ascii : forall fg, Forall ascii7 (R fg).
Hypothesis R_some : forall fg, R fg <> [].

(** [strict]: no answer has been lost or can be *)
Inductive st (strict : bool) (done : list bool) : startup -> Prop :=
| i_none : forall todo asked, (asked = true -> todo = []) -> st strict done (mkStart todo asked NoThread [] Outside [] (map R done))
| i_started : forall fg todo, st strict done (mkStart (fg :: todo) false Started [] Outside [] (map R done))
| i_early : forall fg todo, strict = false -> st strict done (mkStart (fg :: todo) true Started [] Outside [R fg] (map R done))
| i_early2 : forall fg todo, strict = false -> st strict done (mkStart (fg :: todo) true Started (R fg) Outside [] (map R done))
| i_inside : forall fg todo, st strict done (mkStart (fg :: todo) false Inside [] (InRead [] []) [] (map R done))
| i_asked : forall fg todo, st strict done (mkStart (fg :: todo) true Inside [] (InRead [] []) [R fg] (map R done))
| i_lost : forall fg todo, strict = false -> st strict done (mkStart (fg :: todo) true Inside [] (InRead [] []) [] (map R done))
| i_reading : forall fg todo acc q, acc ++ q = R fg -> q <> [] -> st strict done (mkStart (fg :: todo) true Inside q (InRead acc []) [] (map R done))
| i_asking : forall fg todo acc q, acc ++ q = R fg -> acc <> [] -> st strict done (mkStart (fg :: todo) true Inside q (Asking acc []) [] (map R done))
| i_ended : forall fg todo, st strict done (mkStart (fg :: todo) true Ended [] Outside [] (map R (done ++ [fg]))).

Definition reply (fg : bool) : option (list Z) := Some (R fg).

Definition next_ready (m : move) (ready : bool) : bool :=
  match m with StartThread => false | Reader Enter => true | _ => ready end.
(** the layers asked for by now *)
Definition inv (strict : bool) (ready : bool) (s : startup) : Prop :=
  exists done, done ++ su_todo s = [false; true] /\ st strict done s /\
    (strict = true -> su_thread s = Started -> ready = false) /\ (strict = true -> su_thread s = Inside -> ready = true).

Definition calm1 (m : move) : Prop := match m with Type_ _ => False | Piece _ => False | _ => True end.
(** steps still to be made *)
Definition cost (fg : bool) : nat := (5 + 2 * List.length (R fg))%nat.
Definition sum_cost (l : list bool) : nat := fold_right (fun fg n => (cost fg + n)%nat) 0%nat l.
Definition left_over (s : startup) : nat :=
  match su_todo s with
  | [] => 0
  | fg :: r =>
      (sum_cost r +
      match su_thread s with
      | NoThread => cost fg
      | t => 1 + (if su_asked s then List.length (su_wire s) else 2) +
             match t with
             | Started => 1 + 2 * List.length (R fg)
             | Inside => match su_place s with
                         | InRead acc _ => 2 * (List.length (R fg) - List.length acc)
                         | Asking acc _ => 2 * (List.length (R fg) - List.length acc) + 1
                         | Outside => 0
                         end
             | _ => 0
             end
      end)%nat
  end.

Lemma step_inv : forall strict ready m s s', calm1 m -> (strict = true -> m = Ask -> ready = true) -> inv strict ready s ->
  start_step reply m s = Some s' -> inv strict (next_ready m ready) s' /\ left_over s = S (left_over s').
Proof.
  intros strict ready m s s' C O [done [D [I [T1 T2]]]] E. unfold inv.
  destruct I as [todo asked HA|fg todo|fg todo HS|fg todo HS|fg todo|fg todo|fg todo HS|fg todo acc q Hq Nq|fg todo acc q Hq Nq|fg todo];
    cbn [su_todo su_thread] in *.
  - (* no thread *)
    destruct m as [| | |a| |n|b]; cbn in E; try discriminate; try (destruct C).
    + destruct todo as [|fg todo]; [discriminate|]. inversion E; subst. split.
      * exists done. split; [exact D|]. split; [constructor|]. split; [intros _ _; reflexivity|intros _ Q; discriminate Q].
      * unfold left_over, cost. cbn [su_todo su_thread su_asked su_wire su_place]. lia.
    + destruct todo as [|fg todo]; discriminate.
    + destruct todo as [|fg todo]; discriminate.
  - (* started *)
    destruct m as [| | |[]| |n|b]; cbn in E; try discriminate; try (destruct C); inversion E; subst; (split; [|unfold left_over; cbn; lia]); exists done; (split; [exact D|]).
    + destruct strict.
      * exfalso. specialize (T1 eq_refl eq_refl). specialize (O eq_refl eq_refl). congruence.
      * split; [now constructor|]. split; intros Q; discriminate Q.
    + split; [constructor|]. split; [intros _ Q; discriminate Q|intros _ _; reflexivity].
  - (* asked before the thread was ready *)
    subst strict. destruct m as [| | |[]| |n|b]; cbn in E; try discriminate; try (destruct C); inversion E; subst; (split; [|unfold left_over; cbn; lia]); exists done; (split; [exact D|]).
    + split; [constructor|]. split; intros Q; discriminate Q.
    + split; [now constructor|]. split; intros Q; discriminate Q.
  - subst strict. destruct m as [| | |[]| |n|b]; cbn in E; try discriminate; try (destruct C); inversion E; subst; (split; [|unfold left_over; cbn; lia]); exists done; (split; [exact D|]).
    split; [now constructor|]. split; intros Q; discriminate Q.
  - (* inside *)
    destruct m as [| | |[]| |n|b]; cbn in E; try discriminate; try (destruct C); inversion E; subst; (split; [|unfold left_over; cbn; lia]); exists done; (split; [exact D|]).
    split; [constructor|]. split; [intros _ Q; discriminate Q|assumption].
  - (* asked *)
    destruct m as [| | |[]| |n|b]; cbn in E; try discriminate; try (destruct C); inversion E; subst; (split; [|unfold left_over; cbn; lia]); exists done; (split; [exact D|]).
    split; [apply i_reading; [reflexivity|apply R_some]|]. split; [intros _ Q; discriminate Q|assumption].
  - (* lost *)
    destruct m as [| | |[]| |n|b]; cbn in E; try discriminate; destruct C.
  - (* reading *)
    destruct m as [| | |[]| |n|b]; cbn [start_step act] in E; try discriminate; try (destruct C).
    destruct q as [|x q]; [congruence|].
    assert (A : ascii7 x).
    { pose proof (R_ascii fg) as F. rewrite <- Hq in F. apply Forall_app in F. destruct F as [_ F]. now inversion F. }
    rewrite (utf8_step_ascii x A) in E. inversion E; subst. split.
    + exists done. split; [exact D|]. split; [apply i_asking; [now rewrite <- app_assoc|destruct acc; discriminate]|].
      split; [intros _ Q; discriminate Q|assumption].
    + unfold left_over. cbn [su_todo su_thread su_asked su_wire su_place]. rewrite <- Hq, !app_length. cbn [List.length]. lia.
  - (* asking *)
    destruct m as [| | |[]| |n|b]; cbn in E; try discriminate; try (destruct C).
    + destruct q as [|x q]; [discriminate|]. inversion E; subst. split.
      * exists done. split; [exact D|]. split; [apply i_reading; [exact Hq|discriminate]|]. split; [intros _ Q; discriminate Q|assumption].
      * unfold left_over. cbn [su_todo su_thread su_asked su_wire su_place]. lia.
    + destruct q as [|x q]; [|discriminate]. inversion E; subst. rewrite app_nil_r in Hq. subst acc. split.
      * exists done. split; [exact D|]. split.
        -- pose proof (i_ended strict done fg todo) as P. rewrite map_app in P. exact P.
        -- split; intros _ Q; discriminate Q.
      * unfold left_over. cbn [su_todo su_thread su_asked su_wire su_place]. lia.
  - (* ended *)
    destruct m as [| | |[]| |n|b]; cbn in E; try discriminate; try (destruct C). inversion E; subst. split.
    + exists (done ++ [fg]). split; [cbn [su_todo]; now rewrite <- app_assoc|]. split; [constructor; discriminate|].
      split; intros _ Q; discriminate Q.
    + unfold left_over. cbn [su_todo su_thread su_asked su_wire su_place List.length]. destruct todo as [|f r]; [reflexivity|].
      cbn [sum_cost fold_right]. unfold sum_cost. lia.
Qed.

Lemma run_inv : forall tr strict ready s s', calm tr -> (strict = true -> in_order ready tr) -> inv strict ready s ->
  start_run reply tr s = Some s' ->
  inv strict (fold_left (fun r m => next_ready m r) tr ready) s' /\ left_over s = (List.length tr + left_over s')%nat.
Proof.
  induction tr as [|m tr IH]; intros strict ready s s' C O I E.
  { inversion E; subst. split; [exact I|reflexivity]. }
  cbn [start_run] in E. destruct (start_step reply m s) as [s1|] eqn:S; [|discriminate].
  inversion C as [|? ? C1 C2]; subst.
  assert (O1 : strict = true -> m = Ask -> ready = true).
  { intros H ->. specialize (O H). cbn in O. tauto. }
  assert (O2 : strict = true -> in_order (next_ready m ready) tr).
  { intro H. specialize (O H). destruct m as [| | |[]| |n|b]; cbn in *; tauto. }
  destruct (step_inv strict ready m s s1 C1 O1 I S) as [I1 L1]. destruct (IH _ _ _ _ C2 O2 I1 E) as [I2 L2].
  split; [exact I2|]. cbn [List.length]. lia.
Qed.

Lemma inv_start : forall strict ready, inv strict ready starting.
Proof.
  intros strict ready. exists []. split; [reflexivity|]. split; [apply (i_none strict []); discriminate|].
  split; intros _ Q; discriminate Q.
Qed.
Lemma inv_heard : forall strict ready s, inv strict ready s -> su_todo s = [] -> su_heard s = [R false; R true].
Proof.
  intros strict ready s [done [D [I _]]] E. destruct I; cbn [su_todo su_heard] in *; try discriminate. subst.
  rewrite app_nil_r in D. subst done. reflexivity.
Qed.

(** no wrong answer, in any order *)
Lemma calm_heard : forall tr s, calm tr -> start_run reply tr starting = Some s -> su_todo s = [] -> su_heard s = [R false; R true].
Proof.
  intros tr s C E T. destruct (run_inv tr false false starting s C (fun H => False_ind _ (diff_false_true H)) (inv_start _ _) E) as [I _].
  exact (inv_heard _ _ _ I T).
Qed.

(** something can be done until all is known *)
Lemma progress : forall ready s, inv true ready s -> su_todo s <> [] ->
  exists m s', calm1 m /\ in_order ready [m] /\ start_step reply m s = Some s'.
Proof.
  intros ready s [done [D [I [T1 T2]]]] N.
  destruct I as [todo asked HA|fg todo|fg todo HS|fg todo HS|fg todo|fg todo|fg todo HS|fg todo acc q Hq Nq|fg todo acc q Hq Nq|fg todo];
    cbn [su_todo su_thread] in *; try discriminate.
  - destruct todo as [|fg todo]; [congruence|]. exists StartThread. eexists. repeat split.
  - exists (Reader Enter). eexists. repeat split.
  - exists Ask. eexists. split; [exact Logic.I|]. split; [split; [auto|exact Logic.I]|reflexivity].
  - exists Answer. eexists. repeat split.
  - exists (Reader Take). destruct q as [|x q]; [congruence|].
    assert (A : ascii7 x).
    { pose proof (R_ascii fg) as F. rewrite <- Hq in F. apply Forall_app in F. destruct F as [_ F]. now inversion F. }
    cbn [start_step act]. rewrite (utf8_step_ascii x A). eexists. repeat split.
  - destruct q as [|x q]; [exists (Reader Finish)|exists (Reader More)]; eexists; repeat split.
  - exists Join. eexists. repeat split.
Qed.
Lemma in_order_app : forall a b ready, in_order ready a -> in_order (fold_left (fun r m => next_ready m r) a ready) b -> in_order ready (a ++ b).
Proof. induction a as [|m a IH]; intros b ready A B; [exact B|]. destruct m as [| | |[]| |n|x]; cbn in *; try (apply IH; tauto); split; [tauto|apply IH; tauto]. Qed.
Lemma start_run_app : forall a b s, start_run reply (a ++ b) s = match start_run reply a s with Some s' => start_run reply b s' | None => None end.
Proof. induction a as [|m a IH]; intros b s; [reflexivity|]. cbn. destruct (start_step reply m s); [apply IH|reflexivity]. Qed.
Lemma completes : forall n ready s, (left_over s <= n)%nat -> inv true ready s ->
  exists tr s', calm tr /\ in_order ready tr /\ start_run reply tr s = Some s' /\ su_todo s' = [].
Proof.
  induction n as [|n IH]; intros ready s L I; (destruct (su_todo s) as [|fg r] eqn:T; [exists [], s; repeat split; [constructor|exact T]|]);
    destruct (progress ready s I) as [m [s1 [C1 [O1 E1]]]]; try congruence;
    (assert (O : true = true -> m = Ask -> ready = true) by (intros _ ->; cbn in O1; tauto));
    destruct (step_inv true ready m s s1 C1 O I E1) as [I1 L1]; [lia|].
  destruct (IH _ s1 ltac:(lia) I1) as [tr [s' [C [OO [E F]]]]]. exists (m :: tr), s'.
  split; [constructor; assumption|]. split.
  - change (m :: tr) with ([m] ++ tr). apply in_order_app; [exact O1|]. cbn. exact OO.
  - split; [|exact F]. cbn [start_run]. rewrite E1. exact E.
Qed.
Lemma calm_completes : forall tr s, calm tr -> in_order false tr -> start_run reply tr starting = Some s ->
  (List.length tr <= 10 + 2 * (List.length (R false) + List.length (R true)))%nat /\
  exists tr' s', calm tr' /\ in_order false (tr ++ tr') /\ start_run reply tr' s = Some s' /\ su_todo s' = [].
Proof.
  intros tr s C O E. destruct (run_inv tr true false starting s C (fun _ => O) (inv_start _ _) E) as [I L].
  split.
  - unfold left_over at 1 in L. cbn [starting su_todo su_thread sum_cost fold_right] in L. unfold cost in L. lia.
  - destruct (completes _ _ s (le_n _) I) as [tr' [s' [C' [O' [E' F]]]]]. exists tr', s'. split; [exact C'|].
    split; [apply in_order_app; assumption|]. split; assumption.
Qed.
End Calm.

(** * Colors *)
Lemma color_reply_ascii : forall layer r g b, (layer = lit "10" \/ layer = lit "11") -> channel16 r -> channel16 g -> channel16 b ->
  Forall ascii7 (color_reply layer r g b).
Proof.
  intros layer r g b L Hr Hg Hb. unfold color_reply.
  assert (C : forall x, channel16 x -> Forall ascii7 x).
  { intros x [x1 [x2 [x3 [x4 [-> H]]]]]. unfold lower_hex in H. repeat constructor; lia. }
  rewrite !Forall_app. repeat split; try (apply C; assumption); try (repeat constructor; cbn; lia).
  destruct L as [-> | ->]; repeat constructor; cbn; lia.
Qed.
Lemma answers_reply : forall br bg bb fr fg fb,
  let R := fun layer : bool => if layer then color_reply (lit "10") fr fg fb else color_reply (lit "11") br bg bb in
  forall layer, answers (br, bg, bb) (fr, fg, fb) layer = reply R layer.
Proof. intros. destruct layer; reflexivity. Qed.
Lemma start_step_ext : forall r1 r2 m s, (forall l, r1 l = r2 l) -> start_step r1 m s = start_step r2 m s.
Proof. intros r1 r2 m [todo asked th q p wire heard] H. destruct m; try reflexivity. cbn. destruct todo as [|fg todo]; [reflexivity|]. now rewrite H. Qed.
Lemma start_run_ext : forall r1 r2 tr s, (forall l, r1 l = r2 l) -> start_run r1 tr s = start_run r2 tr s.
Proof.
  intros r1 r2 tr. induction tr as [|m tr IH]; intros s H; [reflexivity|]. cbn [start_run]. rewrite (start_step_ext r1 r2 m s H).
  destruct (start_step r2 m s); [apply IH; exact H|reflexivity].
Qed.

Lemma calm_colors : forall br bg bb fr fg fb tr s, channel16 br -> channel16 bg -> channel16 bb ->
  channel16 fr -> channel16 fg -> channel16 fb -> calm tr ->
  start_run (answers (br, bg, bb) (fr, fg, fb)) tr starting = Some s -> su_todo s = [] ->
  su_queue s = [] /\ su_wire s = [] /\
  exists cb cf, start_colors (su_heard s) = Some (Ok cb, Ok cf) /\
    c_rgb cb = (high_byte br, high_byte bg, high_byte bb) /\ c_rgb cf = (high_byte fr, high_byte fg, high_byte fb).
Proof.
  intros br bg bb fr fg fb tr s H1 H2 H3 H4 H5 H6 C E T.
  set (R := fun layer : bool => if layer then color_reply (lit "10") fr fg fb else color_reply (lit "11") br bg bb).
  rewrite (start_run_ext _ (reply R) tr starting (answers_reply br bg bb fr fg fb)) in E.
  assert (RA : forall l, Forall ascii7 (R l)) by (intros []; apply color_reply_ascii; auto).
  assert (RS : forall l, R l <> []) by (intros []; discriminate).
  pose proof (calm_heard R RA RS tr s C E T) as H.
  destruct (run_inv R RA RS tr false false starting s C (fun H => False_ind _ (diff_false_true H)) (inv_start _ _ _) E) as [[done [_ [I _]]] _].
  split; [destruct I; try discriminate; reflexivity|]. split; [destruct I; try discriminate; reflexivity|].
  rewrite H. cbn [start_colors R].
  rewrite !color_reply_read by (auto).
  destruct (get_default_color_reply false (lit "11") br bg bb [] [] (or_intror eq_refl) H1 H2 H3) as [cb [E1 [C1 _]]].
  destruct (get_default_color_reply true (lit "10") fr fg fb [] [] (or_introl eq_refl) H4 H5 H6) as [cf [E2 [C2 _]]].
  rewrite app_nil_r in E1, E2. exists cb, cf. split; [exact (f_equal2 (fun a b => Some (a, b)) E1 E2)|]. split; assumption.
Qed.
Lemma calm_ends : forall br bg bb fr fg fb tr s, channel16 br -> channel16 bg -> channel16 bb ->
  channel16 fr -> channel16 fg -> channel16 fb -> calm tr -> in_order false tr ->
  start_run (answers (br, bg, bb) (fr, fg, fb)) tr starting = Some s ->
  (List.length tr <= 110)%nat /\
  exists tr' s', calm tr' /\ in_order false (tr ++ tr') /\
    start_run (answers (br, bg, bb) (fr, fg, fb)) tr' s = Some s' /\ su_todo s' = [].
Proof.
  intros br bg bb fr fg fb tr s H1 H2 H3 H4 H5 H6 C O E.
  set (R := fun layer : bool => if layer then color_reply (lit "10") fr fg fb else color_reply (lit "11") br bg bb).
  rewrite (start_run_ext _ (reply R) tr starting (answers_reply br bg bb fr fg fb)) in E.
  assert (RA : forall l, Forall ascii7 (R l)) by (intros []; apply color_reply_ascii; auto).
  assert (RS : forall l, R l <> []) by (intros []; discriminate).
  destruct (calm_completes R RA RS tr s C O E) as [L [tr' [s' [C' [O' [E' T]]]]]]. split.
  - assert (Len : forall l, List.length (R l) = 25%nat).
    { assert (C4 : forall x, channel16 x -> List.length x = 4%nat) by (intros x [x1 [x2 [x3 [x4 [-> _]]]]]; reflexivity).
      intros []; unfold R, color_reply; rewrite !app_length; [rewrite (C4 _ H4), (C4 _ H5), (C4 _ H6)|rewrite (C4 _ H1), (C4 _ H2), (C4 _ H3)]; reflexivity. }
    rewrite !Len in L. lia.
  - exists tr', s'. split; [exact C'|]. split; [exact O'|]. split; [|exact T].
    rewrite (start_run_ext _ (reply R) tr' s (answers_reply br bg bb fr fg fb)). exact E'.
Qed.

(** * What goes wrong *)
Lemma race : forall rep t, rep false = Some t ->
  exists tr s, calm tr /\ start_run rep tr starting = Some s /\
    forall tr' s', untyped tr' -> start_run rep tr' s = Some s' -> su_todo s' <> [].
Proof.
  intros rep t E. exists [StartThread; Ask; Answer; Reader Enter]. eexists. split; [repeat constructor|].
  split; [cbn; rewrite E; cbn; reflexivity|]. intros tr' s' U R. destruct tr' as [|m tr']; [inversion R; discriminate|].
  inversion U as [|? ? U1 _]; subst. destruct m as [| | |[]| |n|b]; try discriminate R. destruct U1.
Qed.

Definition deaf (s : startup) : Prop :=
  exists asked th p, s = mkStart [false; true] asked th [] p [] [] /\
    ((th = NoThread /\ p = Outside) \/ (th = Started /\ p = Outside) \/ (th = Inside /\ p = InRead [] [])).
Lemma deaf_step : forall rep m s s', rep false = None -> match m with Type_ _ => False | _ => True end -> deaf s ->
  start_step rep m s = Some s' -> deaf s'.
Proof.
  intros rep m s s' N U [asked [th [p [-> D]]]] E. unfold deaf.
  destruct m as [| | |[]| |n|b]; try destruct U; destruct D as [[-> ->]|[[-> ->]|[-> ->]]]; cbn in E; try discriminate;
    try (destruct asked; [discriminate|]; rewrite N in E; cbn in E); inversion E; subst; eexists _, _, _; (split; [reflexivity|]); auto.
Qed.
Lemma silent_waits : forall rep tr s, rep false = None -> untyped tr -> start_run rep tr starting = Some s -> su_todo s <> [].
Proof.
  intros rep tr s N U E.
  assert (G : forall tr s s', deaf s -> untyped tr -> start_run rep tr s = Some s' -> deaf s').
  { induction tr0 as [|m tr0 IH]; intros s0 s' D U0 R; [inversion R; subst; exact D|]. cbn [start_run] in R.
    destruct (start_step rep m s0) as [s1|] eqn:S; [|discriminate]. inversion U0 as [|? ? U1 U2]; subst.
    exact (IH s1 s' (deaf_step rep m s0 s1 N U1 D S) U2 R). }
  destruct (G tr starting s) as [asked [th [p [-> _]]]]; [|exact U|exact E|discriminate].
  exists false, NoThread, Outside. split; [reflexivity|]. auto.
Qed.

(** ** The order of the questions and of the answers *)
Definition one_query : list move := [StartThread; Ask; Join].
Definition rest_of (s : startup) : list move :=
  match su_todo s with
  | [] => []
  | _ :: r => match su_thread s with
              | NoThread => one_query
              | _ => if su_asked s then [Join] else [Ask; Join]
              end ++ List.concat (map (fun _ => one_query) r)
  end.
Lemma main_step : forall rep m s s', start_step rep m s = Some s' -> (if by_main m then [m] else []) ++ rest_of s' = rest_of s.
Proof.
  intros rep m [todo asked th q p wire heard] s' E. unfold rest_of. destruct m; cbn in E |- *.
  - destruct todo as [|fg r], th; try discriminate E. injection E as <-. reflexivity.
  - destruct todo as [|fg r], th, asked; try discriminate E; injection E as <-; reflexivity.
  - destruct todo as [|fg r], th, asked; try discriminate E; injection E as <-. cbn. destruct r; reflexivity.
  - destruct th, a; try discriminate E; destruct (act _ p q) as [[[p' q'] [t|]]|]; try discriminate E; injection E as <-; destruct todo; reflexivity.
  - destruct wire; try discriminate E. injection E as <-. reflexivity.
  - destruct wire; try discriminate E. injection E as <-. reflexivity.
  - injection E as <-. reflexivity.
Qed.
Lemma main_run : forall rep tr s s', start_run rep tr s = Some s' -> filter by_main tr ++ rest_of s' = rest_of s.
Proof.
  intros rep. induction tr as [|m tr IH]; intros s s' E; [injection E as <-; reflexivity|]. cbn [start_run] in E.
  destruct (start_step rep m s) as [s1|] eqn:S; [|discriminate]. apply main_step in S. apply IH in E. rewrite <- S, <- E. cbn [filter].
  destruct (by_main m); reflexivity.
Qed.
Theorem asks_both : forall rep tr s, start_run rep tr starting = Some s -> su_todo s = [] ->
  filter by_main tr = [StartThread; Ask; Join; StartThread; Ask; Join].
Proof.
  intros rep tr s E T. apply main_run in E. unfold rest_of in E at 1. rewrite T, app_nil_r in E. exact E.
Qed.

Definition given (rep : bool -> option (list Z)) (fgs : list bool) : list (list Z) :=
  flat_map (fun fg => match rep fg with Some t => [t] | None => [] end) fgs.
Definition to_ask (s : startup) : list bool :=
  match su_thread s with NoThread => su_todo s | _ => if su_asked s then tl (su_todo s) else su_todo s end.
Lemma wire_run : forall rep tr s s', whole_answers tr -> start_run rep tr s = Some s' ->
  su_wire s' = skipn (answered_in tr) (su_wire s ++ given rep (firstn (asked_in tr) (to_ask s))).
Proof.
  intros rep. induction tr as [|m tr IH]; intros s s' W E.
  { injection E as <-. cbn. now rewrite app_nil_r. }
  pose proof (Forall_inv W) as Wm. apply Forall_inv_tail in W. cbn [start_run] in E.
  destruct (start_step rep m s) as [s1|] eqn:S; [|discriminate]. apply IH in E; [|exact W]. rewrite E. clear E IH.
  destruct s as [todo asked th q p wire heard]. unfold answered_in, asked_in, to_ask. destruct m; cbn in S; cbn [filter List.length].
  - destruct todo as [|fg r], th; try discriminate S. injection S as <-. reflexivity.
  - destruct todo as [|fg r], th, asked; try discriminate S; injection S as <-;
      cbn [su_wire su_thread su_todo su_asked tl firstn given flat_map]; unfold given; cbn [flat_map]; now rewrite <- app_assoc.
  - destruct todo as [|fg r], th, asked; try discriminate S; injection S as <-. reflexivity.
  - destruct th, a; try discriminate S; destruct (act _ p q) as [[[p' q'] [t|]]|]; try discriminate S; injection S as <-; reflexivity.
  - destruct wire as [|t r]; try discriminate S. injection S as <-. reflexivity.
  - destruct Wm.
  - injection S as <-. reflexivity.
Qed.
Theorem answers_in_order : forall rep tr s, whole_answers tr -> start_run rep tr starting = Some s ->
  su_wire s = skipn (answered_in tr) (flat_map (fun fg => match rep fg with Some t => [t] | None => [] end) (firstn (asked_in tr) [false; true])).
Proof. intros rep tr s W E. exact (wire_run rep tr starting s W E). Qed.
