(** C108: text that is drawn does not command the terminal (span.py, color.py, screen.py, terminal.py). *)
From Coq Require Import ZArith List Bool String Lia.
From Verif Require Import PyBase PyLemmas F64 SpaceModel ColorModel AnsiRe SpanModel CoreModel TermModel ScreenModel ScreenSpec
  CommandSpec CommandProofs CommandProofs2 CommandProofs3 PropScreen.
Import ListNotations.
Open Scope string_scope.
Open Scope list_scope.
Open Scope Z_scope.

(** ** C108 *)
(** Spans may hold any text at all, escape sequences included, any link and any of the plain colors: after
    any history of writes, clears, resizes and draws the terminal has received nothing but characters,
    newlines, the control characters [ctl] of the texts, positions, renditions and empty strings.  It is
    left waiting for a character, so what comes next is not swallowed.  [c1] tells whether the terminal
    obeys the 8-bit controls. *)
Theorem C108_spans : forall c1 ctl e w h cursor fill ds s c out,
  Forall (deed_ok ctl) ds -> Forall spans_only ds -> controls (fun _ => False) fill ->
  fold_left (do_deed e) ds (new_screen w h cursor fill, [], []) = (s, c, out) ->
  Forall (draws_only (fun x => x = NL \/ ctl x) []) (commands c1 out) /\ snd (scan c1 Ground out) = Ground.
Proof. exact (fun c1 ctl e w h cursor fill ds s c out H S => drawn_only c1 ctl [] e w h cursor fill ds s c out H (or_introl S)). Qed.
Print Assumptions C108_spans.

(** Strings are parsed for renditions first: the same, except that some control sequences with the final
    bytes [_], [E] and [e] may be among the commands.  Missing for the whole claim: those final bytes,
    which do reach the terminal (C108_number_refuted). *)
Theorem C108_strings_partial : forall c1 ctl e w h cursor fill ds s c out,
  Forall (deed_ok ctl) ds -> controls (fun _ => False) fill ->
  fold_left (do_deed e) ds (new_screen w h cursor fill, [], []) = (s, c, out) ->
  Forall (draws_only (fun x => x = NL \/ ctl x) [95; 69; 101]) (commands c1 out) /\ snd (scan c1 Ground out) = Ground.
Proof.
  exact (fun c1 ctl e w h cursor fill ds s c out H =>
    drawn_only c1 ctl [95; 69; 101] e w h cursor fill ds s c out H
      (or_intror (conj (or_introl eq_refl) (conj (or_intror (or_introl eq_refl)) (or_intror (or_intror (or_introl eq_refl))))))).
Qed.
Print Assumptions C108_strings_partial.

(** A number of a rendition may be written as Python writes numbers, and is passed on as it is written: the
    terminal takes the underscore for the end of the sequence. *)
Definition number_line : str := [ESC] ++ lit "[38;5;1_0mX".
Theorem C108_number_refuted : exists e ds, Forall (deed_ok (fun x => x = ESC)) ds /\
  forall c1, In (Csi (lit "38;5;1") 95) (commands c1 (snd (fold_left (do_deed e) ds (new_screen 1 1 (0, 0) (lit " "), [], [])))).
Proof.
  exists e0, [DText (0, 0) number_line BLACK false; DDraw (1, 1)].
  split.
  - apply Forall_cons; [|apply Forall_cons; [exact I|apply Forall_nil]]. split; [|exact I].
    intros c Hc K. unfold number_line in Hc. cbn in Hc. unfold control_char in K. unfold ESC in *. intuition lia.
  - intros []; vm_compute; tauto.
Qed.
Print Assumptions C108_number_refuted.

(** What a control character does is not prevented: written as text, it is executed by the draw.  (ESC is
    not: the position that follows abandons it.  A newline is not: it moves the writing instead.) *)
Definition drawn_char (c : Z) : str :=
  snd (fold_left (do_deed e0) [DWrite [((0, 0), [plain_span [c]])] BLACK false; DDraw (1, 1)] (new_screen 1 1 (0, 0) (lit " "), [], [])).
Theorem C108_controls_refuted : forall c c1, 0 <= c < 32 \/ c = 127 -> c <> NL -> c <> ESC -> In (Control c) (commands c1 (drawn_char c)).
Proof.
  intros c c1 H H1 H2. unfold NL, ESC in *.
  assert (c = 0 \/ c = 1 \/ c = 2 \/ c = 3 \/ c = 4 \/ c = 5 \/ c = 6 \/ c = 7 \/ c = 8 \/ c = 9 \/ c = 11 \/ c = 12 \/ c = 13 \/ c = 14 \/
    c = 15 \/ c = 16 \/ c = 17 \/ c = 18 \/ c = 19 \/ c = 20 \/ c = 21 \/ c = 22 \/ c = 23 \/ c = 24 \/ c = 25 \/ c = 26 \/ c = 28 \/ c = 29 \/
    c = 30 \/ c = 31 \/ c = 127) as K by lia.
  repeat (destruct K as [K|K]; [subst c; destruct c1; vm_compute; tauto|]). subst c; destruct c1; vm_compute; tauto.
Qed.
Print Assumptions C108_controls_refuted.

(** A redraw sends the cells of a row one after the other, without positions between them: every command in
    the text of a span is executed. *)
Theorem C108_redraw_refuted : forall e w h cursor t tb force, 0 < h -> 0 < w -> zlen t <= w -> ~ In NL t -> fine tb ->
  exists s c n, write_bulk e [] (new_screen w h cursor (lit " ")) [((0, 0), [plain_span t])] tb force = (s, c, Ok n) /\
    forall c1 k, In k (commands c1 t) -> In k (commands c1 (fst (render s (1, 1) true))).
Proof. exact redraw_runs. Qed.
Print Assumptions C108_redraw_refuted.

(** A title is sent as it is: after a BEL its commands are executed. *)
Theorem C108_title_refuted : forall v s t, (forall n, te_fail v n = false) ->
  exists out, snd (set_title (Some (BEL :: t)) v s) = Ok tt /\ t_out (fst (set_title (Some (BEL :: t)) v s)) = t_out s ++ out /\
    forall c1 k, In k (commands c1 t) -> In k (commands c1 out).
Proof. exact title_runs. Qed.
Print Assumptions C108_title_refuted.

(** The description of a color need not be digits and semicolons: any control sequence without a semicolon
    can be put in one and is executed when a span of that color is written out. *)
Theorem C108_description_refuted : forall e b f t, env_cs e = EIGHT_BIT \/ env_cs e = TRUE_COLOR -> unmarked b = true -> ~ In 59 b ->
  Forall (fun c => 32 <= c < 64 \/ 160 <= c) b -> 64 <= f <= 126 -> startswith (lit "#") b = false ->
  exists c, color_of (DStr (b ++ [f; ESC; 91] ++ lit ";5")) = Ok c /\
    forall c1, In (Csi b f) (commands c1 (span_str e (mkSpan t (Some c) None [] no_flags true))).
Proof. exact description_runs. Qed.
Print Assumptions C108_description_refuted.

(** a text full of commands, in a span and in a string *)
Definition nasty : str := [ESC] ++ lit "[2J" ++ [ESC] ++ lit "]0;t" ++ [7; ESC] ++ lit "c" ++ [155] ++ lit "3J".
Definition nasty_deeds : list deed :=
  [DWrite [((0, 0), [plain_span nasty; mkSpan nasty (Some red_) None nasty (set_flag FBold true no_flags) true])] BLACK false;
   DDraw (1, 1); DText (0, 1) nasty BLACK false; DResize (30, 3) (lit "."); DDraw (2, 2); DClear (lit " "); DDraw (1, 1)].
Example C108_ex : Forall (deed_ok (fun c => c = 7 \/ c = 27 \/ c = 155)) nasty_deeds /\
  In (Csi (lit "2") 74) (commands false nasty) /\ In (Escape [] 99) (commands false nasty) /\ In (Csi (lit "3") 74) (commands true nasty) /\
  In (Text 93 (lit "0;t")) (commands true nasty).
Proof.
  split; [|vm_compute; tauto].
  assert (N : controls (fun c => c = 7 \/ c = 27 \/ c = 155) nasty).
  { intros c Hc K. unfold nasty in Hc. cbn in Hc. unfold control_char in K. unfold ESC in *. intuition lia. }
  unfold nasty_deeds. repeat (apply Forall_cons || apply Forall_nil); cbn [deed_ok]; try exact I.
  - split; [|exact I]. repeat (apply Forall_cons || apply Forall_nil); (split; [split; intros k Hk; cbn in Hk; try discriminate; injection Hk as <-; exact I|exact N]).
  - split; [exact N|exact I].
  - intros c [<-|[]] K. unfold control_char in K. cbn in K. lia.
  - intros c [<-|[]] K. unfold control_char in K. cbn in K. lia.
Qed.
(** what the terminal makes of it: no command of the text is left *)
Example C108_ex2 : forall c1,
  let out := snd (fold_left (do_deed e0) nasty_deeds (new_screen 40 2 (0, 0) (lit " "), [], [])) in
  forallb (fun k => match k with Print _ => true | Control c => c =? 7 | Csi _ f => (f =? 72) || (f =? 109) | _ => false end) (commands c1 out) = true /\
  existsb (fun k => match k with Control c => c =? 7 | _ => false end) (commands c1 out) = true.
Proof. intros []; split; vm_compute; reflexivity. Qed.
(** a redraw clears the terminal's screen: the text's command is executed *)
Example C108_redraw_ex : let t := [ESC] ++ lit "[2J" in zlen t <= 5 /\ ~ In NL t /\ fine BLACK /\ In (Csi (lit "2") 74) (commands true t).
Proof. split; [vm_compute; discriminate|]. split; [cbn; unfold NL, ESC; intuition lia|]. split; [apply fine_solid; lia|vm_compute; tauto]. Qed.
(** the same from a title and from a color *)
Example C108_title_ex : In (Csi (lit "2") 74) (commands true ([ESC] ++ lit "[2J")).
Proof. vm_compute; tauto. Qed.
Example C108_description_ex : env_cs e0 = TRUE_COLOR /\ unmarked (lit "2") = true /\ ~ In 59 (lit "2") /\
  Forall (fun c => 32 <= c < 64 \/ 160 <= c) (lit "2") /\ startswith (lit "#") (lit "2") = false.
Proof. repeat split; try reflexivity. - cbn. intuition lia. - constructor; [cbn; lia|constructor]. Qed.
