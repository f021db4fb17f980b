(** C112: what was on the terminal before the alternate buffer (terminal.py). *)
From Coq Require Import ZArith List Bool String Lia.
From Verif Require Import PyBase F64 SpaceModel ColorModel AnsiRe SpanModel CoreModel ScreenModel ScreenSpec TermModel TermSpec
  Vt CommandSpec AltSpec AltProofs PropScreen PropTerm PropCommand.
Import ListNotations.
Open Scope string_scope.
Open Scope list_scope.
Open Scope Z_scope.

(** ** C112 *)
(** Any terminal, any program inside alt_buffer, ended or failed: if what it sent holds no command to change
    the buffer, then afterwards the normal buffer is shown as it was before, cursor and rendition included. *)
Theorem C112_session : forall A T c1 h (body : M A) v s s2 r out st0 r0 b, tidy T ->
  (enter (AltBuffer h) ;; body) v s = (s2, r) -> calm_from v (t_writes s2) ->
  t_out s2 = t_out s ++ opening (AltBuffer h) ++ out -> stays c1 out -> whole c1 (t_out s) -> shown T c1 (t_out s) st0 = (r0, Normal b) ->
  exists s3 r', alt_buffer h body v s = (s3, r) /\ shown T c1 (t_out s3) st0 = (r', Normal b) /\ whole c1 (t_out s3).
Proof. exact session. Qed.
Print Assumptions C112_session.
(** Writes of any spans and any strings, clears, resizes and draws hold none: nothing of them is drawn on the normal
    buffer at any instant, and leaving at any instant, even within a draw, brings the normal buffer back. *)
Theorem C112_drawn : forall T c1 ctl e w h cursor fill ds s c out hide p q r b, tidy T ->
  Forall (deed_ok ctl) ds -> controls (fun _ => False) fill ->
  fold_left (do_deed e) ds (new_screen w h cursor fill, [], []) = (s, c, out) -> out = p ++ q ->
  (exists r' b', shown T c1 (opening (AltBuffer hide) ++ p) (r, Normal b) = (r', Alternate b b')) /\
  exists r', shown T c1 (opening (AltBuffer hide) ++ p ++ closing (AltBuffer hide)) (r, Normal b) = (r', Normal b).
Proof. exact drawn_session. Qed.
Print Assumptions C112_drawn.

(** One alt_buffer inside another: leaving the inner one shows the normal buffer, and whatever the outer body
    sends from then on is carried out on it. *)
Theorem C112_nested_refuted : forall T c1 h1 h2 out1 out2 r b, tidy T -> stays c1 out1 -> stays c1 out2 -> exists r1,
  shown T c1 (opening (AltBuffer h1) ++ opening (AltBuffer h2) ++ out1 ++ closing (AltBuffer h2)) (r, Normal b) = (r1, Normal b) /\
  shown T c1 (opening (AltBuffer h1) ++ opening (AltBuffer h2) ++ out1 ++ closing (AltBuffer h2) ++ out2) (r, Normal b) =
    (fst (obeys T (commands c1 out2) (r1, b)), Normal (snd (obeys T (commands c1 out2) (r1, b)))).
Proof. exact inner_leaves. Qed.
Print Assumptions C112_nested_refuted.
(** If the first write fails, the alternate buffer was not entered, but it is left: the cursor goes back to a place saved
    at some earlier time. *)
Theorem C112_entry_refuted : forall A T c1 h (body : M A) v s st0 r0 b, tidy T -> te_fail v (t_writes s) = true -> calm_from v (S (t_writes s)) ->
  whole c1 (t_out s) -> shown T c1 (t_out s) st0 = (r0, Normal b) ->
  exists s3 r', alt_buffer h body v s = (s3, Err OSError) /\ shown T c1 (t_out s3) st0 = (r', Normal (recall T b)).
Proof. exact not_entered. Qed.
Print Assumptions C112_entry_refuted.
(** A redraw can leave the alternate buffer: the text of a span is enough. *)
Theorem C112_redraw_refuted : forall T c1 e w h cursor tb force hide r b, 8 <= w -> 0 < h -> fine tb ->
  exists s c n, write_bulk e [] (new_screen w h cursor (lit " ")) [((0, 0), [plain_span (seq_ "?1049l")])] tb force = (s, c, Ok n) /\
    exists p q r', fst (render s (1, 1) true) = p ++ q /\ shown T c1 (opening (AltBuffer hide) ++ p) (r, Normal b) = (r', Normal b).
Proof. exact redraw_leaves. Qed.
Print Assumptions C112_redraw_refuted.

(** * Examples *)
(** a terminal that prints in one line and has a cursor mode *)
Definition strip : terminal := {|
  Rest := option bool; Buf := str * Z;
  obey k rb := let '(r, (text, x)) := rb in
    match k with
    | Print c => (r, (text ++ [c], x + 1))
    | Csi buf f => if str_eqb buf (lit "?25") then (Some (f =? 104), (text, x)) else (r, (text, x))
    | _ => (r, (text, x))
    end;
  erased _ := ([], 0);
  recall b := (fst b, 0)
|}.
Lemma strip_tidy : tidy strip.
Proof. intros k r [t x] [-> | [-> | ->]]; reflexivity. Qed.
Definition prompt : option bool * display (str * Z) := (None, Normal (lit "$ slate", 7)).
(** a program that draws text full of commands and fails *)
Definition failing : M Z := twrite (PSpans [plain_span nasty]) (Some (0, 0)) false ;; draw false ;; @crash Z.
Example C112_ex : tidy strip /\
  let s2 := fst ((enter (AltBuffer true) ;; failing) (world 3 2) term0) in
  let out := skipn (List.length (opening (AltBuffer true))) (t_out s2) in
  calm (world 3 2) /\ t_out s2 = t_out term0 ++ opening (AltBuffer true) ++ out /\ stays true out /\ whole true (t_out term0) /\
  shown strip true (t_out term0) prompt = prompt /\
  shown strip true (t_out s2) prompt = (Some false, Alternate (lit "$ slate", 7) (lit "[2J]", 4)) /\
  shown strip true (t_out (fst (alt_buffer true failing (world 3 2) term0))) prompt = (Some true, Normal (lit "$ slate", 7)).
Proof.
  split; [exact strip_tidy|]. cbv zeta. split; [intro n; reflexivity|]. split; [vm_compute; reflexivity|].
  split; [unfold stays; vm_compute; repeat (apply Forall_cons; [reflexivity|]); apply Forall_nil|].
  split; [vm_compute; reflexivity|]. split; [vm_compute; reflexivity|]. split; vm_compute; reflexivity.
Qed.
Example C112_drawn_ex : Forall (deed_ok (fun c => c = 7 \/ c = 27 \/ c = 155)) nasty_deeds /\
  (zlen (snd (fold_left (do_deed e0) nasty_deeds (new_screen 40 2 (0, 0) (lit " "), [], []))) =? 0) = false.
Proof. split; [apply C108_ex|vm_compute; reflexivity]. Qed.
(** a word drawn by the outer body is left on the normal buffer *)
Example C112_nested_ex : stays true (lit "word") /\
  snd (shown strip true (opening (AltBuffer true) ++ opening (AltBuffer true) ++ lit "inner" ++ closing (AltBuffer true) ++ lit "word" ++ closing (AltBuffer true)) prompt) =
    Normal (lit "$ slateword", 0).
Proof. split; [repeat constructor|vm_compute; reflexivity]. Qed.
(** the first write fails: the cursor is in the first column *)
Definition first_fails : tenv := mkTenv (3, 2) shell0 (fun x _ => x) (Nat.eqb (t_writes term0)) true true.
Example C112_entry_ex : te_fail first_fails (t_writes term0) = true /\ calm_from first_fails (S (t_writes term0)) /\ let '(s, r) := alt_buffer true failing first_fails term0 in r = Err OSError /\ snd (shown strip true (t_out s) prompt) = Normal (lit "$ slate", 0).
Proof.
  split; [reflexivity|]. split; [|vm_compute; auto].
  intros k Hk. apply PeanoNat.Nat.eqb_neq. lia.
Qed.
Example C112_redraw_ex : 8 <= 40 /\ fine BLACK.
Proof. split; [lia|apply fine_solid; lia]. Qed.
