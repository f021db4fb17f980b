(** Properties of the terminal: size, context managers, titles, failed draws, color spaces. *)
From Coq Require Import ZArith List Bool Lia String.
From Verif Require Import PyBase F64 SpaceModel ColorTab ColorModel ColorSpec SpanModel KeyTab CoreModel KeySpec KeyProofs ScreenModel ScreenSpec ScreenProofs6
  Vt TermModel TermSpec TermProofs TermProofs2 TermProofs3.
Import ListNotations.
Open Scope Z_scope.
Open Scope list_scope.

(** Surroundings and terminals used as concrete cases *)
Definition shell0 : shell_env := {| SLATE_COLORSYS := None; NO_COLOR_VAR := None; TERM := None; COLORTERM := None |}.
Definition world (w h : Z) : tenv := mkTenv (w, h) shell0 (fun x _ => x) (fun _ => false) true true.
Definition term0 : tstate := new_terminal (world 3 2) BLACK.
Definition listening (ls : list listener) : tstate :=
  mkT (t_screen term0) [] (Some (3, 2)) None None BLACK (1, 1) ls [] 0 true [] [].
Definition crash {A} : M A := fun _ s => (s, Err (UserError 7)).

(** ** C43 *)
(** Listeners that only take note: any history of calls at any window sizes *)
Theorem C43_follows : forall fuel ids calls s p, t_listeners s = map LNote ids -> t_prev s = Some p ->
  (sc_w (t_screen s), sc_h (t_screen s)) = p -> shaped (t_screen s) -> keyed (t_screen s) -> cache_len (t_cache s) ->
  let s' := do_calls fuel s calls in
  (sc_w (t_screen s'), sc_h (t_screen s')) = last (seen_sizes calls) p /\ shaped (t_screen s') /\
  t_log s' = t_log s ++ notices ids (differing p (seen_sizes calls)).
Proof. exact screen_follows. Qed.
Print Assumptions C43_follows.
Theorem C43_first : forall fuel v s, t_prev s = None -> size fuel v s = (set_prev (Some (te_size v)) s, Ok (te_size v)).
Proof. exact size_first. Qed.
Print Assumptions C43_first.
(** A listener that itself reads the size: however deep the
    interpreter recurses, it ends in RecursionError, with the other listeners called once per level *)
Theorem C43_reading : forall fuel v ids rest s p, t_listeners s = map LNote ids ++ LReadSize :: rest -> t_prev s = Some p ->
  te_size v <> p -> exists s', size fuel v s = (s', Err RecursionError) /\ t_prev s' = Some p /\
    t_log s' = t_log s ++ notices ids (repeat (te_size v) (S fuel)).
Proof. exact reading_recurses. Qed.
Print Assumptions C43_reading.
(** ... and one that raises: the change is announced again at the next look *)
Theorem C43_raising : forall fuel v ids n rest s p, t_listeners s = map LNote ids ++ LRaise n :: rest -> t_prev s = Some p ->
  te_size v <> p -> exists s', size fuel v s = (s', Err (UserError n)) /\ t_prev s' = Some p /\ t_listeners s' = t_listeners s /\
    t_log s' = t_log s ++ map (fun id => (id, te_size v)) ids.
Proof. exact raising_repeats. Qed.
Print Assumptions C43_raising.
Example C43_ex : let s := listening (map LNote [7; 8]) in
  t_listeners s = map LNote [7; 8] /\ t_prev s = Some (3, 2) /\ (sc_w (t_screen s), sc_h (t_screen s)) = (3, 2) /\
  shaped (t_screen s) /\ keyed (t_screen s) /\ cache_len (t_cache s) /\
  t_log (do_calls 5 s [(world 3 2, CSize); (world 4 2, CWidth); (world 5 2, CDraw false); (world 4 2, CHeight); (world 3 2, CSize)])
    = [(7, (4, 2)); (8, (4, 2)); (7, (3, 2)); (8, (3, 2))].
Proof.
  cbv zeta. split; [reflexivity|]. split; [reflexivity|]. split; [reflexivity|]. split; [apply resize_shape|].
  split; [apply new_screen_shape|]. split; [constructor|]. vm_compute. reflexivity.
Qed.
Example C43_reading_ex : let s := listening [LNote 7; LReadSize] in t_listeners s = map LNote [7] ++ LReadSize :: [] /\
  t_prev s = Some (3, 2) /\ te_size (world 4 2) <> (3, 2).
Proof. cbv zeta. split; [reflexivity|]. split; [reflexivity|]. discriminate. Qed.

(** ** C45 *)
(** One manager: whatever fails on entering or in the body, the closing sequences are written once and
    the outcome, value or exception, is kept *)
Theorem C45_leaving : forall A m (body : M A) v s s2 r, (enter m ;; body) v s = (s2, r) -> calm_from v (t_writes s2) ->
  exists s3, within m body v s = (s3, r) /\ same_object s2 s3 /\ t_out s3 = t_out s2 ++ closing m /\
    t_echo s3 = (if te_stdin_tty v && silences m then true else t_echo s2).
Proof. exact leaving. Qed.
Print Assumptions C45_leaving.
(** Any nesting of managers around any body: closed last-in first-out, and what the terminal is left
    with: outside the alternate buffer, cursor visible, mouse reporting off, echo on *)
Theorem C45_nested : forall A v, calm v -> forall ms (body : M A) s,
  exists s1, same_object s s1 /\ t_out s1 = t_out s ++ openings ms /\
    t_echo s1 = (if te_stdin_tty v && existsb silences ms then false else t_echo s) /\
    forall s2 r, body v s1 = (s2, r) ->
    exists s3, nest ms body v s = (s3, r) /\ same_object s2 s3 /\ t_out s3 = t_out s2 ++ closings ms /\
      t_echo s3 = (if te_stdin_tty v && existsb silences ms then true else t_echo s2) /\
      forall t, osc_closed (vt (t_out s2) t) -> forall m n b, In m ms -> In (n, b) (left_modes m) ->
        mode_of n (e_modes (vt (t_out s3) t)) = Some b.
Proof. exact managers_restore. Qed.
Print Assumptions C45_nested.
Example C45_ex : calm (world 3 2) /\ osc_closed (emu0 3 2) /\
  let r := nest [AltBuffer true; NoEcho; ReportMouse; Batch] (bell ;; @crash unit) (world 3 2) term0 in
  snd r = Err (UserError 7) /\ t_echo (fst r) = true /\
  t_out (fst r) = openings [AltBuffer true; NoEcho; ReportMouse; Batch] ++ [7] ++ closings [AltBuffer true; NoEcho; ReportMouse; Batch] /\
  mode_of 1049 (e_modes (vt (t_out (fst r)) (emu0 3 2))) = Some false.
Proof. split; [intro; reflexivity|]. split; [exact I|]. vm_compute. repeat split; reflexivity. Qed.
Example C45_leaving_ex : let v := mkTenv (3, 2) shell0 (fun x _ => x) (fun n => Nat.eqb n 1) true true in
  snd ((enter (AltBuffer true) ;; retM tt) v term0) = Err OSError /\
  calm_from v (t_writes (fst ((enter (AltBuffer true) ;; retM tt) v term0))).
Proof. split; [vm_compute; reflexivity|]. intros k Hk. vm_compute in Hk. destruct k as [|[|k]]; [lia|lia|reflexivity]. Qed.

(** ** C46 *)
(** The first session of an application, from an empty title stack, whatever titles it sets or resets,
    wherever it stops *)
Theorem C46_first : forall v h l s s' r m0, calm v -> Forall fair l -> blank_title (t_title s) ->
  e_parse (vt (t_out s) m0) = PGround -> e_titles (vt (t_out s) m0) = [] ->
  alt_buffer h (acts l) v s = (s', r) ->
  e_title (vt (t_out s') m0) = e_title (vt (t_out s) m0) /\ e_titles (vt (t_out s') m0) = [].
Proof. exact title_back. Qed.
Print Assumptions C46_first.
(** ... from any title stack, if it starts by setting a title and resets none *)
Theorem C46_stack : forall v h t l s s' r m0, calm v -> clean_title t -> Forall fair l -> Forall only_sets l ->
  blank_title (t_title s) -> e_parse (vt (t_out s) m0) = PGround ->
  alt_buffer h (acts (TTitle (Some t) :: l)) v s = (s', r) ->
  e_title (vt (t_out s') m0) = e_title (vt (t_out s) m0) /\ e_titles (vt (t_out s') m0) = e_titles (vt (t_out s) m0).
Proof. exact title_back_stack. Qed.
Print Assumptions C46_stack.
(** Every later session leaves its own last title behind *)
Theorem C46_later : forall v h l s m0, calm v -> Forall clean_title l -> ~ blank_title (t_title s) ->
  e_parse (vt (t_out s) m0) = PGround -> e_titles (vt (t_out s) m0) = [] ->
  exists s', alt_buffer h (acts (sets l)) v s = (s', Ok tt) /\ ~ blank_title (t_title s') /\
    e_title (vt (t_out s') m0) = last l (e_title (vt (t_out s) m0)).
Proof. exact later_session. Qed.
Print Assumptions C46_later.
Theorem C46_twice : exists a b : str, let s1 := fst (alt_buffer true (acts (sets [a])) (world 3 2) term0) in
  let s2 := fst (alt_buffer true (acts (sets [b])) (world 3 2) s1) in
  e_title (vt (t_out s1) (emu0 3 2)) = [] /\ e_title (vt (t_out s2) (emu0 3 2)) = b /\ b <> [].
Proof. exists (lit "a"), (lit "b"). vm_compute. repeat split; discriminate. Qed.
Print Assumptions C46_twice.
(** Nor does a session that sets an empty title first, or one that sets none under somebody else's *)
Theorem C46_empty : exists o, let m := set_titles o [] (emu0 3 2) in
  let s := fst (alt_buffer true (acts (sets [[]; lit "b"])) (world 3 2) term0) in
  e_title (vt (t_out s) m) <> o.
Proof. exists (lit "shell"). vm_compute. discriminate. Qed.
Print Assumptions C46_empty.
Theorem C46_foreign : exists o a, let m := set_titles o [a] (emu0 3 2) in
  let s := fst (alt_buffer true (retM tt) (world 3 2) term0) in
  e_title (vt (t_out s) m) <> o.
Proof. exists (lit "editor"), (lit "shell"). vm_compute. discriminate. Qed.
Print Assumptions C46_foreign.
Example C46_ex : Forall fair [TTitle (Some (lit "a;b")); TTitle None; TOther (write_control [10])] /\
  blank_title (t_title term0) /\ e_parse (vt (t_out term0) (set_titles (lit "shell") [] (emu0 3 2))) = PGround /\
  Forall clean_title [lit "a"; lit "b"] /\
  e_title (vt (t_out (fst (alt_buffer true (acts (sets [lit "a"; lit "b"])) (world 3 2) term0))) (set_titles (lit "shell") [] (emu0 3 2)))
    = lit "shell".
Proof.
  split.
  { repeat apply Forall_cons; [| |intros v s|constructor]; cbn [fair].
    - split; [discriminate|]. split; cbn; intuition discriminate.
    - exact I.
    - unfold write_control, stream_write. destruct (te_fail v (t_writes s)).
      + eexists _, _, []. split; [reflexivity|]. split; [reflexivity|]. split; [cbn; now rewrite app_nil_r|]. intros m G. auto.
      + eexists _, _, [10]. split; [reflexivity|]. split; [reflexivity|]. split; [reflexivity|]. intros m G.
        cbn [vt fold_left]. unfold feed1. rewrite G. cbn. unfold line_feed. destruct (_ <? _); cbn; auto. }
  split; [exact I|]. split; [reflexivity|]. split; [|vm_compute; reflexivity].
  repeat constructor; try discriminate; cbn; intuition discriminate.
Qed.

(** ** C47 *)
(** False in every case: after a failed draw the next one sends nothing but a reset *)
Theorem C47_lost_refuted : forall redraw v s s' x, draw redraw v s = (s', Err x) ->
  t_out s' = t_out s /\ sc_cells (t_screen s') = sc_cells (t_screen s) /\
  forall v', te_file_ok v' = true -> te_fail v' (t_writes s') = false ->
    exists s'', draw false v' s' = (s'', Ok tt) /\ t_out s'' = t_out s ++ RESET.
Proof. exact draw_lost. Qed.
Print Assumptions C47_lost_refuted.
(** A full redraw still sends all it would have sent *)
Theorem C47_redraw_partial : forall redraw v s s' x, draw redraw v s = (s', Err x) -> forall v',
  te_file_ok v' = true -> te_fail v' (t_writes s') = false ->
  exists s'', draw true v' s' = (s'', Ok tt) /\ t_out s'' = t_out s ++ fst (render (t_screen s) (t_origin s) true).
Proof. exact redraw_recovers. Qed.
Print Assumptions C47_redraw_partial.
Theorem C47_success : forall redraw v s, te_file_ok v = true -> te_fail v (t_writes s) = false ->
  exists s', draw redraw v s = (s', Ok tt) /\ t_out s' = t_out s ++ fst (render (t_screen s) (t_origin s) redraw) /\
    t_screen s' = snd (render (t_screen s) (t_origin s) redraw).
Proof. exact draw_delivers. Qed.
Print Assumptions C47_success.
Example C47_ex : snd (draw false (mkTenv (3, 2) shell0 (fun x _ => x) (fun _ => false) false true) term0) = Err OSError /\
  snd (draw false (mkTenv (3, 2) shell0 (fun x _ => x) (fun n => Nat.eqb n 0) true true) term0) = Err OSError /\
  fst (render (t_screen term0) (1, 1) false) <> RESET.
Proof. vm_compute. repeat split; discriminate. Qed.

(** ** C56 *)
(** A color object answers for ever in the space of the first time it was asked *)
Theorem C56_first : forall e es c, reads (e :: es) (mkObj c None) = repeat (color_ansi e c) (S (List.length es)).
Proof. exact reads_first. Qed.
Print Assumptions C56_first.
(** ... whatever space has been forced since *)
Theorem C56_forced_later : exists c e e', env_cs e = TRUE_COLOR /\ env_cs e' = STANDARD /\
  reads [e; e'] (mkObj c None) = [lit "38;2;255;0;0"; lit "38;2;255;0;0"] /\ color_ansi e' c = lit "31".
Proof.
  exists (mkColor (255, 0, 0) false fone TRUE_COLOR None), {| env_cs := TRUE_COLOR; env_pow := fun x _ => x |},
    {| env_cs := STANDARD; env_pow := fun x _ => x |}.
  split; [reflexivity|]. split; [reflexivity|]. split; vm_compute; reflexivity.
Qed.
Print Assumptions C56_forced_later.

(** The terminal's color space is the last one set, or the detected one when that was None; every
    setting is announced, and nothing else changes *)
Theorem C56_setting : forall l v s, let s' := fold_left (fun s c => fst (set_color_space c v s)) l s in
  (l <> [] -> color_space v s' = match last l None with Some c => Ok c | None => get_color_space (te_shell v) end) /\
  t_cslog s' = t_cslog s ++ l /\ t_out s' = t_out s /\ t_screen s' = t_screen s /\ t_cache s' = t_cache s /\ t_bgcol s' = t_bgcol s.
Proof. exact settings_last. Qed.
Print Assumptions C56_setting.
(** ... and what is written next is written in it *)
Theorem C56_written : forall c l p force v s tb, as_background (t_bgcol s) true None = Ok tb ->
  let s' := fst (set_color_space (Some c) v s) in
  let '(sc, ch, r) := write {| env_cs := c; env_pow := te_pow v |} (t_cache s) (t_screen s) l (Some p) tb force in
  twrite (PSpans l) (Some p) force v s' = (set_screen sc ch s', r).
Proof. exact written_in. Qed.
Print Assumptions C56_written.
Example C56_ex : let s' := fold_left (fun s c => fst (set_color_space c (world 3 2) s)) [Some NO_COLOR; Some STANDARD] term0 in
  color_space (world 3 2) s' = Ok STANDARD /\ t_cslog s' = [Some NO_COLOR; Some STANDARD] /\
  exists tb, as_background (t_bgcol term0) true None = Ok tb.
Proof. split; [reflexivity|]. split; [reflexivity|]. eexists. reflexivity. Qed.

(** ** C61 *)
(** Leaving an inner manager undoes the outer one: echo is on, the alternate buffer and mouse reporting
    are off while the outer block still runs *)
Theorem C61_echo_refuted : forall A (body : M A) v s s2 a, te_stdin_tty v = true -> body v (set_echo_flag false s) = (s2, Ok a) ->
  exists s3, no_echo (no_echo body ;; echoing) v s = (s3, Ok true).
Proof. exact inner_echo. Qed.
Print Assumptions C61_echo_refuted.
Theorem C61_modes_refuted : forall A m n b (body : M A) v s s2 r t, calm v -> In (n, b) (left_modes m) ->
  (enter m ;; enter m ;; body) v s = (s2, r) -> osc_closed (vt (t_out s2) t) ->
  exists s3, (enter m ;; within m body) v s = (s3, r) /\ mode_of n (e_modes (vt (t_out s3) t)) = Some b.
Proof. exact inner_modes. Qed.
Print Assumptions C61_modes_refuted.
Example C61_ex : te_stdin_tty (world 3 2) = true /\ snd (bell (world 3 2) (set_echo_flag false term0)) = Ok tt /\
  In (1049, false) (left_modes (AltBuffer true)) /\
  osc_closed (vt (t_out (fst ((enter (AltBuffer true) ;; enter (AltBuffer true) ;; bell) (world 3 2) term0))) (emu0 3 2)).
Proof. split; [reflexivity|]. split; [reflexivity|]. split; [now left|]. vm_compute. exact I. Qed.

(** ** C62 *)
(** A stream error on the first closing write loses the others, and the body's exception *)
Theorem C62_refuted : forall A h (body : M A) v s s2 r, (enter (AltBuffer h) ;; body) v s = (s2, r) ->
  te_fail v (t_writes s2) = true ->
  exists s3, alt_buffer h body v s = (s3, Err OSError) /\ t_out s3 = t_out s2.
Proof. exact failing_close. Qed.
Print Assumptions C62_refuted.
Example C62_ex : let v := mkTenv (3, 2) shell0 (fun x _ => x) (fun n => Nat.eqb n 2) true true in
  let s2 := fst ((enter (AltBuffer true) ;; @crash unit) v term0) in
  te_fail v (t_writes s2) = true /\ te_fail v (S (t_writes s2)) = false /\
  mode_of 25 (e_modes (vt (t_out s2) (emu0 3 2))) = Some false.
Proof. vm_compute. auto. Qed.

(** ** C63 *)
(** What batch sends changes no mode: the terminal is never told to synchronize *)
Theorem C63_refuted : forall t n, osc_closed t ->
  mode_of n (e_modes (vt (opening Batch) t)) = mode_of n (e_modes t).
Proof. exact batch_no_mode. Qed.
Print Assumptions C63_refuted.
Example C63_ex : osc_closed (emu0 3 2) /\ mode_of 2026 (e_modes (vt (seq_ "?2026h") (emu0 3 2))) = Some true /\
  mode_of 2026 (e_modes (vt BEGIN_SYNCHRONIZED_UPDATE (emu0 3 2))) = None.
Proof. split; [exact I|]. vm_compute. auto. Qed.

(** ** C64 *)
Theorem C64_answers : forall k, supports_synchronized_update true (Some k) = Ok true <-> In k sync_answers.
Proof. exact sync_spec. Qed.
Print Assumptions C64_answers.
Theorem C64_silent : forall tty, supports_synchronized_update tty None = Ok false.
Proof. exact sync_silent. Qed.
Print Assumptions C64_silent.
(** no exception, unless the answer has two semicolons in its last sequence *)
Theorem C64_total : forall k, keyboard k ->
  exists b, supports_synchronized_update true (Some k) = Ok b /\ (b = true <-> In k sync_answers).
Proof. exact sync_keyboard. Qed.
Print Assumptions C64_total.
Theorem C64_garbled : exists k, supports_synchronized_update true (Some k) = Err KeyError.
Proof. exists (seq_ "?2026;1;1$y"). vm_compute. reflexivity. Qed.
Print Assumptions C64_garbled.
(** on a terminal that reports its modes: True exactly when it knows mode 2026 as one that can be
    set and reset *)
Theorem C64_query : forall answer state v s, reports answer state -> te_fail v (t_writes s) = false ->
  snd (query_synchronized_update true answer v s) = Ok ((state 2026 =? 1) || (state 2026 =? 2)) /\
  t_out (fst (query_synchronized_update true answer v s)) = t_out s ++ mode_request 2026.
Proof. exact sync_query. Qed.
Print Assumptions C64_query.
(** such a terminal: one all of whose modes are reset *)
Fixpoint up_to (c : Z) (l : str) : str := match l with [] => [] | a :: r => if a =? c then [] else a :: up_to c r end.
Definition all_reset (sent : str) : option str := Some (seq_ "?" ++ rev (skipn 2 (up_to 63 (rev sent))) ++ lit ";2$y").
Example C64_query_ex : reports all_reset (fun _ => 2) /\ te_fail (world 3 2) (t_writes term0) = false.
Proof.
  split; [|reflexivity]. split; [lia|]. intros out n. unfold all_reset, mode_request, mode_report, seq_. do 2 f_equal. cbn [lit app].
  rewrite rev_app_distr. cbn [rev]. rewrite rev_app_distr. cbn [rev app lit]. rewrite <- !app_assoc. cbn [app].
  assert (E : forall l r, ~ In 63 l -> up_to 63 (l ++ 63 :: r) = l).
  { induction l as [|a l IH]; intros r H; cbn [app up_to]; [reflexivity|]. destruct (Z.eqb_spec a 63); [destruct H; now left|].
    rewrite IH; [reflexivity|]. intro; apply H; now right. }
  change (rev (lit "?")) with [63]. cbn [app]. rewrite E.
  - rewrite rev_app_distr. change (rev (lit "$p")) with [112; 36]. cbn [app skipn]. rewrite rev_involutive. reflexivity.
  - intro H. apply in_rev, in_app_iff in H. destruct H as [H|H]; [apply ColorProofs2.dec_chars in H; lia|]. vm_compute in H. intuition discriminate.
Qed.
Example C64_ex : keyboard (lit "q") /\ In (seq_ "?2026;2$y") sync_answers.
Proof. split; [apply keyboard_few; vm_compute; reflexivity|right; left; reflexivity]. Qed.

(** ** C65 *)
(** A string given to write is written as the spans it parses to *)
Theorem C65_write : forall t cursor force v s, twrite (PStr t) cursor force v s =
  match parse_line t with
  | Ok l => twrite (PSpans l) cursor force v s
  | Err x => match color_env v s, as_background (t_bgcol s) true None, cursor with
             | Ok _, Ok _, Some _ => (s, Err x)
             | Err y, _, _ => (s, Err y)
             | _, Err y, _ => (s, Err y)
             | _, _, None => (s, Err TypeError)
             end
  end.
Proof. exact write_string. Qed.
Print Assumptions C65_write.
(** ... but no non-empty string given to write_bulk is *)
Theorem C65_bulk : forall p c t rest force v s e tb, color_env v s = Ok e -> as_background (t_bgcol s) true None = Ok tb ->
  twrite_bulk ((p, PStr (c :: t)) :: rest) force v s = (s, Err AttributeError).
Proof. exact bulk_string. Qed.
Print Assumptions C65_bulk.
(** ... while spans are, all of them, together *)
Theorem C65_bulk_spans : forall data force v s e tb, color_env v s = Ok e -> as_background (t_bgcol s) true None = Ok tb ->
  twrite_bulk (map (fun d => (fst d, PSpans (snd d))) data) force v s =
  let '(sc, ch, r) := write_bulk e (t_cache s) (t_screen s) data tb force in (set_screen sc ch s, r).
Proof. exact bulk_is_bulk. Qed.
Print Assumptions C65_bulk_spans.
(** ... an empty string is as if it were not there ... *)
Theorem C65_bulk_empty : forall a p b force v s, twrite_bulk (a ++ (p, PStr []) :: b) force v s = twrite_bulk (a ++ b) force v s.
Proof. exact bulk_empty. Qed.
Print Assumptions C65_bulk_empty.
(** ... and any other, wherever it stands, makes the write raise and leaves nothing more to draw *)
Theorem C65_bulk_anywhere : forall a p c t b force v s,
  (exists x, snd (twrite_bulk (a ++ (p, PStr (c :: t)) :: b) force v s) = Err x) /\
  sc_buf (t_screen (fst (twrite_bulk (a ++ (p, PStr (c :: t)) :: b) force v s))) = sc_buf (t_screen s).
Proof. exact bulk_string_anywhere. Qed.
Print Assumptions C65_bulk_anywhere.
Example C65_ex : (exists l, parse_line (lit "abc") = Ok l) /\ (exists e, color_env (world 3 2) term0 = Ok e) /\
  exists tb, as_background (t_bgcol term0) true None = Ok tb.
Proof. split; [eexists; vm_compute; reflexivity|]. split; [eexists; reflexivity|eexists; reflexivity]. Qed.

(** ** C96 *)
(** Ringing the bell and turning the cursor and the mouse on and off, in any order: the terminal
    rings as often as asked, each mode is what was last asked for, and nothing else changes *)
Theorem C96_controls : forall l v s t, calm v -> e_parse (vt (t_out s) t) = PGround ->
  let run := fold_right (fun c k => match c with Ring => bell | ShowCursor b => show_cursor b | Mouse b => set_report_mouse b end ;; k) (retM tt) l v s in
  let s' := fst run in
  snd run = Ok tt /\ same_object s s' /\ t_echo s' = t_echo s /\
  same_but_modes (vt (t_out s) t) (vt (t_out s') t) /\
  (forall n, mode_of n (e_modes (vt (t_out s') t)) = mode_after l n (mode_of n (e_modes (vt (t_out s) t)))) /\
  rung (t_out s') t = rung (t_out s) t + rings l.
Proof. exact controls_exact. Qed.
Print Assumptions C96_controls.
Example C96_ex : calm (world 3 2) /\ e_parse (vt (t_out term0) (emu0 3 2)) = PGround /\
  let l := [Mouse true; Ring; ShowCursor false; Ring; Mouse false; ShowCursor true] in
  rings l = 2 /\ mode_after l 1003 None = Some false /\ mode_after l 25 None = Some true /\ mode_after l 1049 None = None.
Proof. repeat split. Qed.
