(** C48-C53: mouse reports, keys, feeding, reading, terminal replies (core.py, terminal.py). *)
From Coq Require Import ZArith List Bool String Lia.
From Verif Require Import PyBase F64 SpaceModel ColorModel ColorSpec KeyTab CoreModel KeySpec NumSpec KeyProofs KeyProofs2 KeyProofs3 NumProofs3.
Open Scope Z_scope.

(** ** C48 *)
(** Every SGR report whose button the specification supports decodes to its event; the others raise
    KeyError, for example a middle click (C48_middle_click). *)
Theorem C48_reports : forall n x y final, 0 <= n -> ~ In 59 x -> ~ In 59 y -> final <> 59 ->
  parse_mouse_event (mouse_report (dec n) x y final) =
  match mouse_event n (final =? 77) with
  | Some ev => Ok (Some (event_text ev x y))
  | None => Err KeyError
  end.
Proof. exact parse_report. Qed.
Print Assumptions C48_reports.

(** All other input: not three fields gives None; three fields are looked up by the first one. *)
Theorem C48_any_input : forall code,
  (count_char 59 code <> 2 /\ parse_mouse_event code = Ok None) \/
  exists lead event x y, code = lead ++ event ++ [59] ++ x ++ [59] ++ y /\
    ~ In 59 event /\ ~ In 59 x /\ ~ In 59 y /\ (forall c, In c lead -> In c [27; 91; 60]) /\
    match event with [] => True | c :: _ => ~ In c [27; 91; 60] end /\
    match rev y with
    | [] => parse_mouse_event code = Err IndexError
    | final :: ry => mouse_reading event x (rev ry) final (parse_mouse_event code)
    end.
Proof. exact parse_mouse_spec. Qed.
Print Assumptions C48_any_input.

(** A middle click raises. *)
Theorem C48_middle_click : exists x y, parse_mouse_event (mouse_report (dec 1) x y 77) = Err KeyError.
Proof. exists (dec 5), (dec 7). vm_compute. reflexivity. Qed.
Print Assumptions C48_middle_click.

Example C48_ex : parse_mouse_event (mouse_report (dec 22) (dec 10) (dec 3) 109)
  = Ok (Some (lit "mouse:shift_ctrl_right_release@10;3")).
Proof. vm_compute. reflexivity. Qed.
Example C48_ex2 : mouse_event 43 true = Some (lit "option_hover") /\ mouse_event 68 false = Some (lit "shift_scroll_up").
Proof. vm_compute. auto. Qed.

(** ** C49 *)
Theorem C49_raw : forall k, decode_key true k = Ok [k].
Proof. reflexivity. Qed.
Print Assumptions C49_raw.

(** Sequences of the table give all their names, the first being the canonical one. *)
Theorem C49_named : forall k names, dict_get POSIX_KEY_NAMES k = Some names ->
  decode_key false k = Ok names /\ (forall n, In n names -> key_eqb_str names n = true) /\
  exists first, key_str names = Ok first /\ In first names.
Proof. exact decode_known. Qed.
Print Assumptions C49_named.

Theorem C49_ctrl_letters : forall c, 97 <= c <= 122 ->
  exists k, decode_key false [c - 96] = Ok k /\ key_eqb_str k (lit "ctrl-" ++ [c]) = true.
Proof. exact ctrl_letters. Qed.
Print Assumptions C49_ctrl_letters.

(** Anything else comes back verbatim, provided the text after the last escape is not of three
    fields; such text is decoded (or fails) as a mouse report (C49_report_decoded, C49_raises). *)
Theorem C49_verbatim : forall k, keyboard k -> dict_get POSIX_KEY_NAMES k = None -> decode_key false k = Ok [k].
Proof. exact decode_plain. Qed.
Print Assumptions C49_verbatim.

(** A mouse report is decoded, but everything typed before it is dropped. *)
Theorem C49_report_decoded : forall before n x y final, 0 <= n -> ~ In 59 x -> ~ In 59 y -> ~ In ESC x -> ~ In ESC y ->
  final <> 59 -> final <> ESC ->
  decode_key false (before ++ mouse_report (dec n) x y final) =
  match mouse_event n (final =? 77) with
  | Some ev => Ok [event_text ev x y]
  | None => Err KeyError
  end.
Proof. exact decode_report. Qed.
Print Assumptions C49_report_decoded.

Theorem C49_lost : exists typed report k, decode_key false report = Ok k /\ decode_key false (typed ++ report) = Ok k /\
  typed <> [].
Proof.
  exists (lit "abc"), (mouse_report (dec 0) (dec 3) (dec 4) 77), [lit "mouse:left_click@3;4"].
  split; [vm_compute; reflexivity|]. split; [vm_compute; reflexivity|discriminate].
Qed.
Print Assumptions C49_lost.

(** Pasting "a;b;c" raises. *)
Theorem C49_raises : exists k, ~ In ESC k /\ decode_key false k = Err KeyError.
Proof. exists (lit "a;b;c"). split; [vm_compute; intuition discriminate|vm_compute; reflexivity]. Qed.
Print Assumptions C49_raises.

(** CSI H, the Home key, is named "end". *)
Theorem C49_home_end : decode_key false ([ESC; 91] ++ lit "H") = Ok [lit "end"] /\
  decode_key false ([ESC; 91] ++ lit "F") = Ok [lit "home"].
Proof. split; vm_compute; reflexivity. Qed.
Print Assumptions C49_home_end.

Example C49_ex_verbatim : keyboard (lit "hi; there") /\ dict_get POSIX_KEY_NAMES (lit "hi; there") = None.
Proof. split; [apply keyboard_few; vm_compute; reflexivity|vm_compute; reflexivity]. Qed.
Example C49_ex_tab : decode_key false [9] = Ok [lit "tab"; lit "ctrl-i"].
Proof. vm_compute. reflexivity. Qed.

(** ** C50 *)
(** Fed text is returned, in order and before any terminal input, if each feed is read before the
    next one; otherwise the later one overwrites (C50_second_feed). *)
Theorem C50_in_turn : forall M (cb : M -> M) mode eof input ts, Forall (fun t => t <> []) ts ->
  feed_session cb mode sio_empty eof input ts = (sio_empty, map (fun t => Returned (Ok t)) ts).
Proof. exact feed_session_spec. Qed.
Print Assumptions C50_in_turn.

(** Feeding twice overwrites the beginning of what was fed first. *)
Theorem C50_second_feed : forall t1 t2,
  sio_text (feed t2 (feed t1 sio_empty)) = t2 ++ skipn (List.length t2) t1 /\ sio_pos (feed t2 (feed t1 sio_empty)) = 0.
Proof. exact feed_twice. Qed.
Print Assumptions C50_second_feed.

Theorem C50_overwritten : exists t1 t2,
  let '(s, _, o) := getch_posix (fun m : bool => m) false None (feed t2 (feed t1 sio_empty)) false [] in
  o = Returned (Ok (lit "cb")) /\ s = sio_empty /\ t1 = lit "ab" /\ t2 = lit "c".
Proof. exists (lit "ab"), (lit "c"). vm_compute. auto. Qed.
Print Assumptions C50_overwritten.
Example C50_ex : sio_text (feed (lit "c") (feed (lit "ab") sio_empty)) = lit "cb".
Proof. reflexivity. Qed.
Example C50_ex_turns : Forall (fun t : str => t <> []) [lit "ab"; lit "c"].
Proof. repeat constructor; discriminate. Qed.

(** ** C51 *)
(** All characters whose bytes have arrived are returned in one read, and the mode is restored. *)
Theorem C51_reads : forall M (cb : M -> M) mode raw cs, cs <> [] -> Forall scalar cs ->
  getch cb mode true raw None sio_empty false (flat_map utf8 cs) = (sio_empty, mode, Returned (decode_key raw cs)).
Proof. exact getch_reads. Qed.
Print Assumptions C51_reads.

(** A character is never split: its remaining bytes are waited for. *)
Theorem C51_waits : forall M (cb : M -> M) mode raw cs c p r, Forall scalar cs -> scalar c -> utf8 c = p ++ r ->
  p <> [] -> r <> [] ->
  snd (getch cb mode true raw None sio_empty false (flat_map utf8 cs ++ p)) = Waits.
Proof. exact getch_waits. Qed.
Print Assumptions C51_waits.

(** The mode is restored whenever getch returns, unless it was interrupted between setcbreak and
    the try block. *)
Theorem C51_mode : forall M (cb : M -> M) mode tty raw intr s eof input s' mode' k,
  intr <> Some BeforeTry -> getch cb mode tty raw intr s eof input = (s', mode', Returned k) -> mode' = mode.
Proof. exact getch_mode. Qed.
Print Assumptions C51_mode.

Theorem C51_interrupt : forall M (cb : M -> M) mode m s eof input, sio_text s = [] ->
  snd (getch cb mode true false (Some m) s eof input) = Returned (Ok [lit "ctrl-c"]).
Proof. exact getch_interrupted. Qed.
Print Assumptions C51_interrupt.

Theorem C51_mode_lost : exists k : key,
  getch (fun _ : bool => true) false true false (Some BeforeTry) sio_empty false [] = (sio_empty, true, Returned (Ok k)).
Proof. eexists. vm_compute. reflexivity. Qed.
Print Assumptions C51_mode_lost.

(** After the end of input no read ever returns. *)
Theorem C51_end_spins : forall M (cb : M -> M) mode raw input,
  snd (getch cb mode true raw None sio_empty true input) = Spins.
Proof. exact getch_eof. Qed.
Print Assumptions C51_end_spins.

(** A stray lead byte makes the decoder reject the valid characters after it. *)
Theorem C51_stray : exists input, input = 195 :: flat_map utf8 (lit "Ab") /\
  read_burst false input = Returned (lit "b'A'b'b'").
Proof. eexists. split; [reflexivity|]. vm_compute. reflexivity. Qed.
Print Assumptions C51_stray.

Example C51_ex : flat_map utf8 [97; 233; 8364; 128512] = [97; 195; 169; 226; 130; 172; 240; 159; 152; 128] /\
  Forall scalar [97; 233; 8364; 128512].
Proof. split; [reflexivity|]. repeat constructor; unfold scalar; lia. Qed.
Example C51_ex_split : utf8 233 = [195] ++ [169]. Proof. reflexivity. Qed.

(** ** C52 *)
Theorem C52_silent : forall tty stdin_tty fb, resolution tty stdin_tty fb None = Ok fb.
Proof. exact resolution_silent. Qed.
Print Assumptions C52_silent.

(** The claim fails for every well formed answer: it is taken for a mouse report. *)
Theorem C52_answer_ignored : forall fb h w, 0 <= h -> 0 <= w ->
  resolution true true fb (Some (pixel_answer (dec h) (dec w))) = Ok fb.
Proof. exact resolution_ignored. Qed.
Print Assumptions C52_answer_ignored.

Theorem C52_answer_refuted : exists fb h w, (w, h) <> fb /\
  resolution true true fb (Some (pixel_answer (dec h) (dec w))) = Ok fb.
Proof. exists (1280, 720), 600, 800. split; [discriminate|]. apply resolution_ignored; lia. Qed.
Print Assumptions C52_answer_refuted.

(** Only an answer followed by more text, so that it no longer is of three fields, is used. *)
Theorem C52_answer_partial : forall fb k, keyboard k ->
  (forall h w dh dw tail, h <> [] -> w <> [] -> Forall2 digit_of h dh -> Forall2 digit_of w dw -> k = pixel_answer h w ++ tail ->
     resolution true true fb (Some k) = Ok (value 10 dw, value 10 dh)) /\
  ((forall h w dh dw tail, h <> [] -> w <> [] -> Forall2 digit_of h dh -> Forall2 digit_of w dw -> k <> pixel_answer h w ++ tail) ->
     resolution true true fb (Some k) = Ok fb).
Proof. exact resolution_numbers. Qed.
Print Assumptions C52_answer_partial.

(** A garbled answer may raise. *)
Theorem C52_garbled_refuted : exists k, resolution true true (1280, 720) (Some k) = Err KeyError.
Proof. exists ([ESC; 91] ++ lit "?1;2;3c"). vm_compute. reflexivity. Qed.
Print Assumptions C52_garbled_refuted.

Example C52_ex : keyboard (pixel_answer (dec 600) (dec 800) ++ lit ";") /\
  resolution true true (1, 1) (Some (pixel_answer (dec 600) (dec 800) ++ lit ";")) = Ok (800, 600).
Proof.
  split; [|vm_compute; reflexivity]. intros a t [E|E] N.
  - assert (A : a = []).
    { destruct a as [|x a]; auto. exfalso. assert (I : In ESC (tl (pixel_answer (dec 600) (dec 800) ++ lit ";"))).
      { rewrite E. simpl. apply in_app_iff. right. now left. }
      vm_compute in I. repeat (destruct I as [I|I]; [discriminate|]). destruct I. }
    subst a. injection E as E. subst t. vm_compute. discriminate.
  - exfalso. apply N. rewrite <- E. now left.
Qed.

(** ** C53 *)
Theorem C53_reply : forall fg layer r g b tail k, (layer = lit "10" \/ layer = lit "11") ->
  channel16 r -> channel16 g -> channel16 b ->
  exists c, get_default_color true fg (Ok ((color_reply layer r g b ++ tail) :: k)) = Ok c /\
    c_rgb c = (high_byte r, high_byte g, high_byte b) /\ c_bg c = false /\ c_alpha c = fone.
Proof. exact get_default_color_reply. Qed.
Print Assumptions C53_reply.

(** getch hands such a reply over unchanged. *)
Theorem C53_reply_read : forall layer r g b, (layer = lit "10" \/ layer = lit "11") ->
  channel16 r -> channel16 g -> channel16 b -> decode_key false (color_reply layer r g b) = Ok [color_reply layer r g b].
Proof. exact color_reply_read. Qed.
Print Assumptions C53_reply_read.

Theorem C53_other : forall tty fg reply,
  (tty = false \/ (exists e, reply = Err e) \/
   (exists s k, reply = Ok (s :: k) /\ forall layer r g b tail, (layer = lit "10" \/ layer = lit "11") ->
      channel16 r -> channel16 g -> channel16 b -> s <> color_reply layer r g b ++ tail)) ->
  get_default_color tty fg reply = default_color fg.
Proof. exact get_default_color_other. Qed.
Print Assumptions C53_other.

Theorem C53_default : forall fg, exists c, default_color fg = Ok c /\ c_bg c = false /\ c_alpha c = fone /\
  c_rgb c = if fg then (222, 222, 222) else (20, 20, 20).
Proof. exact default_color_spec. Qed.
Print Assumptions C53_default.

Theorem C53_total : forall tty fg raw t,
  exists c, get_default_color tty fg (decode_key raw t) = Ok c /\ color_ok c /\ c_bg c = false /\ c_alpha c = fone.
Proof. exact get_default_color_total. Qed.
Print Assumptions C53_total.

Example C53_ex : channel16 (lit "ff80") /\ high_byte (lit "ff80") = 255.
Proof.
  split; [|reflexivity]. exists 102, 102, 56, 48. split; [reflexivity|]. unfold lower_hex. lia.
Qed.
