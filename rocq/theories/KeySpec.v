(** Specification: the SGR (1006) mouse protocol, UTF-8, terminal replies. *)
From Coq Require Import ZArith List Bool String.
From Verif Require Import PyBase CoreModel.
Open Scope Z_scope.

(** Button codes: bits 0-1 the button, 4 shift, 8 option (meta), 16 ctrl, 32 motion, 64 wheel *)
Definition modifiers (n : Z) : str :=
  (if Z.testbit n 2 then lit "shift_" else []) ++
  (if Z.testbit n 4 then lit "ctrl_" else []) ++
  (if Z.testbit n 3 then lit "option_" else []).
Definition action (n : Z) (pressed : bool) : option str :=
  let button := n mod 4 in
  if Z.testbit n 6 then
    if Z.testbit n 5 then None
    else Some (if button =? 0 then lit "scroll_up" else if button =? 1 then lit "scroll_down"
               else if button =? 2 then lit "scroll_left" else lit "scroll_right")
  else if Z.testbit n 5 then
    if button =? 0 then Some (lit "left_drag") else if button =? 1 then None
    else if button =? 2 then Some (lit "right_drag") else Some (lit "hover")
  else
    let verb := if pressed then lit "click" else lit "release" in
    if button =? 0 then Some (lit "left_" ++ verb)
    else if button =? 2 then Some (lit "right_" ++ verb) else None.
(** The event a button code stands for; [None]: not supported *)
Definition mouse_event (n : Z) (pressed : bool) : option str :=
  if (0 <=? n) && (n <? 128) then option_map (app (modifiers n)) (action n pressed) else None.

(** An SGR mouse report: CSI < code ; x ; y followed by M (pressed) or m (released) *)
Definition mouse_report (code x y : str) (final : Z) : str :=
  [27; 91; 60] ++ code ++ [59] ++ x ++ [59] ++ y ++ [final].
Definition event_text (ev x y : str) : str := lit "mouse:" ++ ev ++ lit "@" ++ x ++ lit ";" ++ y.

(** What three fields [event], [x], [y] and a final character are read as *)
Definition mouse_reading (event x y : str) (final : Z) (r : res (option str)) : Prop :=
  (exists n, 0 <= n < 128 /\ event = dec n /\
     r = match mouse_event n (final =? 77) with
         | Some ev => Ok (Some (event_text ev x y))
         | None => Err KeyError
         end) \/
  ((forall n, 0 <= n < 128 -> event <> dec n) /\ r = Err KeyError).

(** Unicode scalar values and their UTF-8 encoding *)
Definition scalar (c : Z) : Prop := 0 <= c < 55296 \/ 57344 <= c < 1114112.
Definition utf8 (c : Z) : list Z :=
  if c <? 128 then [c]
  else if c <? 2048 then [192 + c / 64; 128 + c mod 64]
  else if c <? 65536 then [224 + c / 4096; 128 + c / 64 mod 64; 128 + c mod 64]
  else [240 + c / 262144; 128 + c / 4096 mod 64; 128 + c / 64 mod 64; 128 + c mod 64].

(** Lower case hex *)
Definition lower_hex (c : Z) : Prop := 48 <= c <= 57 \/ 97 <= c <= 102.
Definition hex_num (c : Z) : Z := if c <=? 57 then c - 48 else c - 87.
(** One channel of an OSC 10/11 reply: four hex digits, high byte first *)
Definition channel16 (s : str) : Prop := exists a b c d, s = [a; b; c; d] /\
  lower_hex a /\ lower_hex b /\ lower_hex c /\ lower_hex d.
Definition high_byte (s : str) : Z := hex_num (nth 0 s 0) * 16 + hex_num (nth 1 s 0).
Definition color_reply (layer r g b : str) : str :=
  [27; 93] ++ layer ++ lit ";rgb:" ++ r ++ lit "/" ++ g ++ lit "/" ++ b ++ [27; 92].

(** Text that is no mouse report: three fields after the last escape make one *)
Definition keyboard (k : str) : Prop := forall a t, (k = a ++ ESC :: t \/ k = t) -> ~ In ESC t -> count_char 59 t <> 2.

(** The answer to the pixel size query: CSI 4 ; height ; width t *)
Definition pixel_answer (h w : str) : str := [27; 91] ++ lit "4;" ++ h ++ lit ";" ++ w ++ lit "t".

(** feeding and reading in turn *)
Fixpoint feed_session {M} (cb : M -> M) (mode : M) (s : stringio) (eof : bool) (input : list Z) (ts : list str)
  : stringio * list (outcome (res str)) :=
  match ts with
  | [] => (s, [])
  | t :: r => let '(s1, _, o) := getch_posix cb mode None (feed t s) eof input in
              let '(s2, os) := feed_session cb mode s1 eof input r in (s2, o :: os)
  end.
