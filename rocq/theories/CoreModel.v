(** core.py: width, mouse and key decoding, the feeder, the POSIX read loop, terminal
    replies.  Definitions only (no proofs). *)
From Coq Require Import ZArith List Bool String.
From Verif Require Import PyBase F64 SpaceModel ColorTab ColorModel AnsiRe SpanModel KeyTab.
Open Scope Z_scope.

(** core.py:169-180 width, on a string and on a Span *)
Definition width_str (t : str) : Z := zlen (strip_ansi t).
Definition width_span (s : span) : Z := zlen (s_text s).

(** core.py:51-60 *)
Definition MODIFIERS : list str :=
  [ []; lit "shift_"; lit "option_"; lit "shift_option_"; lit "ctrl_"; lit "shift_ctrl_";
    lit "ctrl_option_"; lit "shift_ctrl_option_" ].

(** core.py:86-126 _build_event; [base] advances by 4 per modifier *)
Fixpoint build_event_from (name : str) (base : Z) (has_alternate : bool) (mods : list str)
  : list (str * str) :=
  match mods with
  | [] => []
  | modifier :: rest =>
      (if has_alternate
       then [ (dec base, modifier ++ lit "left_" ++ name);
              (dec (base + 2), modifier ++ lit "right_" ++ name) ]
       else [ (dec base, modifier ++ name) ])
      ++ build_event_from name (base + 4) has_alternate rest
  end.
Definition build_event (name : str) (base : Z) (has_alternate : bool) : list (str * str) :=
  build_event_from name base has_alternate MODIFIERS.

(** core.py:130-142 MOUSE_EVENTS (sorting does not affect lookups) *)
Definition MOUSE_EVENTS : list (str * str) :=
  build_event (lit "click") 0 true ++ build_event (lit "drag") 32 true
  ++ build_event (lit "hover") 35 false ++ build_event (lit "scroll_up") 64 false
  ++ build_event (lit "scroll_down") 65 false ++ build_event (lit "scroll_left") 66 false
  ++ build_event (lit "scroll_right") 67 false.

Definition is_mouse_lead (c : Z) : bool := (c =? ESC) || (c =? 91) || (c =? 60).

(** core.py:305-332 parse_mouse_event *)
Definition parse_mouse_event (code : str) : res (option str) :=
  if str_eqb code [ESC] || negb (count_char 59 code =? 2) then Ok None
  else
    match split_on 59 (lstrip_by is_mouse_lead code) with
    | [event; posx; posy_pressed] =>
        let posy := slice None (Some (-1)) posy_pressed in
        let* lst := index (-1) posy_pressed in
        let pressed := str_eqb lst (lit "M") in
        match dict_get MOUSE_EVENTS event with
        | None => Err KeyError
        | Some name =>
            let name := if pressed then name else replace (lit "click") (lit "release") name in
            Ok (Some (lit "mouse:" ++ name ++ lit "@" ++ posx ++ lit ";" ++ posy))
        end
    | _ => Err ValueError                          (* unpacking *)
    end.

(** core.py:62-83 Key *)
Definition key := list str.
Definition key_eqb_str (k : key) (other : str) : bool := str_in other k.
Definition key_str (k : key) : res str :=
  match k with v :: _ => Ok v | [] => Err IndexError end.

(** core.py:521-527: what getch (POSIX) makes of the characters read *)
Definition decode_key (raw : bool) (k : str) : res key :=
  if raw then Ok [k]
  else
    let* m := parse_mouse_event (ESC :: last_of (split_on ESC k)) in
    match m with
    | Some ev => Ok [ev]                           (* events are never empty strings *)
    | None => match dict_get POSIX_KEY_NAMES k with
              | Some names => Ok names
              | None => Ok [k]
              end
    end.

(** core.py:505-511: NT *)
Definition decode_key_nt (raw : bool) (k : str) : key :=
  if raw then [k]
  else match dict_get NT_KEY_NAMES k with Some names => names | None => [k] end.

(** io.StringIO: the text and the position; [write] overwrites from the position (and
    extends; the position never exceeds the length here) *)
Record stringio := mkSio { sio_text : str; sio_pos : Z }.
Definition sio_empty : stringio := mkSio [] 0.
Definition sio_write (t : str) (s : stringio) : stringio :=
  let p := Z.to_nat (sio_pos s) in
  mkSio (firstn p (sio_text s) ++ t ++ skipn (p + List.length t) (sio_text s))
        (sio_pos s + zlen t).
Definition sio_seek (p : Z) (s : stringio) : stringio := mkSio (sio_text s) p.
Definition sio_truncate (n : Z) (s : stringio) : stringio :=
  mkSio (firstn (Z.to_nat n) (sio_text s)) (sio_pos s).

(** core.py:378-385 feed *)
Definition feed (t : str) (s : stringio) : stringio := sio_seek 0 (sio_write t s).

(** CPython's utf-8 incremental decoder fed one byte at a time.  The buffer holds an
    incomplete sequence; on an error the buffer is left as it was (codecs.py
    BufferedIncrementalDecoder assigns it after decoding).  [None]: UnicodeDecodeError.  The first
    two bytes of an encoded surrogate (ED A0..BF) count as incomplete, since the error handler
    "surrogatepass" would need the third (CPython, unicode_decode_utf8). *)
Definition is_cont (b : Z) : bool := (128 <=? b) && (b <=? 191).
Definition second_ok (b1 b2 : Z) : bool :=
  is_cont b2 &&
  (if b1 =? 224 then 160 <=? b2
   else if b1 =? 237 then b2 <=? 159
   else if b1 =? 240 then 144 <=? b2
   else if b1 =? 244 then b2 <=? 143
   else true).
Definition begins_surrogate (b1 b2 : Z) : bool := (b1 =? 237) && (160 <=? b2) && (b2 <=? 191).
Definition utf8_step (buf : list Z) (b : Z) : option (str * list Z) :=
  match buf ++ [b] with
  | [b1] =>
      if b1 <? 128 then Some ([b1], [])
      else if (194 <=? b1) && (b1 <=? 244) then Some ([], [b1])
      else None
  | [b1; b2] =>
      if b1 <=? 223 then
        if is_cont b2 then Some ([(b1 - 192) * 64 + (b2 - 128)], []) else None
      else if second_ok b1 b2 || begins_surrogate b1 b2 then Some ([], [b1; b2]) else None
  | [b1; b2; b3] =>
      if b1 <=? 239 then
        if is_cont b3 && negb (begins_surrogate b1 b2)
        then Some ([((b1 - 224) * 64 + (b2 - 128)) * 64 + (b3 - 128)], []) else None
      else if is_cont b3 then Some ([], [b1; b2; b3]) else None
  | [b1; b2; b3; b4] =>
      if is_cont b4
      then Some ([(((b1 - 240) * 64 + (b2 - 128)) * 64 + (b3 - 128)) * 64 + (b4 - 128)], [])
      else None
  | _ => None
  end.

(** [str(bytes([b]))] *)
Definition hex_lower (d : Z) : Z := if d <? 10 then 48 + d else 87 + d.
Definition byte_repr (b : Z) : str :=
  if b =? 39 then lit "b""'"""
  else
    lit "b'" ++
    (if b =? 92 then [92; 92]
     else if b =? 9 then [92; 116]
     else if b =? 10 then [92; 110]
     else if b =? 13 then [92; 114]
     else if (32 <=? b) && (b <? 127) then [b]
     else [92; 120; hex_lower (b / 16); hex_lower (b mod 16)]) ++ lit "'".

(** What reading comes to: text, waiting for more input, or an endless loop *)
Inductive outcome (A : Type) :=
| Returned (a : A)
| Waits
| Spins.
Arguments Returned {A} a.
Arguments Waits {A}.
Arguments Spins {A}.

(** core.py:410-423 [_read(1)] on the bytes that have arrived.  When they have run out, the call
    blocks in os.read; after the end of file os.read returns b"" each time, the decoder returns
    "", and the loop never ends. *)
Fixpoint read1 (eof : bool) (buf : list Z) (input : list Z) : outcome (str * list Z * list Z) :=
  match input with
  | [] => if eof then Spins else Waits
  | b :: rest =>
      match utf8_step buf b with
      | None => Returned (byte_repr b, buf, rest)
      | Some ([], buf') => read1 eof buf' rest
      | Some (t, buf') => Returned (t, buf', rest)
      end
  end.

(** core.py:438-439: read while the descriptor is ready (at end of file it always is).  [fuel]
    bounds the number of [_read] calls; each consumes a byte, so the number of bytes suffices. *)
Fixpoint read_ready (fuel : nat) (eof : bool) (acc : str) (buf input : list Z) : outcome str :=
  match input with
  | [] => if eof then Spins else Returned acc
  | _ => match fuel with
         | O => Spins
         | S f => match read1 eof buf input with
                  | Returned (t, buf', rest) => read_ready f eof (acc ++ t) buf' rest
                  | Waits => Waits
                  | Spins => Spins
                  end
         end
  end.
Definition read_burst (eof : bool) (input : list Z) : outcome str :=
  match read1 eof [] input with
  | Returned (t, buf, rest) => read_ready (List.length rest) eof t buf rest
  | Waits => Waits
  | Spins => Spins
  end.

(** Where a KeyboardInterrupt may hit _getch_posix: before tcgetattr, after setcbreak but before
    the try, inside the try. *)
Inductive moment := BeforeSetup | BeforeTry | InTry.

(** core.py:425-447 _getch_posix: fed text has priority; otherwise one burst of input: the bytes
    that arrive after tty.setcbreak, which discards those that were waiting (TtyModel.v).  The
    terminal mode is [M]; [cbreak] is what tty.setcbreak makes of it.  Results: the feeder, the
    terminal mode afterwards, and the text or the interrupt. *)
Definition getch_posix {M} (cbreak : M -> M) (mode : M) (interrupt : option moment)
    (s : stringio) (eof : bool) (input : list Z) : stringio * M * outcome (res str) :=
  match sio_text s with
  | [] =>
      match interrupt with
      | Some BeforeSetup => (s, mode, Returned (Err KeyboardInterrupt))
      | Some BeforeTry => (s, cbreak mode, Returned (Err KeyboardInterrupt))
      | Some InTry => (s, mode, Returned (Err KeyboardInterrupt))      (* finally: tcsetattr *)
      | None => match read_burst eof input with
                | Returned t => (s, mode, Returned (Ok t))
                | Waits => (s, cbreak mode, Waits)
                | Spins => (s, cbreak mode, Spins)
                end
      end
  | t => (sio_seek 0 (sio_truncate 0 s), mode, Returned (Ok t))
  end.

(** core.py:485-527 getch on POSIX *)
Definition getch {M} (cbreak : M -> M) (mode : M) (tty raw : bool) (interrupt : option moment)
    (s : stringio) (eof : bool) (input : list Z) : stringio * M * outcome (res key) :=
  if negb tty then (s, mode, Returned (Ok [[]]))
  else
    let '(s', mode', o) := getch_posix cbreak mode interrupt s eof input in
    (s', mode',
     match o with
     | Returned (Ok k) => Returned (decode_key raw k)
     | Returned (Err KeyboardInterrupt) => Returned (decode_key raw [3])
     | Returned (Err e) => Returned (Err e)
     | Waits => Waits
     | Spins => Spins
     end).

(** core.py:158-160 RE_PALETTE_REPLY.match: the three groups *)
Definition is_lhex (c : Z) : bool := is_digit c || ((97 <=? c) && (c <=? 102)).
Definition take_hex4 (s : str) : option (str * str) :=
  if (zlen (firstn 4 s) =? 4) && forallb is_lhex (firstn 4 s)
  then Some (firstn 4 s, skipn 4 s) else None.
Definition take_lit (p s : str) : option str :=
  if startswith p s then Some (skipn (List.length p) s) else None.
Definition palette_reply (s : str) : option (str * str * str) :=
  match take_lit ([ESC; 93]) s with
  | None => None
  | Some s =>
      let s' := match take_lit (lit "10") s with
                | Some r => Some r
                | None => take_lit (lit "11") s
                end in
      match s' with
      | None => None
      | Some s =>
          match take_lit (lit ";rgb:") s with
          | None => None
          | Some s =>
              match take_hex4 s with
              | None => None
              | Some (r, s) =>
                  match take_lit (lit "/") s with
                  | None => None
                  | Some s =>
                      match take_hex4 s with
                      | None => None
                      | Some (g, s) =>
                          match take_lit (lit "/") s with
                          | None => None
                          | Some s =>
                              match take_hex4 s with
                              | None => None
                              | Some (b, s) =>
                                  match take_lit [ESC; 92] s with
                                  | None => None
                                  | Some _ => Some (r, g, b)
                                  end
                              end
                          end
                      end
                  end
              end
          end
      end
  end.

(** core.py:164 DEFAULT_COLOR_DEFAULTS, [fg]: layer "10" *)
Definition default_color (fg : bool) : res color :=
  color_of (DStr (lit (if fg then "#dedede" else "#141414"))).

(** core.py:230-272 get_default_color; [reply] is what the reading thread's getch gave: an
    exception there ends the thread and leaves the initial "" *)
Definition get_default_color (tty : bool) (fg : bool) (reply : res key) : res color :=
  if negb tty then default_color fg
  else
    let* r := match reply with Ok k => key_str k | Err _ => Ok [] end in
    match palette_reply r with
    | None => default_color fg
    | Some (r, g, b) =>
        color_of (DStr (lit "#" ++ slice None (Some 2) r ++ slice None (Some 2) g
                        ++ slice None (Some 2) b))
    end.

(** The longest run of digits *)
Fixpoint take_digits (s : str) : str * str :=
  match s with
  | [] => ([], [])
  | c :: t => if is_decimal c then let '(a, b) := take_digits t in (c :: a, b) else ([], s)
  end.

(** terminal.py:40 RE_PIXEL_SIZE.match *)
Definition pixel_reply (s : str) : option (str * str) :=
  match take_lit ([ESC; 91] ++ lit "4;") s with
  | None => None
  | Some s =>
      match take_digits s with
      | ([], _) => None
      | (h, s) =>
          match take_lit (lit ";") s with
          | None => None
          | Some s =>
              match take_digits s with
              | ([], _) => None
              | (w, s) => match take_lit (lit "t") s with Some _ => Some (h, w) | None => None end
              end
          end
      end
  end.

(** terminal.py:177-207 resolution.  [reply]: the characters that arrived within the timeout,
    [None] if none did. *)
Definition resolution (tty stdin_tty : bool) (fallback : Z * Z) (reply : option str)
  : res (Z * Z) :=
  if negb tty then Ok fallback
  else
    let* output :=
      (match reply with
       | None => Ok ([ESC; 91] ++ lit "4;" ++ join (lit ";") [dec (snd fallback); dec (fst fallback)]
                     ++ lit "t")
       | Some k => let* ks := (if stdin_tty then decode_key false k else Ok [[]]) in key_str ks
       end) in
    match pixel_reply output with
    | Some (h, w) => let* wz := py_int w in let* hz := py_int h in Ok (wz, hz)
    | None => Ok fallback
    end.

(** core.py:145-156 *)
Definition START_ALT_BUFFER : str := [ESC; 91] ++ lit "?1049h".
Definition END_ALT_BUFFER : str := [ESC; 91] ++ lit "?1049l".
Definition SHOW_CURSOR : str := [ESC; 91] ++ lit "?25h".
Definition HIDE_CURSOR : str := [ESC; 91] ++ lit "?25l".
Definition STORE_TITLE : str := [ESC; 91] ++ lit "22;0t".
Definition SET_TITLE (title : str) : str := [ESC] ++ lit "]0;" ++ title ++ [BEL].
Definition RESTORE_TITLE : str := [ESC; 91] ++ lit "23;0t".
Definition QUERY_SYNCHRONIZED_UPDATE : str := [ESC; 91] ++ lit "?2026$p".
Definition BEGIN_SYNCHRONIZED_UPDATE : str := [ESC; 91] ++ lit "?2026$h".
Definition END_SYNCHRONIZED_UPDATE : str := [ESC; 91] ++ lit "?2026$l".
