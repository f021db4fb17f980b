(** terminal.py (and the caching of Color.ansi, color.py:268-269).  Definitions only. *)
From Coq Require Import ZArith List Bool String.
From Verif Require Import PyBase F64 SpaceModel ColorTab ColorModel AnsiRe SpanModel CoreModel
  ScreenModel.
Open Scope Z_scope.

(** Listeners of on_resize added by the application: note the call, read terminal.size, or
    raise. *)
Inductive listener := LNote (id : Z) | LReadSize | LRaise (n : Z).

(** What the world outside decides during one operation. *)
Record tenv := mkTenv {
  te_size : Z * Z;              (* shutil.get_terminal_size() *)
  te_shell : shell_env;
  te_pow : f64 -> f64 -> f64;
  te_fail : nat -> bool;        (* whether the n-th stream write raises OSError *)
  te_file_ok : bool;            (* whether screen.txt can be written (terminal.py:409) *)
  te_stdin_tty : bool
}.

(** terminal.py:66-76, plus the observable surroundings: everything the stream received, the
    number of writes attempted, the tty's echo flag and the listener calls. *)
Record tstate := mkT {
  t_screen : screen;
  t_cache : ccache;
  t_prev : option (Z * Z);
  t_forced : option colorspace;
  t_title : option str;
  t_bgcol : color;
  t_origin : pos;
  t_listeners : list listener;
  t_out : str;
  t_writes : nat;
  t_echo : bool;
  t_log : list (Z * (Z * Z));
  t_cslog : list (option colorspace)
}.

Definition set_screen (sc : screen) (c : ccache) (s : tstate) : tstate :=
  mkT sc c (t_prev s) (t_forced s) (t_title s) (t_bgcol s) (t_origin s) (t_listeners s)
    (t_out s) (t_writes s) (t_echo s) (t_log s) (t_cslog s).
Definition set_prev (p : option (Z * Z)) (s : tstate) : tstate :=
  mkT (t_screen s) (t_cache s) p (t_forced s) (t_title s) (t_bgcol s) (t_origin s)
    (t_listeners s) (t_out s) (t_writes s) (t_echo s) (t_log s) (t_cslog s).
Definition set_forced (c : option colorspace) (s : tstate) : tstate :=
  mkT (t_screen s) (t_cache s) (t_prev s) c (t_title s) (t_bgcol s) (t_origin s)
    (t_listeners s) (t_out s) (t_writes s) (t_echo s) (t_log s) (t_cslog s).
Definition set_custom_title (t : option str) (s : tstate) : tstate :=
  mkT (t_screen s) (t_cache s) (t_prev s) (t_forced s) t (t_bgcol s) (t_origin s)
    (t_listeners s) (t_out s) (t_writes s) (t_echo s) (t_log s) (t_cslog s).
Definition set_out (o : str) (n : nat) (s : tstate) : tstate :=
  mkT (t_screen s) (t_cache s) (t_prev s) (t_forced s) (t_title s) (t_bgcol s) (t_origin s)
    (t_listeners s) o n (t_echo s) (t_log s) (t_cslog s).
Definition set_echo_flag (b : bool) (s : tstate) : tstate :=
  mkT (t_screen s) (t_cache s) (t_prev s) (t_forced s) (t_title s) (t_bgcol s) (t_origin s)
    (t_listeners s) (t_out s) (t_writes s) b (t_log s) (t_cslog s).
Definition set_log (l : list (Z * (Z * Z))) (s : tstate) : tstate :=
  mkT (t_screen s) (t_cache s) (t_prev s) (t_forced s) (t_title s) (t_bgcol s) (t_origin s)
    (t_listeners s) (t_out s) (t_writes s) (t_echo s) l (t_cslog s).
Definition set_cslog (l : list (option colorspace)) (s : tstate) : tstate :=
  mkT (t_screen s) (t_cache s) (t_prev s) (t_forced s) (t_title s) (t_bgcol s) (t_origin s)
    (t_listeners s) (t_out s) (t_writes s) (t_echo s) (t_log s) l.

Definition M A := tenv -> tstate -> tstate * res A.
Definition retM {A} (a : A) : M A := fun _ s => (s, Ok a).
Definition bindM {A B} (m : M A) (k : A -> M B) : M B :=
  fun v s => match m v s with
             | (s', Ok a) => k a v s'
             | (s', Err x) => (s', Err x)
             end.
Definition seqM {A B} (m : M A) (k : M B) : M B := bindM m (fun _ => k).
Notation "a ;; b" := (seqM a b) (at level 61, right associativity).

(** [try: body finally: fin]; an exception in [fin] replaces the body's *)
Definition try_finally {A} (body : M A) (fin : M unit) : M A :=
  fun v s => let '(s1, r) := body v s in
             let '(s2, f) := fin v s1 in
             (s2, match f with Err x => Err x | Ok _ => r end).

(** [self.stream.write(sequence); self.stream.flush()].  Simplification: one step that either
    delivers the whole string or raises OSError and delivers nothing. *)
Definition stream_write (t : str) : M unit := fun v s =>
  if te_fail v (t_writes s)
  then (set_out (t_out s) (S (t_writes s)) s, Err OSError)
  else (set_out (t_out s ++ t) (S (t_writes s)) s, Ok tt).

(** terminal.py:384-397 *)
Definition write_control (t : str) : M unit := stream_write t.

(** terminal.py:94-111 *)
Definition color_space (v : tenv) (s : tstate) : res colorspace :=
  match t_forced s with Some c => Ok c | None => get_color_space (te_shell v) end.
Definition set_color_space (new : option colorspace) : M unit := fun _ s =>
  (set_cslog (t_cslog s ++ [new]) (set_forced new s), Ok tt).

(** terminal.py:83-88 and event.py:54-55 over the application's listeners, terminal.py:141-152.
    [fuel]: how many nested property reads the interpreter's recursion limit allows. *)
Definition size_eqb (a b : Z * Z) : bool := (fst a =? fst b) && (snd a =? snd b).

Fixpoint run_listeners (read_size : M (Z * Z)) (sz : Z * Z) (ls : list listener) : M unit :=
  match ls with
  | [] => retM tt
  | LNote id :: r => (fun _ s => (set_log (t_log s ++ [(id, sz)]) s, Ok tt)) ;; run_listeners read_size sz r
  | LReadSize :: r => read_size ;; run_listeners read_size sz r
  | LRaise n :: r => fun _ s => (s, Err (UserError n))
  end.

Fixpoint size (fuel : nat) : M (Z * Z) := fun v s =>
  let sz := te_size v in
  let notify : M unit :=
    match t_prev s with
    | Some p =>
        if size_eqb sz p then retM tt
        else
          (fun _ s => (set_screen (resize (t_screen s) sz (lit " ") true) (t_cache s) s, Ok tt)) ;;
          run_listeners
            (match fuel with
             | O => fun _ s => (s, Err RecursionError)
             | S f => size f
             end) sz (t_listeners s)
    | None => retM tt
    end in
  match notify v s with
  | (s', Err x) => (s', Err x)
  | (s', Ok _) => (set_prev (Some sz) s', Ok sz)
  end.

(** terminal.py:154-164 *)
Definition twidth (fuel : nat) : M Z := bindM (size fuel) (fun sz => retM (fst sz)).
Definition theight (fuel : nat) : M Z := bindM (size fuel) (fun sz => retM (snd sz)).

(** terminal.py:66-92: a fresh terminal, with the default color it was told *)
Definition new_terminal (v : tenv) (bg : color) : tstate :=
  mkT (new_screen (fst (te_size v)) (snd (te_size v)) (0, 0) (lit " ")) [] (Some (te_size v))
    None None bg (1, 1) [] [] 0 true [] [].

(** terminal.py:209-219 *)
Definition get_cursor (s : tstate) : pos := sc_cursor (t_screen s).
Definition set_cursor (p : pos) : M unit := fun _ s =>
  let sc := t_screen s in
  (set_screen (mkScreen (sc_w sc) (sc_h sc) (sc_cells sc) (sc_buf sc) p (sc_off sc)) (t_cache s) s,
   Ok tt).

(** core.py:565-579 set_echo (POSIX; stty assumed to succeed) *)
Definition set_echo (b : bool) : M unit := fun v s =>
  if te_stdin_tty v then (set_echo_flag b s, Ok tt) else (s, Ok tt).

(** terminal.py:300-316, 415-418 *)
Definition show_cursor (b : bool) : M unit :=
  write_control (if b then SHOW_CURSOR else HIDE_CURSOR).
Definition MOUSE_ON : str :=
  [ESC; 91] ++ lit "?1006h" ++ [ESC; 91] ++ lit "?1002h" ++ [ESC; 91] ++ lit "?1003h".
Definition MOUSE_OFF : str :=
  [ESC; 91] ++ lit "?1006l" ++ [ESC; 91] ++ lit "?1002l" ++ [ESC; 91] ++ lit "?1003l".
Definition set_report_mouse (b : bool) : M unit :=
  write_control (if b then MOUSE_ON else MOUSE_OFF).
Definition bell : M unit := write_control [BEL].

Definition whenM (b : bool) (m : M unit) : M unit := if b then m else retM tt.

(** terminal.py:221-240 *)
Definition alt_buffer {A} (hide_cursor : bool) (body : M A) : M A :=
  try_finally
    (write_control START_ALT_BUFFER ;; whenM hide_cursor (show_cursor false) ;; body)
    (write_control END_ALT_BUFFER ;; write_control RESTORE_TITLE ;;
     whenM hide_cursor (show_cursor true)).

(** terminal.py:242-279 *)
Definition no_echo {A} (body : M A) : M A :=
  try_finally (set_echo false ;; body) (set_echo true).
Definition report_mouse {A} (body : M A) : M A :=
  try_finally (set_report_mouse true ;; body) (set_report_mouse false).
Definition batch {A} (body : M A) : M A :=
  try_finally (write_control BEGIN_SYNCHRONIZED_UPDATE ;; body)
    (write_control END_SYNCHRONIZED_UPDATE).

(** terminal.py:281-298 set_title ([not self._custom_title]: None or empty) *)
Definition set_title (new : option str) : M unit := fun v s =>
  match new with
  | None => (write_control RESTORE_TITLE ;; (fun _ s => (set_custom_title None s, Ok tt))) v s
  | Some t =>
      (whenM (match t_title s with Some (_ :: _) => false | _ => true end)
         (write_control STORE_TITLE) ;;
       write_control (SET_TITLE t) ;;
       (fun _ s => (set_custom_title (Some t) s, Ok tt))) v s
  end.

(** terminal.py:318-325 *)
Definition tclear (fill : str) : M unit := fun _ s =>
  (set_screen (clear (t_screen s) fill) (t_cache s) s, Ok tt).

(** The environment colors see.  Simplification: an invalid $SLATE_COLORSYS raises here rather
    than at the first color converted. *)
Definition color_env (v : tenv) (s : tstate) : res env :=
  let* c := color_space v s in Ok {| env_cs := c; env_pow := te_pow v |}.

(** The payload of a write: spans, or a string *)
Inductive payload := PSpans (l : list span) | PStr (t : str).

(** terminal.py:327-357 write: a string is parsed lazily, inside write_bulk, after the cursor
    has been unpacked *)
Definition twrite (data : payload) (cursor : option pos) (force : bool) : M Z := fun v s =>
  match color_env v s, as_background (t_bgcol s) true None with
  | Err x, _ => (s, Err x)
  | _, Err x => (s, Err x)
  | Ok e, Ok tb =>
      match cursor with
      | None => (s, Err TypeError)
      | Some p =>
          match (match data with PSpans l => Ok l | PStr t => parse_line t end) with
          | Err x => (s, Err x)
          | Ok l =>
              let '(sc, c, r) := write e (t_cache s) (t_screen s) l (Some p) tb force in
              (set_screen sc c s, r)
          end
      end
  end.

(** terminal.py:359-382 write_bulk: a string payload is not parsed; its first character has
    no attribute "foreground".  Earlier entries have been placed (not committed). *)
Fixpoint bulk_prefix (data : list (pos * payload)) : list (pos * list span) * bool :=
  match data with
  | [] => ([], true)
  | (p, PSpans l) :: r => let '(a, ok) := bulk_prefix r in ((p, l) :: a, ok)
  | (p, PStr []) :: r => let '(a, ok) := bulk_prefix r in ((p, []) :: a, ok)
  | (p, PStr _) :: r => ([], false)
  end.
Definition twrite_bulk (data : list (pos * payload)) (force : bool) : M Z := fun v s =>
  match color_env v s, as_background (t_bgcol s) true None with
  | Err x, _ => (s, Err x)
  | _, Err x => (s, Err x)
  | Ok e, Ok tb =>
      match bulk_prefix data with
      | (d, true) =>
          let '(sc, c, r) := write_bulk e (t_cache s) (t_screen s) d tb force in
          (set_screen sc c s, r)
      | (d, false) =>
          let sc := t_screen s in
          let w := sc_w sc in let h := sc_h sc in
          let '(st, r) := place_all e w h d
             (mkW (blank_matrix w h None) (blank_matrix w h []) (sc_cells sc) (sc_off sc) (t_cache s)) in
          (set_screen (mkScreen w h (ws_cells st) (sc_buf sc) (sc_cursor sc) (ws_off st))
             (ws_cache st) s,
           match r with Err x => Err x | Ok _ => Err AttributeError end)
      end
  end.

(** terminal.py:399-413 draw *)
Definition draw (redraw : bool) : M unit := fun v s =>
  let '(ansi, sc) := render (t_screen s) (t_origin s) redraw in
  let s := set_screen sc (t_cache s) s in
  if te_file_ok v then stream_write ansi v s else (s, Err OSError).

(** terminal.py:113-125 supports_synchronized_update; [reply]: what arrived in time
    (after reading began, see TtyModel.v: what came before is discarded) *)
Definition supports_synchronized_update (stdin_tty : bool) (reply : option str) : res bool :=
  let* response :=
    (match reply with
     | None => Ok (lit "None")                      (* str(None) *)
     | Some k => let* ks := (if stdin_tty then decode_key false k else Ok [[]]) in key_str ks
     end) in
  Ok (str_in response [[ESC; 91] ++ lit "?2026;1$y"; [ESC; 91] ++ lit "?2026;2$y"]).

(** terminal.py:120-125: the query is sent, then what the terminal answers to everything it was
    sent ([answer]; None if nothing in time) is read.  Simplification: the cached property is read
    for the first time. *)
Definition query_synchronized_update (stdin_tty : bool) (answer : str -> option str) : M bool :=
  write_control QUERY_SYNCHRONIZED_UPDATE ;;
  (fun _ s => (s, supports_synchronized_update stdin_tty (answer (t_out s)))).

(** color.py:268-269 [@cached_property]: a Color object remembers the first sequence it was
    asked for *)
Record color_obj := mkObj { co_color : color; co_ansi : option str }.
Definition read_ansi (e : env) (o : color_obj) : str * color_obj :=
  match co_ansi o with
  | Some a => (a, o)
  | None => let a := color_ansi e (co_color o) in (a, mkObj (co_color o) (Some a))
  end.

(** terminal.py:454-457: the background rectangle of export_svg; numbers preformatted *)
Definition svg_background (total_width total_height : str) (bg : color) : str :=
  lit "<rect" ++ quoted (lit "width") total_width ++ quoted (lit "height") total_height
  ++ lit " fill='#" ++ color_hex bg ++ lit "' rx='9px'></rect>".
