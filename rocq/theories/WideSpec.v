(** Specification, independent of Slate: a terminal that draws some characters two columns wide
    (East Asian ideographs, emoji) and others in no column of their own (combining marks), after
    the function [wd] of the terminal.  Vt.v is the case where every width is one.  Simplification:
    what a terminal leaves of a wide character when only one of its halves is overwritten is not
    described (here: the other half); a combining mark is not shown at all. *)
From Coq Require Import ZArith List Bool.
From Verif Require Import PyBase F64 ColorModel AnsiRe SpanModel Vt ScreenModel ScreenSpec DrawSpec.
Import ListNotations.
Open Scope Z_scope.

(** no character is wider than two columns, ASCII is narrow *)
Definition terminal_widths (wd : Z -> Z) : Prop :=
  (forall c, 0 <= wd c <= 2) /\ (forall c, 0 <= c < 128 -> wd c = 1).
(** the right half of a wide character *)
Definition TAIL : Z := -1.
(** a wide character does not start in the last column *)
Definition make_room (t : emu) : emu :=
  if negb (e_wrap t) && (e_x t =? e_w t - 1) then line_feed (carriage_return t) else t.
Definition print (wd : Z -> Z) (c : Z) (t : emu) : emu :=
  if wd c =? 0 then t
  else if wd c =? 2 then put_char TAIL (put_char c (make_room t))
  else put_char c t.
Definition feedw (wd : Z -> Z) (t : emu) (c : Z) : emu :=
  match e_parse t with
  | PGround => if is_ctl c then feed1 t c else print wd c t
  | _ => feed1 t c
  end.
Definition vtw (wd : Z -> Z) (s : str) (t : emu) : emu := fold_left (feedw wd) s t.

(** the columns a text takes *)
Definition advance (wd : Z -> Z) (s : str) : Z := fold_right (fun c n => wd c + n) 0 s.
Definition narrow (wd : Z -> Z) (s : str) : Prop := Forall (fun c => wd c = 1) s.

(** * Histories, on such a terminal *)
Definition performw (wd : Z -> Z) (e : env) (origin : pos) (k : world) (a : act) : world :=
  let '(s, c, m) := k in
  match a with
  | AWrite data tb force => let '(s', c', _) := write_bulk e c s data tb force in (s', c', m)
  | AClear fill => (clear s [fill], c, m)
  | ADraw => let '(out, s') := render s origin false in (s', c, vtw wd out m)
  end.
Definition act_narrow (wd : Z -> Z) (a : act) : Prop :=
  match a with
  | AWrite data _ _ => Forall (fun entry => Forall (fun s => narrow wd (s_text s)) (snd entry)) data
  | AClear fill => wd fill = 1
  | ADraw => True
  end.
