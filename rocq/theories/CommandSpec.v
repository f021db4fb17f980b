(** Specification, independent of Slate: the commands a terminal recognises in what it receives,
    after the state machine of the VT500 series (ECMA-35, ECMA-48), and the histories of a screen
    whose text comes from somewhere else. *)
From Coq Require Import ZArith List Bool String.
From Verif Require Import PyBase F64 SpaceModel ColorModel SpanModel ScreenModel.
Import ListNotations.
Open Scope Z_scope.

(** * Commands *)
Inductive command :=
| Print (c : Z)                         (* a character is displayed *)
| Control (c : Z)                       (* a control character acts *)
| Escape (inter : str) (final : Z)      (* ESC ... final *)
| Csi (buf : str) (final : Z)           (* control sequence: parameter and intermediate bytes, final byte *)
| Text (kind : Z) (body : str).         (* a string: DCS 80, SOS 88, OSC 93, PM 94, APC 95 (the 7-bit introducers) *)

Inductive cstate :=
| Ground
| InEscape (inter : str)
| InCsi (buf : str)
| InText (kind : Z) (body : str).

Definition opens_text (c : Z) : bool := (c =? 80) || (c =? 88) || (c =? 93) || (c =? 94) || (c =? 95).
(** what leaving a state does: a string that has begun is carried out *)
Definition leave (q : cstate) : list command :=
  match q with InText k b => [Text k b] | _ => [] end.

(** One character.  [c1]: the terminal takes the characters 128 to 159 for the controls they stand
    for (ESC and the character 64 below), as a VT220 and an xterm do; other terminals show or ignore
    them. *)
Definition step (c1 : bool) (q : cstate) (c : Z) : list command * cstate :=
  if c =? 27 then (leave q, InEscape [])
  else if (c =? 24) || (c =? 26) then (leave q ++ [Control c], Ground)
  else if c1 && (128 <=? c) && (c <=? 159) then
    let f := c - 64 in
    if f =? 91 then (leave q, InCsi [])
    else if f =? 92 then (leave q, Ground)
    else if opens_text f then (leave q, InText f [])
    else (leave q ++ [Control c], Ground)
  else
    match q with
    | Ground => ([if (c <? 32) || (c =? 127) then Control c else Print c], Ground)
    | InEscape inter =>
        if c <? 32 then ([Control c], q)
        else if c <? 48 then ([], InEscape (inter ++ [c]))
        else if c =? 127 then ([], q)
        else if c =? 91 then ([], InCsi [])
        else if opens_text c then ([], InText c [])
        else ([Escape inter c], Ground)
    | InCsi buf =>
        if c <? 32 then ([Control c], q)
        else if c =? 127 then ([], q)
        else if (64 <=? c) && (c <=? 126) then ([Csi buf c], Ground)
        else ([], InCsi (buf ++ [c]))
    | InText k b => if c =? 7 then ([Text k b], Ground) else ([], InText k (b ++ [c]))
    end.
Fixpoint scan (c1 : bool) (q : cstate) (s : str) : list command * cstate :=
  match s with
  | [] => ([], q)
  | c :: t => let '(a, q') := step c1 q c in let '(b, q'') := scan c1 q' t in (a ++ b, q'')
  end.
(** the commands in a string, read from the start *)
Definition commands (c1 : bool) (s : str) : list command := fst (scan c1 Ground s).

(** * Commands that only draw *)
(** no private marker *)
Definition unmarked (buf : str) : bool := forallb (fun c => negb ((60 <=? c) && (c <=? 63))) buf.
(** characters, the control characters [ctl], empty strings, positions (CUP) and renditions (SGR);
    [extra]: final bytes allowed besides *)
Definition draws_only (ctl : Z -> Prop) (extra : list Z) (k : command) : Prop :=
  match k with
  | Print _ => True
  | Control c => ctl c
  | Escape _ _ => False
  | Csi buf final => unmarked buf = true /\ In final (72 :: 109 :: extra)
  | Text _ body => body = []
  end.

(** * Histories *)
(** colors whose code Slate makes itself, or that have a code of digits and semicolons *)
Definition plain_code (c : color) : Prop :=
  match c_ctor c with
  | None => True
  | Some k => startswith (lit "#"%string) k = true \/ (k <> [] /\ forallb (fun c => is_digit c || (c =? 59)) k = true)
  end.
Definition plain_colors (s : span) : Prop :=
  (forall c, s_fg s = Some c -> plain_code c) /\ (forall c, s_bg s = Some c -> plain_code c).

(** the control characters of a text are among [ctl] *)
Definition control_char (c : Z) : Prop := c < 32 \/ 127 <= c <= 159.
Definition controls (ctl : Z -> Prop) (t : str) : Prop := forall c, In c t -> control_char c -> ctl c.

Inductive deed :=
| DWrite (data : list (pos * list span)) (tb : color) (force : bool)   (* spans *)
| DText (p : pos) (line : str) (tb : color) (force : bool)             (* a string *)
| DClear (fill : str)
| DResize (size : Z * Z) (fill : str)
| DDraw (origin : pos).
(** what the application chooses itself is plain; the text is anything at all, [ctl] being the
    control characters in it *)
Definition deed_ok (ctl : Z -> Prop) (d : deed) : Prop :=
  match d with
  | DWrite data tb _ =>
      Forall (fun en => Forall (fun s => plain_colors s /\ controls ctl (s_text s)) (snd en)) data /\ plain_code tb
  | DText _ line tb _ => controls ctl line /\ plain_code tb
  | DClear fill | DResize _ fill => controls (fun _ => False) fill
  | DDraw _ => True
  end.
Definition spans_only (d : deed) : Prop := match d with DText _ _ _ _ => False | _ => True end.

(** The screen, the cache, and everything the terminal received *)
Definition do_deed (e : env) (k : screen * ccache * str) (d : deed) : screen * ccache * str :=
  let '(s, c, out) := k in
  match d with
  | DWrite data tb force => let '(s', c', _) := write_bulk e c s data tb force in (s', c', out)
  | DText p line tb force =>
      match parse_line line with
      | Ok l => let '(s', c', _) := write_bulk e c s [(p, l)] tb force in (s', c', out)
      | Err _ => k
      end
  | DClear fill => (clear s fill, c, out)
  | DResize size fill => (resize s size fill true, c, out)
  | DDraw origin => let '(o, s') := render s origin false in (s', c, out ++ o)
  end.
