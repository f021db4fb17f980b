(** Specification, independent of Slate: what a terminal emulator does with the bytes it
    receives (ECMA-48 / xterm subset).  Every printable code point is one column wide; output
    post-processing maps LF to CR LF, as a tty does in cooked and cbreak mode. *)
From Coq Require Import ZArith List Bool String.
From Verif Require Import PyBase.
Open Scope Z_scope.

Inductive ecolor := EDefault | EIdx (n : Z) | ERgb (r g b : Z).

(** Graphic rendition *)
Record rend := mkRend {
  r_fg : ecolor; r_bg : ecolor;
  r_bold : bool; r_dim : bool; r_italic : bool; r_underline : bool; r_blink : bool;
  r_rapid : bool; r_inverse : bool; r_conceal : bool; r_strike : bool
}.
Definition rend0 : rend :=
  mkRend EDefault EDefault false false false false false false false false false.

Definition with_fg (c : ecolor) (r : rend) : rend :=
  mkRend c (r_bg r) (r_bold r) (r_dim r) (r_italic r) (r_underline r) (r_blink r) (r_rapid r)
    (r_inverse r) (r_conceal r) (r_strike r).
Definition with_bg (c : ecolor) (r : rend) : rend :=
  mkRend (r_fg r) c (r_bold r) (r_dim r) (r_italic r) (r_underline r) (r_blink r) (r_rapid r)
    (r_inverse r) (r_conceal r) (r_strike r).
Definition with_bold b (r : rend) : rend :=
  mkRend (r_fg r) (r_bg r) b (r_dim r) (r_italic r) (r_underline r) (r_blink r) (r_rapid r)
    (r_inverse r) (r_conceal r) (r_strike r).
Definition with_dim b (r : rend) : rend :=
  mkRend (r_fg r) (r_bg r) (r_bold r) b (r_italic r) (r_underline r) (r_blink r) (r_rapid r)
    (r_inverse r) (r_conceal r) (r_strike r).
Definition with_italic b (r : rend) : rend :=
  mkRend (r_fg r) (r_bg r) (r_bold r) (r_dim r) b (r_underline r) (r_blink r) (r_rapid r)
    (r_inverse r) (r_conceal r) (r_strike r).
Definition with_underline b (r : rend) : rend :=
  mkRend (r_fg r) (r_bg r) (r_bold r) (r_dim r) (r_italic r) b (r_blink r) (r_rapid r)
    (r_inverse r) (r_conceal r) (r_strike r).
Definition with_blink b (r : rend) : rend :=
  mkRend (r_fg r) (r_bg r) (r_bold r) (r_dim r) (r_italic r) (r_underline r) b (r_rapid r)
    (r_inverse r) (r_conceal r) (r_strike r).
Definition with_rapid b (r : rend) : rend :=
  mkRend (r_fg r) (r_bg r) (r_bold r) (r_dim r) (r_italic r) (r_underline r) (r_blink r) b
    (r_inverse r) (r_conceal r) (r_strike r).
Definition with_inverse b (r : rend) : rend :=
  mkRend (r_fg r) (r_bg r) (r_bold r) (r_dim r) (r_italic r) (r_underline r) (r_blink r)
    (r_rapid r) b (r_conceal r) (r_strike r).
Definition with_conceal b (r : rend) : rend :=
  mkRend (r_fg r) (r_bg r) (r_bold r) (r_dim r) (r_italic r) (r_underline r) (r_blink r)
    (r_rapid r) (r_inverse r) b (r_strike r).
Definition with_strike b (r : rend) : rend :=
  mkRend (r_fg r) (r_bg r) (r_bold r) (r_dim r) (r_italic r) (r_underline r) (r_blink r)
    (r_rapid r) (r_inverse r) (r_conceal r) b.

(** One simple SGR parameter *)
Definition sgr1 (n : Z) (r : rend) : rend :=
  if n =? 0 then rend0
  else if n =? 1 then with_bold true r
  else if n =? 2 then with_dim true r
  else if n =? 3 then with_italic true r
  else if n =? 4 then with_underline true r
  else if n =? 5 then with_blink true r
  else if n =? 6 then with_rapid true r
  else if n =? 7 then with_inverse true r
  else if n =? 8 then with_conceal true r
  else if n =? 9 then with_strike true r
  else if n =? 22 then with_bold false (with_dim false r)
  else if n =? 23 then with_italic false r
  else if n =? 24 then with_underline false r
  else if n =? 25 then with_blink false (with_rapid false r)
  else if n =? 27 then with_inverse false r
  else if n =? 28 then with_conceal false r
  else if n =? 29 then with_strike false r
  else if (30 <=? n) && (n <=? 37) then with_fg (EIdx (n - 30)) r
  else if n =? 39 then with_fg EDefault r
  else if (40 <=? n) && (n <=? 47) then with_bg (EIdx (n - 40)) r
  else if n =? 49 then with_bg EDefault r
  else if (90 <=? n) && (n <=? 97) then with_fg (EIdx (n - 82)) r
  else if (100 <=? n) && (n <=? 107) then with_bg (EIdx (n - 92)) r
  else r.                                              (* unsupported: ignored *)

(** The parameters of CSI ... m, left to right.  A malformed extended color ends the
    sequence. *)
Fixpoint sgr (ps : list Z) (r : rend) : rend :=
  match ps with
  | [] => r
  | n :: rest =>
      if (n =? 38) || (n =? 48) then
        let put c := if n =? 38 then with_fg c r else with_bg c r in
        match rest with
        | k :: i :: rest' =>
            if k =? 5 then sgr rest' (put (EIdx i))
            else if k =? 2 then
              match rest' with
              | g :: b :: rest'' => sgr rest'' (put (ERgb i g b))
              | _ => r
              end
            else r
        | _ => r
        end
      else sgr rest (sgr1 n r)
  end.

(** A parameter string: digits and semicolons; an empty parameter is 0 *)
Definition param_char (c : Z) : bool := is_digit c || (c =? 59).
Definition param_val (s : str) : Z := fold_left (fun a c => a * 10 + (c - 48)) s 0.
Definition params (s : str) : list Z := map param_val (split_on 59 s).

(** A displayed cell: glyph, rendition, hyperlink *)
Definition ecell := (Z * rend * str)%type.
Definition eblank : ecell := (32, rend0, []).

Inductive pstate :=
| PGround
| PEsc
| PCsi (buf : str)            (* parameter and intermediate bytes so far *)
| POsc (buf : str)            (* operating system command, waiting for BEL or ST *)
| POscEsc (buf : str).        (* ... an ESC has been seen inside *)

Record emu := mkEmu {
  e_w : Z; e_h : Z;
  e_grid : Z -> Z -> ecell;   (* column, row; both from 0 *)
  e_x : Z; e_y : Z;
  e_wrap : bool;              (* pending wrap: the last column has just been written *)
  e_rend : rend;
  e_link : str;
  e_parse : pstate;
  e_modes : list (Z * bool);  (* private modes, most recent first *)
  e_title : str;
  e_titles : list str         (* title stack *)
}.

Definition set_parse (p : pstate) (t : emu) : emu :=
  mkEmu (e_w t) (e_h t) (e_grid t) (e_x t) (e_y t) (e_wrap t) (e_rend t) (e_link t) p
    (e_modes t) (e_title t) (e_titles t).
Definition set_rend (r : rend) (t : emu) : emu :=
  mkEmu (e_w t) (e_h t) (e_grid t) (e_x t) (e_y t) (e_wrap t) r (e_link t) (e_parse t)
    (e_modes t) (e_title t) (e_titles t).
Definition set_pos (x y : Z) (wrap : bool) (t : emu) : emu :=
  mkEmu (e_w t) (e_h t) (e_grid t) x y wrap (e_rend t) (e_link t) (e_parse t)
    (e_modes t) (e_title t) (e_titles t).
Definition set_grid (g : Z -> Z -> ecell) (t : emu) : emu :=
  mkEmu (e_w t) (e_h t) g (e_x t) (e_y t) (e_wrap t) (e_rend t) (e_link t) (e_parse t)
    (e_modes t) (e_title t) (e_titles t).
Definition set_link (l : str) (t : emu) : emu :=
  mkEmu (e_w t) (e_h t) (e_grid t) (e_x t) (e_y t) (e_wrap t) (e_rend t) l (e_parse t)
    (e_modes t) (e_title t) (e_titles t).
Definition set_modes (m : list (Z * bool)) (t : emu) : emu :=
  mkEmu (e_w t) (e_h t) (e_grid t) (e_x t) (e_y t) (e_wrap t) (e_rend t) (e_link t) (e_parse t)
    m (e_title t) (e_titles t).
Definition set_titles (title : str) (l : list str) (t : emu) : emu :=
  mkEmu (e_w t) (e_h t) (e_grid t) (e_x t) (e_y t) (e_wrap t) (e_rend t) (e_link t) (e_parse t)
    (e_modes t) title l.

Definition grid_set (g : Z -> Z -> ecell) (x y : Z) (c : ecell) : Z -> Z -> ecell :=
  fun x' y' => if (x' =? x) && (y' =? y) then c else g x' y'.

(** Line feed: scroll at the bottom margin *)
Definition line_feed (t : emu) : emu :=
  if e_y t <? e_h t - 1 then set_pos (e_x t) (e_y t + 1) false t
  else
    let g := e_grid t in
    set_pos (e_x t) (e_y t) false
      (set_grid (fun x y => if y =? e_h t - 1 then eblank else g x (y + 1)) t).
Definition carriage_return (t : emu) : emu := set_pos 0 (e_y t) false t.

(** A printable character *)
Definition put_char (c : Z) (t : emu) : emu :=
  let t := if e_wrap t then line_feed (carriage_return t) else t in
  let t := set_grid (grid_set (e_grid t) (e_x t) (e_y t) (c, e_rend t, e_link t)) t in
  if e_x t <? e_w t - 1 then set_pos (e_x t + 1) (e_y t) false t
  else set_pos (e_x t) (e_y t) true t.

Definition clampZ (lo hi v : Z) : Z := Z.max lo (Z.min hi v).
(** Cursor position: row;column from 1, 0 or missing meaning 1, clamped to the screen *)
Definition cup_to (ps : list Z) (t : emu) : emu :=
  let row := nth 0 ps 0 in let col := nth 1 ps 0 in
  set_pos (clampZ 0 (e_w t - 1) (Z.max col 1 - 1)) (clampZ 0 (e_h t - 1) (Z.max row 1 - 1)) false t.

(** A complete CSI sequence: parameter bytes and final byte.  Anything not listed is
    ignored. *)
Definition csi_private (ps : str) (final : Z) (t : emu) : emu :=
  if forallb param_char ps then
    if final =? 104 then set_modes (map (fun n => (n, true)) (params ps) ++ e_modes t) t
    else if final =? 108 then set_modes (map (fun n => (n, false)) (params ps) ++ e_modes t) t
    else t
  else t.
Definition csi_plain (ps : str) (final : Z) (t : emu) : emu :=
  if forallb param_char ps then
    if final =? 109 then set_rend (sgr (params ps) (e_rend t)) t       (* m *)
    else if final =? 72 then cup_to (params ps) t                      (* H *)
    else if final =? 116 then                                          (* t: title stack *)
      let n := hd 0 (params ps) in
      if n =? 22 then set_titles (e_title t) (e_title t :: e_titles t) t
      else if n =? 23 then
        match e_titles t with
        | [] => t
        | a :: r => set_titles a r t
        end
      else t
    else t
  else t.
Definition csi (buf : str) (final : Z) (t : emu) : emu :=
  match buf with
  | c :: ps => if c =? 63 then csi_private ps final t else csi_plain buf final t
  | [] => csi_plain [] final t
  end.

(** A complete OSC string: 0;title and 8;params;uri *)
Definition osc (buf : str) (t : emu) : emu :=
  match split_on 59 buf with
  | k :: rest =>
      if str_eqb k [48] then set_titles (join [59] rest) (e_titles t) t
      else if str_eqb k [56] then set_link (join [59] (tl rest)) t
      else t
  | [] => t
  end.

Definition is_final (c : Z) : bool := (64 <=? c) && (c <=? 126).
Definition is_ctl (c : Z) : bool := (c <? 32) || ((127 <=? c) && (c <=? 159)).

(** One byte (code point) *)
Definition feed1 (t : emu) (c : Z) : emu :=
  match e_parse t with
  | PGround =>
      if c =? 27 then set_parse PEsc t
      else if c =? 10 then line_feed (carriage_return t)
      else if c =? 13 then carriage_return t
      else if is_ctl c then t
      else put_char c t
  | PEsc =>
      if c =? 91 then set_parse (PCsi []) t
      else if c =? 93 then set_parse (POsc []) t
      else if c =? 27 then t
      else set_parse PGround t
  | PCsi buf =>
      if c =? 27 then set_parse PEsc t
      else if is_final c then csi buf c (set_parse PGround t)
      else set_parse (PCsi (buf ++ [c])) t
  | POsc buf =>
      if c =? 7 then osc buf (set_parse PGround t)
      else if c =? 27 then set_parse (POscEsc buf) t
      else set_parse (POsc (buf ++ [c])) t
  | POscEsc buf =>
      if c =? 92 then osc buf (set_parse PGround t)
      else set_parse PGround t
  end.

(** A string *)
Definition vt (s : str) (t : emu) : emu := fold_left feed1 s t.

(** A terminal just opened *)
Definition emu0 (w h : Z) : emu :=
  mkEmu w h (fun _ _ => eblank) 0 0 false rend0 [] PGround [] [] [].

(** The current value of a private mode *)
Fixpoint mode_of (n : Z) (l : list (Z * bool)) : option bool :=
  match l with
  | [] => None
  | (k, b) :: r => if k =? n then Some b else mode_of n r
  end.
