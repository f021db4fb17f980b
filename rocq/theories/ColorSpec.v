(** Specification notions for colors, independent of the model's helpers. *)
From Coq Require Import ZArith List Bool String.
From Verif Require Import PyBase F64 SpaceModel ColorModel.
Open Scope Z_scope.

Definition red (c : color) : Z := fst (fst (c_rgb c)).
Definition green (c : color) : Z := snd (fst (c_rgb c)).
Definition blue (c : color) : Z := snd (c_rgb c).

Definition channel_ok (v : Z) : Prop := 0 <= v <= 255.
Definition color_ok (c : color) : Prop :=
  channel_ok (red c) /\ channel_ok (green c) /\ channel_ok (blue c).

(** Result of an operation that must yield valid colors whenever it yields one *)
Definition gives_ok (r : res color) : Prop := forall c, r = Ok c -> color_ok c.

(** Hexadecimal digits, upper and lower case, and their values *)
Definition hex_value (c : Z) (v : Z) : Prop :=
  (48 <= c <= 57 /\ v = c - 48) \/ (65 <= c <= 70 /\ v = c - 55) \/ (97 <= c <= 102 /\ v = c - 87).
Definition upper_hex (c : Z) : Prop := 48 <= c <= 57 \/ 65 <= c <= 70.

(** The xterm 256-color palette above the 16 standard colors: 6x6x6 cube and grey ramp *)
Definition cube_level (k : Z) : Z := if k =? 0 then 0 else 55 + 40 * k.
Definition xterm_entry (n : Z) : Z * Z * Z :=
  if n <? 232 then
    (cube_level ((n - 16) / 36), cube_level ((n - 16) / 6 mod 6), cube_level ((n - 16) mod 6))
  else (8 + 10 * (n - 232), 8 + 10 * (n - 232), 8 + 10 * (n - 232)).

(** The 16 standard colors, VGA values: bits 0-2 of the index are red, green and blue (170),
    bit 3 adds 85; index 3 is brown. *)
Definition vga_entry (n : Z) : Z * Z * Z :=
  if n =? 3 then (170, 85, 0)
  else let up := 85 * (n / 8) in
       (170 * (n mod 2) + up, 170 * (n / 2 mod 2) + up, 170 * (n / 4 mod 2) + up).
Definition palette_entry (n : Z) : Z * Z * Z := if n <? 16 then vga_entry n else xterm_entry n.

(** a color that was not built from an ansi description *)
Definition no_ansi_ctor (c : color) : Prop :=
  match c_ctor c with None => True | Some k => startswith (lit "#") k = true end.

(** "38;5;n" or "48;5;n": select entry n of the palette *)
Definition idx_seq (bg : bool) (n : Z) : str := (if bg then lit "48;5;" else lit "38;5;") ++ dec n.

(** What is left of the parts of a description once an alpha value is removed *)
Definition core_parts (parts core : list str) : Prop :=
  core = parts \/ exists d, parts = core ++ [d] /\ contains_char 46 d = true.

(** "38;2;r;g" without blue, or nothing but an alpha value *)
Definition cut_short (core : list str) : Prop :=
  core = [] \/ exists l r g, core = [l; lit "2"; r; g] /\ (l = lit "38" \/ l = lit "48").

(** parts of a description that can make color() fail with something else than ValueError:
    after at most two alpha values the core is cut short *)
Definition truncated (s : str) : Prop :=
  exists p1 core, core_parts (split_on 59 s) p1 /\ core_parts p1 core /\ cut_short core.
