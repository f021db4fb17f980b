(** color.py.  Definitions only (no proofs). *)
From Coq Require Import ZArith List Bool String.
From Flocq Require Import IEEE754.BinarySingleNaN.
From Verif Require Import PyBase F64 SpaceModel ColorTab.
Open Scope Z_scope.

Definition triple := (Z * Z * Z)%type.

(** The process-wide context color code depends on: the color space of the global
    [terminal] (color.py:272-288) and the C library's [pow] (used by [**] on floats). *)
Record env := { env_cs : colorspace; env_pow : f64 -> f64 -> f64 }.

(** color.py:124-138, the init fields of the frozen dataclass [Color].  The derived fields
    (luminance, brightness, hls, hex; color.py:152-155) are functions of the channels below.
    Simplification: channels are ints (a float channel fails in the ":02X" format). *)
Record color := mkColor {
  c_rgb : triple;
  c_bg : bool;
  c_alpha : f64;
  c_origin : colorspace;
  c_ctor : option str
}.

Definition in_channel (v : Z) : bool := (0 <=? v) && (v <? 256).
Definition valid_rgb (t : triple) : bool :=
  let '(r, g, b) := t in in_channel r && in_channel g && in_channel b.

(** color.py:140-150: the constructor with its validation *)
Definition new_color (rgb : triple) (bg : bool) (alpha : f64) (origin : colorspace)
    (ctor : option str) : res color :=
  if valid_rgb rgb then Ok (mkColor rgb bg alpha origin ctor) else Err ValueError.

(** [Color(rgb, is_background=bg, alpha=alpha)] with the other defaults, color.py:128-138 *)
Definition plain_color (rgb : triple) (bg : bool) (alpha : f64) : res color :=
  new_color rgb bg alpha TRUE_COLOR None.

(** color.py:155 *)
Definition color_hex (c : color) : str :=
  let '(r, g, b) := c_rgb c in 35 :: hex02 r ++ hex02 g ++ hex02 b.

(** color.py:164-168 *)
Definition triple_eqb (a b : triple) : bool :=
  let '(r1, g1, b1) := a in let '(r2, g2, b2) := b in
  (r1 =? r2) && (g1 =? g2) && (b1 =? b2).
Definition color_eqb (a b : color) : bool :=
  triple_eqb (c_rgb a) (c_rgb b) && feqb (c_alpha a) (c_alpha b).

(** What the dataclass-generated [__hash__] (frozen=True, eq=True, color.py:124) hashes: the
    tuple of all fields.  The derived fields are functions of c_rgb; 0.0 and -0.0 hash alike. *)
Definition hash_fields (c : color) :=
  (c_rgb c, c_bg c, if feqb (c_alpha c) fzero then fzero else c_alpha c, c_origin c, c_ctor c).

(** color.py:497-501 and 20-21 *)
Definition WHITE : color := mkColor (255, 255, 255) false fone TRUE_COLOR None.
Definition BLACK : color := mkColor (0, 0, 0) false fone TRUE_COLOR None.
Definition DEFAULT_WHITE : color := mkColor (245, 245, 245) false fone TRUE_COLOR None.
Definition DEFAULT_BLACK : color := mkColor (35, 35, 35) false fone TRUE_COLOR None.

(** color.py:170-232.  [alpha] is the default used when the sequence carries none. *)
Definition from_ansi (ansi : str) (alpha : f64) : res color :=
  let parts := split_on 59 ansi in
  let lst := last_of parts in
  let* ap :=                                            (* 176-178 *)
    (if contains_char 46 lst
     then let* a := py_float lst in Ok (a, removelast parts)
     else Ok (alpha, parts)) in
  let '(alpha, parts) := ap in
  match parts with
  | [] => Err IndexError                                (* parts[0] on [] *)
  | p0 :: _ =>
      let is_background := startswith (lit "4") p0 in   (* 180 *)
      if 3 <? zlen parts then                           (* 182 *)
        let two := firstn 2 parts in
        if negb ((str_eqb (nth 0 two []) (lit "38") || str_eqb (nth 0 two []) (lit "48"))
                 && str_eqb (nth 1 two []) (lit "2"))
        then Err ValueError                             (* 183-187 *)
        else match nth_error parts 2, nth_error parts 3, nth_error parts 4 with
             | Some a, Some b, c =>
                 let* r := py_int a in
                 let* g := py_int b in
                 match c with
                 | None => Err IndexError               (* parts[4] *)
                 | Some c =>
                     let* bl := py_int c in
                     new_color (r, g, bl) is_background alpha TRUE_COLOR
                       (Some (join (lit ";") parts))    (* 189-195 *)
                 end
             | _, _, _ => Err IndexError
             end
      else
        let* index := py_int (last_of parts) in         (* 197-200 *)
        let '(space, index, is_background) :=
          if zlen parts =? 1 then                       (* 203 *)
            let '(index, is_background) :=
              if (30 <=? index) && (index <? 38) then (index - 30, is_background)
              else if (40 <=? index) && (index <? 48) then (index - 40, true)
              else (index, is_background) in
            let '(index, is_background) :=
              if (90 <=? index) && (index <? 98) then (index - 82, is_background)
              else if (100 <=? index) && (index <? 108) then (index - 92, true)
              else (index, is_background) in
            (STANDARD, index, is_background)
          else (EIGHT_BIT, index, is_background) in
        if negb ((0 <=? index) && (index <? 256)) then Err ValueError   (* 220-224 *)
        else match nth_error COLOR_TABLE (Z.to_nat index) with
             | Some rgb => new_color rgb is_background alpha space (Some ansi)
             | None => Err IndexError
             end
  end.

(** color.py:234-248 *)
Definition from_hex (hexstring : str) (alpha : f64) : res color :=
  let h := lstrip_by (Z.eqb 35) hexstring in
  let* r := py_int16 (slice None (Some 2) h) in
  let* g := py_int16 (slice (Some 2) (Some 4) h) in
  let* b := py_int16 (slice (Some 4) None h) in
  new_color (r, g, b) false alpha TRUE_COLOR (Some (35 :: h)).

(** color.py:383-389.  [alpha=None] is the default; [alpha or self.alpha] treats 0 as None. *)
Definition as_background (c : color) (setting : bool) (alpha : option f64) : res color :=
  if Bool.eqb (c_bg c) setting then Ok c
  else plain_color (c_rgb c) setting
         (match alpha with
          | Some a => if feqb a fzero then c_alpha c else a
          | None => c_alpha c
          end).

(** color.py:250-266 *)
Definition color_black (bg : bool) : res color :=
  if bg then as_background BLACK bg None else Ok BLACK.
Definition color_white (bg : bool) : res color :=
  if bg then as_background WHITE bg None else Ok WHITE.

(** color.py:358-361 *)
Definition as_alpha (c : color) (a : f64) : res color := plain_color (c_rgb c) (c_bg c) a.

(** one channel of color.py:432-434: [min(max(int(a + (b - a) * alpha), 0), 255)] *)
Definition blend_channel (a b : Z) (alpha : f64) : res Z :=
  let* v := py_int_of_float (fadd (fofZ a) (fmul (fofZ (b - a)) alpha)) in
  Ok (Z.min (Z.max v 0) 255).

(** color.py:409-437.  The lru_cache on it: ObjModel.v. *)
Definition blend (self other : color) (alpha : f64) (is_background : option bool) : res color :=
  let bg := match is_background with Some b => b | None => c_bg self end in
  let '(r1, g1, b1) := c_rgb self in
  let '(r2, g2, b2) := c_rgb other in
  let* r := blend_channel r1 r2 alpha in
  let* g := blend_channel g1 g2 alpha in
  let* b := blend_channel b1 b2 alpha in
  plain_color (r, g, b) bg fone.

(** [shade_count * step_size]: int times float *)
Definition shade_alpha (n : Z) (step : f64) : res f64 :=
  if f_finite (fofZ n) then Ok (fmul (fofZ n) step) else Err OverflowError.
Definition default_step : f64 := flit 1 10.

(** color.py:363-381 *)
Definition lighten (c : color) (n : Z) (step : f64) : res color :=
  let* a := shade_alpha n step in blend c WHITE a None.
Definition darken (c : color) (n : Z) (step : f64) : res color :=
  let* a := shade_alpha n step in blend c BLACK a None.

(** color.py:54-60, _linearize *)
Definition linearize (e : env) (v : f64) : f64 :=
  if fleb v (flit 4045 100000) then fdiv v (flit 1292 100)
  else env_pow e (fdiv (fadd v (flit 55 1000)) (flit 1055 1000)) (flit 24 10).

(** color.py:48-66 *)
Definition luminance (e : env) (t : triple) : f64 :=
  let '(r, g, b) := t in
  let red := linearize e (fdiv (fofZ r) (fofZ 255)) in
  let green := linearize e (fdiv (fofZ g) (fofZ 255)) in
  let blue := linearize e (fdiv (fofZ b) (fofZ 255)) in
  fadd (fadd (fmul (flit 2126 10000) red) (fmul (flit 7152 10000) green))
       (fmul (flit 722 10000) blue).

(** color.py:69-81 *)
Definition brightness (e : env) (t : triple) : f64 :=
  let l := luminance e t in
  let b := if fleb l (flit 216 24389) then fmul l (flit 24389 27)
           else fsub (fmul (env_pow e l (flit 1 3)) (fofZ 116)) (fofZ 16) in
  fdiv b (fofZ 100).

(** color.py:84-103, with the default white and black *)
Definition contrast (e : env) (c : color) : res color :=
  if fltb (flit 179 1000) (luminance e (c_rgb c))
  then as_background DEFAULT_BLACK (c_bg c) None
  else as_background DEFAULT_WHITE (c_bg c) None.

(** color.py:24-45: [math.sqrt] is IEEE square root *)
Definition fsqrt : f64 -> f64 := @Bsqrt fprec femax fprec_gt_0 fprec_lt_emax mode_NE.
Definition geometric_difference (first second : triple) : f64 :=
  let '(r1, g1, b1) := first in
  let '(r2, g2, b2) := second in
  let redmean := (r1 + r2) / 2 in
  let dr := r1 - r2 in
  let dg := g1 - g2 in
  let db := b1 - b2 in
  fsqrt
    (fadd
       (fadd (fmul (fadd (fofZ 2) (fdiv (fofZ redmean) (fofZ 256))) (fofZ (dr ^ 2)))
             (fofZ (4 * dg ^ 2)))
       (fmul (fadd (fofZ 2) (fdiv (fofZ (255 - redmean)) (fofZ 256))) (fofZ (db ^ 2)))).

(** [min(candidates, key=f)] : first candidate with the least key *)
Fixpoint min_by (f : Z -> f64) (best : Z) (l : list Z) : Z :=
  match l with
  | [] => best
  | i :: r => if fltb (f i) (f best) then min_by f i r else min_by f best r
  end.

(** color.py:309-311 *)
Definition nearest_standard (rgb : triple) : Z :=
  min_by (fun i => geometric_difference rgb (nth (Z.to_nat i) COLOR_TABLE (0, 0, 0)))
    0 (tl (range 16)).

(** color.py:296-302 *)
Definition eight_bit_level (v : Z) : Z := frint (fmul (fdiv (fofZ v) (fofZ 255)) (fofZ 5)).
Definition eight_bit_index (rgb : triple) : Z :=
  let '(r, g, b) := rgb in
  16 + 36 * eight_bit_level r + 6 * eight_bit_level g + eight_bit_level b.

(** color.py:292 *)
Definition grey_index (e : env) (rgb : triple) : Z :=
  frint (fmin (fadd (fofZ 232) (fmul (brightness e rgb) (fofZ 23))) (fofZ 255)).

Definition lead (c : color) : Z := 38 + 10 * (if c_bg c then 1 else 0).

(** color.py:268-323, evaluated in a fixed environment (the caching is modelled in
    TermModel.v).  [ColorSpace >= ColorSpace] never raises. *)
Definition color_ansi (e : env) (c : color) : str :=
  let use_ctor :=
    match cs_ge (env_cs e) (ArgSpace (c_origin c)), c_ctor c with
    | Ok true, Some k => negb (startswith (lit "#") k)
    | _, _ => false
    end in
  match use_ctor, c_ctor c with
  | true, Some k => k
  | _, _ =>
      let ld := dec (lead c) in
      match env_cs e with
      | TRUE_COLOR =>
          let '(r, g, b) := c_rgb c in
          ld ++ lit ";2;" ++ join (lit ";") [dec r; dec g; dec b]
      | NO_COLOR => ld ++ lit ";5;" ++ dec (grey_index e (c_rgb c))
      | EIGHT_BIT => ld ++ lit ";5;" ++ dec (eight_bit_index (c_rgb c))
      | STANDARD =>
          let index := nearest_standard (c_rgb c) in
          let index := if 7 <? index then index + 82 else index + 30 in
          let index := if c_bg c then index + 10 else index in
          dec index
      end
  end.

(** colorsys (CPython 3.11.10), used at color.py:5 *)
Definition rgb_to_hls (r g b : f64) : f64 * f64 * f64 :=
  let maxc := fmax (fmax r g) b in
  let minc := fmin (fmin r g) b in
  let sumc := fadd maxc minc in
  let rangec := fsub maxc minc in
  let l := fdiv sumc (fofZ 2) in
  if feqb minc maxc then (fzero, l, fzero)
  else
    let s := if fleb l (flit 1 2) then fdiv rangec sumc
             else fdiv rangec (fsub (fsub (fofZ 2) maxc) minc) in
    let rc := fdiv (fsub maxc r) rangec in
    let gc := fdiv (fsub maxc g) rangec in
    let bc := fdiv (fsub maxc b) rangec in
    let h := if feqb r maxc then fsub bc gc
             else if feqb g maxc then fsub (fadd (fofZ 2) rc) bc
             else fsub (fadd (fofZ 4) gc) rc in
    (fmodpy1 (fdiv h (fofZ 6)), l, s).

Definition ONE_THIRD : f64 := flit 1 3.
Definition ONE_SIXTH : f64 := flit 1 6.
Definition TWO_THIRD : f64 := flit 2 3.

Definition hls_v (m1 m2 hue : f64) : f64 :=
  let hue := fmodpy1 hue in
  if fltb hue ONE_SIXTH then fadd m1 (fmul (fmul (fsub m2 m1) hue) (fofZ 6))
  else if fltb hue (flit 1 2) then m2
  else if fltb hue TWO_THIRD
       then fadd m1 (fmul (fmul (fsub m2 m1) (fsub TWO_THIRD hue)) (fofZ 6))
       else m1.

Definition hls_to_rgb (h l s : f64) : f64 * f64 * f64 :=
  if feqb s fzero then (l, l, l)
  else
    let m2 := if fleb l (flit 1 2) then fmul l (fadd fone s)
              else fsub (fadd l s) (fmul l s) in
    let m1 := fsub (fmul (fofZ 2) l) m2 in
    (hls_v m1 m2 (fadd h ONE_THIRD), hls_v m1 m2 h, hls_v m1 m2 (fsub h ONE_THIRD)).

(** color.py:154 *)
Definition color_hls (t : triple) : f64 * f64 * f64 :=
  let '(r, g, b) := t in
  rgb_to_hls (fdiv (fofZ r) (fofZ 256)) (fdiv (fofZ g) (fofZ 256)) (fdiv (fofZ b) (fofZ 256)).

(** color.py:391-407 *)
Definition hue_shift (c : color) (amount : f64) : res color :=
  let '(hue, lightness, saturation) := color_hls (c_rgb c) in
  let '(r, g, b) := hls_to_rgb (fmodpy1 (fadd hue amount)) lightness saturation in
  let* r := py_int_of_float (fmul (fofZ 255) r) in
  let* g := py_int_of_float (fmul (fofZ 255) g) in
  let* b := py_int_of_float (fmul (fofZ 255) b) in
  plain_color (r, g, b) (c_bg c) fone.

(** color.py:331-338 *)
Definition complement (c : color) : res color :=
  let '(hue, lightness, _) := color_hls (c_rgb c) in
  if feqb hue fzero
  then (if feqb lightness fzero then plain_color (255, 255, 255) false fone
        else plain_color (0, 0, 0) false fone)
  else hue_shift c (flit 1 2).

(** color.py:439-448 *)
Definition blend_complement (c : color) (alpha : f64) : res color :=
  let* k := complement c in blend c k alpha None.

(** color.py:106-121 (each group is the list of its colors) *)
Definition triadic_group (c : color) : res (list color) :=
  let* a := hue_shift c (flit 1 3) in
  let* b := hue_shift c (flit 2 3) in Ok [c; a; b].
Definition analogous_group (c : color) : res (list color) :=
  let* a := hue_shift c (flit 1 12) in
  let* b := hue_shift c (flit 2 12) in Ok [c; a; b].
Definition tetradic_group (c : color) : res (list color) :=
  let* a := hue_shift c (flit 1 4) in
  let* k := complement c in
  let* b := hue_shift c (flit 3 4) in Ok [c; a; k; b].

(** color.py:451-494.  Descriptions: a string, a triple or a triple with alpha. *)
Inductive description :=
| DStr (s : str)
| DTriple (t : triple)
| DQuad (t : triple) (alpha : f64)
| DOther.

Definition color_of (d : description) : res color :=
  match d with
  | DQuad t a => plain_color t false a
  | DTriple t => plain_color t false fone
  | DStr s =>
      if startswith (lit "#") s then
        if zlen s =? 9 then
          let* a := py_int16 (slice (Some (-2)) None s) in
          from_hex (slice None (Some (-2)) s) (fdiv (fofZ a) (fofZ 255))
        else from_hex s fone
      else
        let parts := split_on 59 s in
        let lst := last_of parts in
        let* da :=
          (if contains_char 46 lst
           then let* a := py_float lst in Ok (join (lit ";") (removelast parts), a)
           else Ok (s, fone)) in
        let '(d, alpha) := da in
        match dict_get NAMED_COLORS d with
        | Some h => from_hex h alpha
        | None => from_ansi d alpha
        end
  | DOther => Err ValueError
  end.
