(** Programs over colors, spans and a screen when colors and spans are plain values: nothing is
    remembered about them, and every sequence is that of the color space in force. *)
From Coq Require Import ZArith List Bool String.
From Verif Require Import PyBase F64 SpaceModel ColorModel SpanModel ScreenModel ObjModel.
Open Scope Z_scope.

Record plain := mkPlain {
  p_colors : list color; p_spans : list span; p_screen : screen; p_cache : ccache; p_env : env
}.

(** The groups of a color (color.py:340-356) *)
Definition group_of (g : gkind) (c : color) : res (list color) :=
  match g with
  | Triadic => triadic_group c
  | Analogous => analogous_group c
  | Tetradic => tetradic_group c
  end.

Definition plain_cop (e : env) (l : list color) (c : cop) : res color :=
  match c with
  | CMake d => color_of d
  | CAlpha i a => let* c := getc l i in as_alpha c a
  | CShift i a => let* c := getc l i in hue_shift c a
  | CBackground i b a => let* c := getc l i in as_background c b a
  | CBlend i j a bg _ => let* c := getc l i in let* d := getc l j in blend c d a bg
  | CLighten i n st => let* c := getc l i in lighten c n st
  | CDarken i n st => let* c := getc l i in darken c n st
  | CComplement i => let* c := getc l i in complement c
  | CContrast i => let* c := getc l i in contrast e c
  | CBlendComplement i a => let* c := getc l i in blend_complement c a
  | CWhite b => color_white b
  | CBlack b => color_black b
  | CGroup g i k => let* c := getc l i in let* cs := group_of g c in getc cs k
  end.

Definition plain_step (o : op) (m : plain) : plain * seen :=
  let '(mkPlain cs ss sc ch e) := m in
  match o with
  | OColor c =>
      match plain_cop e cs c with
      | Ok v => (mkPlain (cs ++ [v]) ss sc ch e, SNone)
      | Err x => (m, SErr x)
      end
  | OLook i => (m, match getc cs i with Ok c => SColor c | Err x => SErr x end)
  | OAnsi i => (m, match getc cs i with Ok c => SStr (color_ansi e c) | Err x => SErr x end)
  | OSpan t fg bg l f rs =>
      match getopt cs fg, getopt cs bg with
      | Err x, _ => (m, SErr x)
      | _, Err x => (m, SErr x)
      | Ok a, Ok b => (mkPlain cs (ss ++ [mkSpan t a b l f rs]) sc ch e, SNone)
      end
  | OStr k => (m, match getc ss k with Ok s => SStr (span_str e s) | Err x => SErr x end)
  | OChars k ex al =>
      match getc ss k with
      | Err x => (m, SErr x)
      | Ok s => let '(l, ch) := cached_characters e ch s ex al in (mkPlain cs ss sc ch e, SStrs l)
      end
  | OWrite d tb =>
      match getdata ss d, getopt cs tb with
      | Err x, _ => (m, SErr x)
      | _, Err x => (m, SErr x)
      | Ok data, Ok t =>
          let '(sc, ch, r) := write_bulk e ch sc data (match t with Some t => t | None => BLACK end) false in
          (mkPlain cs ss sc ch e, match r with Ok n => SInt n | Err x => SErr x end)
      end
  | OClear fill => (mkPlain cs ss (clear sc fill) ch e, SNone)
  | OResize sz => (mkPlain cs ss (resize sc sz (lit " ") true) ch e, SNone)
  | ORender p rd => let '(t, sc) := render sc p rd in (mkPlain cs ss sc ch e, SStr t)
  | OSpace c => (mkPlain cs ss sc ch {| env_cs := c; env_pow := env_pow e |}, SNone)
  end.
Fixpoint plain_run (l : list op) (m : plain) : plain * list seen :=
  match l with
  | [] => (m, [])
  | o :: r => let '(m, a) := plain_step o m in let '(m, t) := plain_run r m in (m, a :: t)
  end.
Definition plain0 (e : env) (w h : Z) : plain :=
  mkPlain [] [] (new_screen w h (0, 0) (lit " ")) [] e.

(** The color space never changes *)
Definition keeps_space (l : list op) : Prop := Forall (fun o => match o with OSpace _ => False | _ => True end) l.

(** The same system with another color space in force; the spaces a program forces, in order *)
Definition at_space (e : env) (c : colorspace) : env := {| env_cs := c; env_pow := env_pow e |}.
Definition spaces (prog : list op) : list colorspace :=
  flat_map (fun o => match o with OSpace c => [c] | _ => [] end) prog.
