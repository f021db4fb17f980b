(** Terminal.export_svg as a method: what it reads, in which order (terminal.py:420-472).  Definitions only. *)
From Coq Require Import ZArith List Bool String.
From Verif Require Import PyBase F64 SpaceModel ColorModel SpanModel ScreenModel SvgDocModel SvgGeoModel ReprModel SvgTextModel CoreModel TermModel.
Import ListNotations.
Open Scope Z_scope.
Open Scope list_scope.

Definition chosen (given : option color) (own : color) : color := match given with Some c => c | None => own end.
(** terminal.py:420-472.  The screen is exported first, then the width is read, then the height; each reading may
    notify the listeners (terminal.py:141-164).  [own_fg] is self.foreground_color, which __post_init__ has cached
    as it has self.background_color.  The height is read in the surroundings [later]: the window may change
    between the two. *)
Definition texport (fuel : nat) (fs : Z) (dfg dbg : option color) (own_fg : color) (later : tenv) : M str := fun v s =>
  let bg := chosen dbg (t_bgcol s) in
  let fg := chosen dfg own_fg in
  match color_env v s with
  | Err x => (s, Err x)
  | Ok e =>
      match export_svg_with_styles e (t_screen s) fs fg bg with
      | Err x => (s, Err x)
      | Ok r =>
          match twidth fuel v s with
          | (s1, Err x) => (s1, Err x)
          | (s1, Ok w) =>
              match theight fuel later s1 with
              | (s2, Err x) => (s2, Err x)
              | (s2, Ok h) =>
                  let width := float_repr (total_width w fs) in
                  let height := float_repr (total_height h fs) in
                  (s2, Ok (svg_template (dec fs) width height (snd r) (svg_background width height bg) (fst r)))
              end
          end
      end
  end.
