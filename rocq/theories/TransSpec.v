(** Specification of drawing translucent content: the picture of a history whose writes put
    translucent layers over other content, in terms of characters, attributes and blended colors. *)
From Coq Require Import ZArith Reals List Bool String.
From Verif Require Import PyBase F64 SpaceModel ColorSpec ColorModel AnsiRe SpanModel Vt SpanSpec ScreenModel ScreenSpec DrawSpec.
Import ListNotations.
Open Scope Z_scope.

(** * What is written *)
(** as [drawable], but backgrounds may have any alpha *)
Definition layerable (s : span) : Prop :=
  printable (s_text s) /\ (s_reset s = false -> forall k, get_flag k (s_flags s) = false) /\
  (forall c, s_fg s = Some c -> by_value c /\ c_bg c = false) /\
  (forall c, s_bg s = Some c -> fine c /\ c_bg c = true /\ (c_alpha c = fone -> by_value c)).
Definition filmy (g : Z * span) (l : color) : Prop := s_bg (snd g) = Some l /\ c_alpha l <> fone.
Definition covers (g : Z * span) : Prop := solid (s_bg (snd g)).
(** the backgrounds seen through one another: those of the layers, and the one of the lowest
    character if it is translucent *)
Definition films (base : Z * span) (bgs : list color) : list color :=
  match s_bg (snd base) with Some b => if negb (feqb (c_alpha b) fone) then b :: bgs else bgs | None => bgs end.
(** What lands on a cell in one write: first content that hides what is below, the last of which
    ([base]) shows through the translucent layers on it, of which neighbours have different colors *)
Definition stacked (items : list (Z * span)) (base : Z * span) (layers : list (Z * span)) (bgs : list color) : Prop :=
  (exists hidden, items = hidden ++ base :: layers /\ Forall covers hidden /\ (hidden = [] \/ covers base)) /\
  Forall2 filmy layers bgs /\ alternating (films base bgs).
Definition tact_ok (w h : Z) (a : act) : Prop :=
  match a with
  | AWrite data tb _ => Forall (calm_entry w h) data /\ fine tb /\ c_bg tb = true /\
      Forall (fun entry => Forall layerable (snd entry)) data /\
      forall q, on_screen w h q -> let items := covering q (flat_map (spots w h) data) in
        items = [] \/ exists base layers bgs, stacked items base layers bgs
  | _ => act_ok w h a
  end.

(** * The picture *)
(** the background of a cell: that of [base] tinted by the layers; a lone translucent one is on
    the background [tb] of the terminal; with none at all there is none *)
Inductive backdrop (tb : color) : option color -> list color -> option color -> Prop :=
| bd_none : backdrop tb None [] None
| bd_solid : forall b ls m, c_alpha b = fone -> tinted b ls m -> backdrop tb (Some b) ls (Some m)
| bd_film : forall l m, c_alpha l <> fone -> tinted tb [l] m -> backdrop tb (Some l) [] (Some m)
| bd_films : forall l l' ls m, c_alpha l <> fone -> tinted l (l' :: ls) m -> backdrop tb (Some l) (l' :: ls) (Some m)
| bd_bare : forall l ls o, backdrop tb (Some l) ls o -> backdrop tb None (l :: ls) o.
(** blanks not marked opaque let the character below show *)
Definition clear_glyph (g : Z * span) : bool := is_space (fst g) && negb (fl_opaque (s_flags (snd g))).
Definition visible (base : Z * span) (layers : list (Z * span)) : Z * span :=
  last (filter (fun g => negb (clear_glyph g)) layers) base.
Definition ink (g : Z * span) : color := match s_fg (snd g) with Some c => c | None => WHITE end.
(** a blank is on top *)
Definition veiled (layers : list (Z * span)) : Prop := exists ls top, layers = ls ++ [top] /\ clear_glyph top = true.
(** the color of the character: tinted by the layers if a blank is on top (not told for blanks) *)
Definition inked (base : Z * span) (layers : list (Z * span)) (bgs : list color) (f : color) : Prop :=
  let v := visible base layers in
  (veiled layers /\ tinted (ink v) bgs f) \/ (f = ink v /\ (veiled layers -> is_space (fst v) = true)).
Definition composited (sh : triple -> ecolor) (tb : color) (items : list (Z * span)) (c : Z * rend) : Prop :=
  exists base layers bgs f b, stacked items base layers bgs /\
    inked base layers bgs f /\ backdrop tb (s_bg (snd base)) bgs b /\
    let v := visible base layers in
    c = (fst v, styled (s_flags (snd v)) (Some (sh (c_rgb f))) (option_map (fun b => sh (c_rgb b)) b) rend0).
Definition tpaints (sh : triple -> ecolor) (w h : Z) (p : picture) (a : act) (p' : picture) : Prop :=
  forall q, on_screen w h q ->
  match a with
  | AWrite data tb _ =>
      let items := covering q (flat_map (spots w h) data) in
      match items with [] => p' q = p q | _ => composited sh tb items (p' q) end
  | AClear fill => p' q = (fill, rend0)
  | ADraw => p' q = p q
  end.
Fixpoint tpainted (sh : triple -> ecolor) (w h : Z) (p : picture) (acts : list act) (p' : picture) : Prop :=
  match acts with
  | [] => forall q, on_screen w h q -> p' q = p q
  | a :: r => exists p1, tpaints sh w h p a p1 /\ tpainted sh w h p1 r p'
  end.
(** the same character on the same background, and the same foreground unless it is a blank *)
Definition same_look (v v' : Z * rend) : Prop :=
  fst v = fst v' /\ r_bg (snd v) = r_bg (snd v') /\ attributes (snd v) = attributes (snd v') /\ (is_space (fst v) = false -> v = v').
