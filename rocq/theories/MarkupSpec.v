(** Specification of the markup language of experiments/markup.py: what a text in it is, which words of a tag mean
    what, which spans the text stands for.  Nothing here calls the functions of markup.py. *)
From Coq Require Import ZArith List Bool String.
From Verif Require Import PyBase F64 SpaceModel ColorTab ColorModel ColorSpec SpanModel SpanSpec ShowModel Vt MarkupModel.
Import ListNotations.
Open Scope Z_scope.
Open Scope list_scope.

(** * Texts *)
Definition free (t : str) : Prop := ~ In 91 t /\ ~ In 93 t.
(** a stretch of text after the tags [t1][t2]... directly before it *)
Definition segment := (list str * str)%type.
Definition tag_ok (t : str) : Prop := t <> [] /\ free t /\ ~ In NL t.
Definition segment_ok (s : segment) : Prop := Forall tag_ok (fst s) /\ snd s <> [] /\ free (snd s).
(** only the first stretch may have no tags: otherwise it would be part of the one before *)
Definition markup_ok (l : list segment) : Prop :=
  Forall segment_ok l /\ match l with [] => True | _ :: r => Forall (fun s => fst s <> []) r end.
Definition written (l : list segment) : str :=
  flat_map (fun s => flat_map (fun t => [91] ++ t ++ [93]) (fst s) ++ snd s) l.
(** what is between the first and the last bracket *)
Definition tag_line (s : segment) : str := join (lit "][") (fst s).

(** * Words *)
Definition blank_text (g : str) : Prop := Forall (fun c => is_space c = true) g.
Definition word (w : str) : Prop := w <> [] /\ Forall (fun c => is_space c = false) w.
(** the words of a text, in order *)
Inductive separated : str -> list str -> Prop :=
| sep_end g : blank_text g -> separated g []
| sep_word g w t ws : blank_text g -> word w -> separated t ws ->
    match t with [] => True | c :: _ => is_space c = true end -> separated (g ++ w ++ t) (w :: ws).

(** ** Words that look like colors *)
Definition at_sign (a : str) : Prop := a = [] \/ a = [64].
Definition number (d : str) : Prop := (1 <= List.length d <= 3)%nat /\ Forall (fun c => is_decimal c = true) d.
Definition hex_six (x : str) : Prop := List.length x = 6%nat /\ Forall (fun c => exists v, hex_value c v) x.
Inductive color_tag : str -> Prop :=
| tag_index a d : at_sign a -> number d -> color_tag (a ++ d)
| tag_hex a h x r : at_sign a -> h = [] \/ h = [35] -> hex_six x -> color_tag (a ++ h ++ x ++ r)
| tag_rgb a x y z r : at_sign a -> number x -> number y -> number z -> color_tag (a ++ x ++ [59] ++ y ++ [59] ++ z ++ r)
| tag_css n name v : In (name, v) CSS_COLORS -> color_tag (repeat 64 n ++ name).

(** ** What a word is *)
Inductive kind := KStyle (k : flag) (on : bool) | KColor | KOther (t : str).
Definition no_slash (t : str) : Prop := forall u, t <> 47 :: u.
Inductive means : str -> kind -> Prop :=
| means_style n k : means (repeat 47 n ++ field_name k) (KStyle k (n =? 0)%nat)
| means_color n t : no_slash t -> color_tag t -> means (repeat 47 n ++ t) KColor
| means_uncolor n t : t = lit "fg" \/ t = lit "bg" -> means (repeat 47 (S n) ++ t) KColor
| means_other n t : no_slash t -> ~ color_tag t -> (forall k, t <> field_name k) ->
    (n <> O -> t <> lit "fg" /\ t <> lit "bg") -> means (repeat 47 n ++ t) (KOther t).
(** a segment, its words understood *)
Definition understood (s : segment) (u : list kind * str) : Prop :=
  snd s = snd u /\ exists ws, separated (tag_line s) ws /\ Forall2 means ws (fst u).
Definition colorless (u : list kind * str) : Prop := ~ In KColor (fst u).

(** * Spans *)
(** a style is on if the last word about it, in this or an earlier stretch, switches it on *)
Definition about (k : flag) (w : kind) : bool :=
  match w with KStyle j _ => str_eqb (field_name j) (field_name k) | _ => false end.
Definition on_after (ws : list kind) (k : flag) : bool :=
  match find (about k) (rev ws) with Some (KStyle _ on) => on | _ => false end.
Definition flags_after (ws : list kind) : flags :=
  let on := on_after ws in
  mkFlags (on FBold) (on FDim) (on FItalic) (on FUnderline) (on FBlink) (on FFastBlink) (on FInvert) (on FConceal)
    (on FStrike) (on FOpaque).
Definition others (ws : list kind) : list str := flat_map (fun w => match w with KOther t => [t] | _ => [] end) ws.
(** every unknown word is reported and every stretch yielded *)
Fixpoint expected (before : list kind) (l : list (list kind * str)) : list event :=
  match l with
  | [] => []
  | (ws, p) :: r =>
      map Unknown (others ws) ++ Yield (mkSpan p None None [] (flags_after (before ++ ws)) true) :: expected (before ++ ws) r
  end.

(** on the terminal: every stretch with its styles, then the next line *)
Fixpoint typed (before : list kind) (l : list (list kind * str)) (m : emu) : emu :=
  match l with
  | [] => m
  | (ws, p) :: r =>
      typed (before ++ ws) r
        (set_rend rend0 (type_text p (set_rend (styled (flags_after (before ++ ws)) None None rend0) m)))
  end.

(** * Colors: the parameters [body] select the color [x] on a layer, whatever follows *)
Definition selects (body : str) (bg : bool) (x : ecolor) : Prop :=
  forallb param_char body = true /\ forall more pen, sgr (params body ++ more) pen = sgr more (paint bg x pen).
