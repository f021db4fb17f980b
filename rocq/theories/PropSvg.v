(** Properties of SVG exports. *)
From Coq Require Import ZArith List Bool Lia String.
From Verif Require Import PyBase F64 SpaceModel ColorTab ColorModel ColorSpec SpanModel SpanSpec ScreenModel TermModel SvgSpec SvgProofs.
Import ListNotations.
Open Scope Z_scope.
Open Scope list_scope.

Definition red_ : color := mkColor (255, 0, 0) false fone TRUE_COLOR None.
Definition e0 : env := {| env_cs := TRUE_COLOR; env_pow := fun x _ => x |}.
Definition screen0 : screen :=
  mkScreen 3 2 [[(lit "a", Some red_, None); (lit "b", Some red_, None); (lit "c", None, None)];
                [(lit "c", None, None); (lit "c", None, None); (lit "c", None, None)]] [] (0, 0) 0.
Definition numbers0 : svg_numbers :=
  {| sv_x := lit "0"; sv_yrect := lit "1.5"; sv_width := lit "9.5"; sv_height := lit "18"; sv_ytext := lit "15" |}.
Definition evil : span := mkSpan (lit "</text><script>alert('&')</script>") (Some red_) None [] (set_flag FInvert true no_flags) true.

(** ** C57 *)
(** Two pieces share a class only if their style (and text) is the same, hence the same CSS rule *)
Theorem C57_classes : forall e s l, export_svg e s = Ok l -> forall a b, In a l -> In b l -> p_class a = p_class b ->
  a = b \/ (s_text (p_span a) = s_text (p_span b) /\ same_style (p_span a) (p_span b) /\
            get_svg_styles (p_span a) = get_svg_styles (p_span b)).
Proof. exact shared_class. Qed.
Print Assumptions C57_classes.
(** The pieces of each row are the groups of its cells, each at the column after the characters before *)
Theorem C57_layout : forall e s l, export_svg e s = Ok l ->
  Forall (fun p => 0 <= p_row p < zlen (sc_cells s)) l /\
  (forall y row, nth_error (sc_cells s) (Z.to_nat y) = Some row -> 0 <= y -> group e row = Ok (map p_span (of_row y l))) /\
  (forall a p b, l = a ++ p :: b -> p_column p = characters_in (of_row (p_row p) a)).
Proof. exact export_layout. Qed.
Print Assumptions C57_layout.
Example C57_ex : match export_svg e0 screen0 with
  | Ok l => map (fun p => (p_column p, p_row p, p_class p, s_text (p_span p))) l =
      [(0, 0, 1, lit "ab"); (2, 0, 2, lit "c"); (0, 1, 3, lit "ccc")]
  | Err _ => False end.
Proof. vm_compute. reflexivity. Qed.
Example C57_ex_shared : match export_svg e0 (mkScreen 1 2 [[(lit "c", None, None)]; [(lit "c", None, None)]] [] (0, 0) 0) with
  | Ok l => map p_class l = [1; 1]
  | Err _ => False end.
Proof. vm_compute. reflexivity. Qed.

(** ** C66 *)
(** Bold, dim, italic, underline and the color of the text are expressed; nothing else is *)
Theorem C66_styles : forall s, get_svg_styles s = wanted_css (s_flags s) ++
  match (if fl_invert (s_flags s) then s_bg s else s_fg s) with Some c => [(lit "fill", color_hex c)] | None => [] end.
Proof. exact svg_styles_spec. Qed.
Print Assumptions C66_styles.
(** in particular not strike *)
Theorem C66_strike : forall s v, get_svg_styles (as_flag FStrike s v) = get_svg_styles s.
Proof. exact strike_ignored. Qed.
Print Assumptions C66_strike.
Example C66_ex : get_svg_styles evil = [] /\ get_svg_styles (as_flag FBold (as_flag FInvert evil false) true)
  = [(lit "font-weight", lit "bold"); (lit "fill", lit "#FF0000")].
Proof. vm_compute. auto. Qed.

(** ** C67 *)
(** Whatever the text, as_svg is a rect and a text element; attribute values cannot break out of
    their quotes and the text cannot open a tag *)
Theorem C67_markup : forall s n dfg dbg inline cls, color_ok dfg -> color_ok dbg ->
  (forall c, s_fg s = Some c -> color_ok c) -> (forall c, s_bg s = Some c -> color_ok c) ->
  inert (sv_x n) -> inert (sv_yrect n) -> inert (sv_width n) -> inert (sv_height n) -> inert (sv_ytext n) ->
  (forall c, cls = Some c -> inert c) ->
  let shown := match s_fg s with Some c => c | None => dfg end in
  let behind := match s_bg s with Some c => c | None => dbg end in
  let fg := if fl_invert (s_flags s) then behind else shown in
  let bg := if fl_invert (s_flags s) then shown else behind in
  exists rect text, as_svg s n dfg dbg inline cls = rect ++ text /\
    element (lit "rect") [(lit "x", sv_x n); (lit "y", sv_yrect n); (lit "fill", color_hex bg); (lit "width", sv_width n); (lit "height", sv_height n)] [] rect /\
    element (lit "text") (svg_attrs s n fg inline cls) (escape_html (s_text s)) text /\
    svg_color (color_hex bg) /\ svg_color (color_hex fg) /\ inert_text (escape_html (s_text s)) /\
    Forall (fun a => inert (snd a)) (svg_attrs s n fg inline cls).
Proof. exact svg_markup. Qed.
Print Assumptions C67_markup.
Example C67_ex : color_ok BLACK /\ color_ok red_ /\ inert (sv_width numbers0) /\ inert (svg_class 12).
Proof.
  split; [unfold color_ok, channel_ok; cbn; lia|]. split; [unfold color_ok, channel_ok; cbn; lia|].
  split; apply inert_by; vm_compute; reflexivity.
Qed.

(** ** C68 *)
(** False in every case: no element as_svg makes has an attribute style, inline or not *)
Theorem C68_inline_refuted : forall s n fg inline cls v, ~ In (lit "style", v) (svg_attrs s n fg inline cls).
Proof. exact no_style_attribute. Qed.
Print Assumptions C68_inline_refuted.
Example C68_ex : In (lit "styles", lit "font-weight:bold") (svg_attrs (mkSpan (lit "a") None None [] (set_flag FBold true no_flags) true) numbers0 red_ true None).
Proof. vm_compute. tauto. Qed.

(** ** C69 *)
(** False in every case: the fill of the rectangle behind an exported terminal is no color *)
Theorem C69_background_refuted : forall w h bg, color_ok bg ->
  exists v, element (lit "rect") [(lit "width", w); (lit "height", h); (lit "fill", v); (lit "rx", lit "9px")] [] (svg_background w h bg) /\
    ~ svg_color v.
Proof. exact background_fill. Qed.
Print Assumptions C69_background_refuted.
Example C69_ex : color_ok BLACK /\ svg_background (lit "1") (lit "2") BLACK = lit "<rect width='1' height='2' fill='##000000' rx='9px'></rect>".
Proof. split; [unfold color_ok, channel_ok; cbn; lia|vm_compute; reflexivity]. Qed.
