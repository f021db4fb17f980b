(** C82: the report of [slate debug]. *)
From Coq Require Import ZArith List Bool Lia String.
From Verif Require Import PyBase F64 SpaceModel ColorTab ColorModel ColorSpec AnsiRe SpanModel SpanSpec MainModel MainSpec MainProofs MainProofs2.
Import ListNotations.
Open Scope Z_scope.
Open Scope list_scope.

(** ** C82 *)
(** The report is always printed; what is seen of it are its lines: a line of colors, the facts with
    labels on the left and values on the right, all equally wide, and the styles filling lines of
    that width. *)
Theorem C82_report : forall e v, color_ok (v_fg v) -> color_ok (v_bg v) ->
  plain_value (v_term v) -> plain_value (v_colorterm v) -> plain_value (v_no_color v) -> plain_value (v_colorsys v) ->
  exists out lines, run_debug e v = Ok out /\ split_on NL (strip_ansi out) = lines ++ [[]] /\ report e v lines.
Proof. exact debug_shown. Qed.
Print Assumptions C82_report.

(** It is made of spans, among them every style name in its style and the default colors as
    themselves on a contrasting background. *)
Theorem C82_spans : forall e v, color_ok (v_fg v) -> color_ok (v_bg v) ->
  plain_value (v_term v) -> plain_value (v_colorterm v) -> plain_value (v_no_color v) -> plain_value (v_colorsys v) ->
  exists l lines, run_debug e v = Ok (flat_map (span_str e) l) /\ Forall (quiet_span e) l /\
    split_on NL (concat (map s_text l)) = lines ++ [[]] /\ report e v lines /\
    (forall n f, In (n, f) style_names -> In (mkSpan n None None [] f true) l) /\ swatch (v_fg v) l /\ swatch (v_bg v) l.
Proof. exact debug_spec. Qed.
Print Assumptions C82_spans.

Definition here : env := {| env_cs := TRUE_COLOR; env_pow := fun x _ => x |}.
Definition a_view : view := mkView (Some (lit "xterm-256color")) None (Some []) None (80, 24) true DEFAULT_WHITE BLACK.
Example C82_ex_domain : color_ok (v_fg a_view) /\ color_ok (v_bg a_view) /\ plain_value (v_term a_view) /\ plain_value (v_no_color a_view).
Proof.
  unfold color_ok, channel_ok, plain_value. cbn [a_view v_fg v_bg v_term v_no_color]. split; [cbn; lia|]. split; [cbn; lia|].
  split; split; intro H; cbn in H; intuition discriminate.
Qed.
Example C82_ex : match run_debug here a_view with
  | Ok out => skipn 2 (split_on NL (strip_ansi out)) = map lit
     ["Environment:";
      "$TERM                                   xterm-256color";
      "$COLORTERM                                           -";
      "$NO_COLOR                                            -";
      "$SLATE_COLORSYS                                      -";
      "";
      "Terminal state:";
      "size                                             80x24";
      "colorspace                       ColorSpace.TRUE_COLOR";
      "synchronized update support                       True";
      "foreground color                               #F5F5F5";
      "background color                               #000000";
      "";
      "std bold italic dim underline blink invert strike";
      ""]%string
  | Err _ => False end.
Proof. vm_compute. reflexivity. Qed.
Example C82_ex_narrow : let lines := split_on NL (strip_ansi (style_line here 20 [] 0 debug_styles)) in
  lines = map lit ["std bold italic dim"; "underline blink"; "invert strike"]%string.
Proof. vm_compute. reflexivity. Qed.
