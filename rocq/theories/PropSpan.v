(** C15-C25: spans, their printing, parsing, slicing and grouping (span.py, core.py). *)
From Coq Require Import ZArith List Bool String Lia.
From Verif Require Import PyBase F64 SpaceModel ColorTab ColorModel ColorSpec SpaceSpec AnsiRe SpanModel CoreModel Vt
  PaletteSpec PaletteProofs ColorProofs SpanSpec SpanProofs SpanProofs2 ParseProofs ParseProofs2 ParseProofs3 ParseProofs4 GroupProofs GreySpec SpanProofs3 SplitLemmas.
Open Scope Z_scope.

(** Used in the examples *)
Definition tc : env := {| env_cs := TRUE_COLOR; env_pow := fun _ _ => fone |}.
Definition red_ : color := mkColor (255, 0, 0) false fone TRUE_COLOR None.
Definition on_blue : color := mkColor (0, 0, 255) true fone TRUE_COLOR None.
Definition bold : flags := set_flag FBold true no_flags.
Definition fancy : span := mkSpan (lit "Hi") (Some red_) (Some on_blue) (lit "http://x") (set_flag FItalic true bold) true.
Example fancy_layers : layer_text tc false (Some red_) (Some (ERgb 255 0 0)) /\ layer_text tc true (Some on_blue) (Some (ERgb 0 0 255)).
Proof.
  split; (split; [reflexivity|]).
  - exists [38; 2; 255; 0; 0]. split; [split; [lia|reflexivity]|vm_compute; reflexivity].
  - exists [48; 2; 0; 0; 255]. split; [split; [lia|reflexivity]|vm_compute; reflexivity].
Qed.

(** ** C15 *)
(** Printing a span puts its text in its style, attributes, colors and link added to the pen in
    force, and ends with the default pen (or, without reset_after, the span's).  Each color has
    to be displayed on the layer it is given for: one of the wrong layer is not (C15_wrong_layer). *)
Theorem C15_printed : forall e s fg bg m, displayed e false (s_fg s) fg -> displayed e true (s_bg s) bg ->
  printable (s_text s) -> linkable (s_link s) -> e_parse m = PGround ->
  vt (span_str e s) m =
    let pen := styled (s_flags s) fg bg (e_rend m) in
    let linked := negb (str_eqb (s_link s) []) in
    let m1 := set_rend pen (if linked then set_link (s_link s) m else m) in
    let m2 := type_text (s_text s) m1 in
    let m3 := if s_reset s && has_style s then set_rend rend0 m2 else m2 in
    if linked then set_link [] m3 else m3.
Proof. exact span_printed. Qed.
Print Assumptions C15_printed.

(** ... as seen on the grid, when the text fits in the row *)
Theorem C15_shown : forall e s fg bg m, displayed e false (s_fg s) fg -> displayed e true (s_bg s) bg ->
  printable (s_text s) -> linkable (s_link s) -> e_parse m = PGround -> e_rend m = rend0 -> e_link m = [] ->
  e_wrap m = false -> 0 <= e_x m -> 0 < zlen (s_text s) -> e_x m + zlen (s_text s) <= e_w m ->
  let m' := vt (span_str e s) m in
  let look := styled (s_flags s) fg bg rend0 in
  (forall k c, nth_error (s_text s) k = Some c ->
     e_grid m' (e_x m + Z.of_nat k) (e_y m) = (c, look, s_link s)) /\
  (forall x y, ~ (y = e_y m /\ e_x m <= x < e_x m + zlen (s_text s)) -> e_grid m' x y = e_grid m x y) /\
  e_link m' = [] /\ e_parse m' = PGround /\
  e_rend m' = (if s_reset s then rend0 else look).
Proof. exact span_shown. Qed.
Print Assumptions C15_shown.

(** Which colors are displayed: those not made from an escape description, as their approximation in
    the color space in force; those made from one, as described, when the space allows it. *)
Theorem C15_colors : forall e c, color_ok c -> no_ansi_ctor c ->
  (env_cs e = NO_COLOR -> pow_accurate (env_pow e)) ->
  exists x, approximates e c x /\ displayed e (c_bg c) (Some c) (Some x).
Proof. exact free_color_displayed. Qed.
Print Assumptions C15_colors.
Theorem C15_described_colors : forall e c x k, c_ctor c = Some k -> color_text (c_bg c) x k ->
  rank (c_origin c) <= rank (env_cs e) -> displayed e (c_bg c) (Some c) (Some x).
Proof. exact described_displayed. Qed.
Print Assumptions C15_described_colors.

Theorem C15_wrong_layer : exists e s, s_text s = lit "a" /\ (exists c, s_fg s = Some c) /\ s_bg s = None /\
  let m := vt (span_str e s) (emu0 80 24) in
  exists pen link, e_grid m 0 0 = (97, pen, link) /\ r_fg pen = EDefault /\ r_bg pen = ERgb 0 0 255.
Proof.
  exists tc, (mkSpan (lit "a") (Some on_blue) None [] no_flags true). split; [reflexivity|]. split; [eexists; reflexivity|].
  split; [reflexivity|]. cbv zeta. eexists. eexists. vm_compute. split; [reflexivity|]. split; reflexivity.
Qed.
Print Assumptions C15_wrong_layer.

Example C15_ex : let m := vt (span_str tc fancy) (emu0 80 24) in
  exists pen, e_grid m 1 0 = (105, pen, lit "http://x") /\ r_fg pen = ERgb 255 0 0 /\ r_bold pen = true /\ r_dim pen = false.
Proof. cbv zeta. eexists. vm_compute. repeat split. Qed.
Example C15_ex_hyps : printable (s_text fancy) /\ linkable (s_link fancy) /\
  displayed tc false (s_fg fancy) (Some (ERgb 255 0 0)) /\ displayed tc true (s_bg fancy) (Some (ERgb 0 0 255)).
Proof.
  repeat match goal with |- _ /\ _ => split end.
  - repeat constructor.
  - unfold linkable. cbn. intuition discriminate.
  - apply layer_displayed, fancy_layers.
  - apply layer_displayed, fancy_layers.
Qed.

(** ** C16 *)
(** [quiet_span]: no escape in the text, no escape or newline in the link, and the colors print no m,
    H or newline (a color made from an odd description is printed raw: C16_odd_color). *)
Theorem C16_width : forall e s, quiet_span e s ->
  width_str (span_str e s) = zlen (s_text s) /\ span_len s = zlen (s_text s) /\ width_span s = zlen (s_text s).
Proof. exact width_one. Qed.
Print Assumptions C16_width.
Theorem C16_additive : forall e l, Forall (quiet_span e) l ->
  width_str (flat_map (span_str e) l) = fold_right (fun s n => span_len s + n) 0 l.
Proof. exact width_spans. Qed.
Print Assumptions C16_additive.
Theorem C16_colors : forall e c,
  (forall k, c_ctor c = Some k -> startswith (lit "#") k = false -> calm k) -> calm (color_ansi e c).
Proof. exact color_calm. Qed.
Print Assumptions C16_colors.
Theorem C16_odd_color : exists e, match from_ansi (lit "m;5") fone with
  | Ok c => width_str (span_str e (mkSpan (lit "x") (Some c) None [] no_flags true)) <> 1
  | Err _ => False end.
Proof. exists tc. vm_compute. discriminate. Qed.
Print Assumptions C16_odd_color.
Example C16_ex : quiet_span tc fancy /\ width_str (span_str tc fancy) = 2.
Proof.
  split; [|vm_compute; reflexivity]. unfold quiet_span. repeat match goal with |- _ /\ _ => split end.
  - unfold no_esc. cbn. intuition discriminate.
  - cbn. intuition discriminate.
  - cbn. intuition discriminate.
  - intros c [H|H]; injection H as <-; unfold calm; vm_compute; intuition discriminate.
Qed.

(** ** C17 *)
(** The named attributes get the given values, the others keep theirs - except reset_after, which
    goes back to True when not named (C17_reset_after). *)
Theorem C17_mutate : forall s opts a, NoDup (keywords opts) ->
  (forall v, sets opts a v -> attr_of (mutate s opts) a = v) /\
  (~ In a (keywords opts) -> a <> AReset -> attr_of (mutate s opts) a = attr_of s a) /\
  (~ In AReset (keywords opts) -> attr_of (mutate s opts) AReset = VBool true).
Proof. exact mutate_attrs. Qed.
Print Assumptions C17_mutate.
Theorem C17_as_color : forall s c,
  let a := if c_bg c then ABg else AFg in
  attr_of (as_color s c) a = VColor (Some c) /\
  (forall b, b <> a -> b <> AReset -> attr_of (as_color s c) b = attr_of s b) /\
  attr_of (as_color s c) AReset = VBool true.
Proof. exact as_color_attrs. Qed.
Print Assumptions C17_as_color.
Theorem C17_as_flag : forall k s v,
  attr_of (as_flag k s v) (AFlag k) = VBool v /\
  (forall b, b <> AFlag k -> b <> AReset -> attr_of (as_flag k s v) b = attr_of s b) /\
  attr_of (as_flag k s v) AReset = VBool true.
Proof. exact as_flag_attrs. Qed.
Print Assumptions C17_as_flag.
Theorem C17_as_hyperlink : forall s l,
  attr_of (as_hyperlink s l) ALink = VText l /\
  (forall b, b <> ALink -> b <> AReset -> attr_of (as_hyperlink s l) b = attr_of s b) /\
  attr_of (as_hyperlink s l) AReset = VBool true.
Proof. exact as_hyperlink_attrs. Qed.
Print Assumptions C17_as_hyperlink.
Theorem C17_reset_after : exists s opts, NoDup (keywords opts) /\ ~ In AReset (keywords opts) /\
  attr_of (mutate s opts) AReset <> attr_of s AReset.
Proof.
  exists (mkSpan (lit "a") None None [] bold false), [MFlag FDim true]. split; [repeat constructor; intros []|].
  split; [cbn; intuition discriminate|]. discriminate.
Qed.
Print Assumptions C17_reset_after.
Example C17_ex : NoDup (keywords [MText (lit "b"); MFlag FBold false; MFg None]) /\
  mutate fancy [MText (lit "b"); MFlag FBold false; MFg None]
  = mkSpan (lit "b") None (Some on_blue) (lit "http://x") (set_flag FItalic true no_flags) true.
Proof. split; [repeat (constructor; [cbn; intuition discriminate|]); constructor|reflexivity]. Qed.

(** ** C18 *)
(** Slices, single characters and splits; each piece has every attribute of the span except that
    reset_after becomes True. *)
Theorem C18_slice : forall s a b,
  is_slice a b (s_text s) (s_text (span_slice s a b)) /\
  span_slice s a b = mkSpan (s_text (span_slice s a b)) (s_fg s) (s_bg s) (s_link s) (s_flags s) true.
Proof. exact span_slice_spec. Qed.
Print Assumptions C18_slice.
Theorem C18_cut : forall s i, s_text (span_slice s None (Some i)) ++ s_text (span_slice s (Some i) None) = s_text s.
Proof. intros s i. exact (slice_cut (s_text s) i). Qed.
Print Assumptions C18_cut.
Theorem C18_index : forall i s,
  (- zlen (s_text s) <= i < zlen (s_text s) /\
   exists c, nth_error (s_text s) (Z.to_nat (if i <? 0 then i + zlen (s_text s) else i)) = Some c /\
     span_index s i = Ok (mkSpan [c] (s_fg s) (s_bg s) (s_link s) (s_flags s) true)) \/
  (~ (- zlen (s_text s) <= i < zlen (s_text s)) /\ span_index s i = Err IndexError).
Proof. exact index_spec. Qed.
Print Assumptions C18_index.
Theorem C18_contains : forall t s, span_contains t s = true <-> exists a b, s_text s = a ++ t ++ b.
Proof. intros t s. exact (contains_app_iff t (s_text s)). Qed.
Print Assumptions C18_contains.
Theorem C18_split : forall s sep, sep <> [] ->
  exists parts, span_split s sep = Ok (map (fun p => mkSpan p (s_fg s) (s_bg s) (s_link s) (s_flags s) true) parts) /\
    parts <> [] /\ join sep parts = s_text s /\ Forall (fun p => forall a b, p <> a ++ sep ++ b) parts.
Proof. exact split_spec. Qed.
Print Assumptions C18_split.
Theorem C18_same_style : forall s t, s_reset s = true -> same_style s (mkSpan t (s_fg s) (s_bg s) (s_link s) (s_flags s) true).
Proof. exact mutate_text_style. Qed.
Print Assumptions C18_same_style.
Theorem C18_reset_after : exists s a b, ~ same_style s (span_slice s a b).
Proof.
  exists (mkSpan (lit "ab") None None [] bold false), None, (Some 1). intro H.
  specialize (H AReset). discriminate H. discriminate.
Qed.
Print Assumptions C18_reset_after.
Example C18_ex : s_text (span_slice fancy (Some (-1)) None) = lit "i" /\
  option_map (map s_text) (match span_split (plain_span (lit "a--b--")) (lit "--") with Ok l => Some l | Err _ => None end)
  = Some [lit "a"; lit "b"; []].
Proof. vm_compute. auto. Qed.

(** ** C19 *)
(** Every entry of get_characters, for all spans and options.  The last character of a span without
    reset_after loses its sequence (C19_last_unreset). *)
Theorem C19_entries : forall e s ex al,
  let l := get_characters e s ex al in
  List.length l = List.length (s_text s) /\
  forall k c, nth_error (s_text s) k = Some c ->
    nth_error l k = Some (entry (layer_sequences e s ex) (s_reset s) al (List.length (s_text s)) k c).
Proof. exact characters_spec. Qed.
Print Assumptions C19_entries.
Theorem C19_concat : forall e s ex al,
  let q := layer_sequences e s ex in
  s_text s <> [] -> al = false -> (s_reset s = true \/ (2 <= List.length (s_text s))%nat \/ q = []) ->
  concat (get_characters e s ex al) =
    q ++ s_text s ++ (if s_reset s && negb (str_eqb q []) then RESET else []).
Proof. exact characters_concat. Qed.
Print Assumptions C19_concat.
Theorem C19_is_str : forall e s, s_link s = [] -> s_text s <> [] ->
  (s_reset s = true \/ (2 <= List.length (s_text s))%nat) ->
  concat (get_characters e s false false) = span_str e s.
Proof. exact characters_str. Qed.
Print Assumptions C19_is_str.
Theorem C19_always : forall e s ex k c, s_reset s = true -> nth_error (s_text s) k = Some c ->
  exists r, nth_error (get_characters e s ex true) k = Some (layer_sequences e s ex ++ c :: r).
Proof. exact characters_always. Qed.
Print Assumptions C19_always.
Theorem C19_last_unreset : exists s, s_text s = lit "a" /\ s_link s = [] /\
  concat (get_characters tc s false false) <> span_str tc s.
Proof. exists (mkSpan (lit "a") None None [] bold false). split; [reflexivity|]. split; [reflexivity|]. vm_compute. discriminate. Qed.
Print Assumptions C19_last_unreset.
Theorem C19_always_unreset : exists s k c, nth_error (s_text s) k = Some c /\
  nth_error (get_characters tc s false true) k = Some [c] /\ span_sequences tc s <> [].
Proof. exists (mkSpan (lit "ab") None None [] bold false), 1%nat, 98. vm_compute. repeat split. discriminate. Qed.
Print Assumptions C19_always_unreset.
Theorem C19_empty : exists s, s_link s = [] /\ s_reset s = true /\ concat (get_characters tc s false false) <> span_str tc s.
Proof. exists (mkSpan [] None None [] bold true). vm_compute. repeat split. discriminate. Qed.
Print Assumptions C19_empty.
Example C19_ex : get_characters tc (mkSpan (lit "abc") None None [] bold true) true true
  = [csi_m (lit "1") ++ lit "a"; csi_m (lit "1") ++ lit "b"; csi_m (lit "1") ++ lit "c" ++ RESET].
Proof. vm_compute. reflexivity. Qed.

(** ** C20 *)
(** The texts of the parsed spans.  Text before the first sequence is dropped (C20_lead_dropped), a
    final reset comes out as text (the [tail]). *)
Theorem C20_texts : forall lead l tail ss, ~ In 27 lead -> Forall piece_ok l -> tail_ok tail ->
  (l = [] -> lead <> [] /\ tail = []) -> parse_line (line_of lead l ++ tail) = Ok ss ->
  map s_text ss = (if match l with [] => true | _ => false end then [lead] else map snd l)
                  ++ (if str_eqb tail [] then [] else [tail]).
Proof. exact parse_texts. Qed.
Print Assumptions C20_texts.
Theorem C20_lead_dropped : exists lead l ss, lead <> [] /\ Forall piece_ok l /\ parse_line (line_of lead l) = Ok ss /\
  concat (map s_text ss) = concat (map snd l).
Proof.
  exists (lit "ab"), [(lit "1", lit "c")]. eexists. split; [discriminate|]. split.
  - repeat constructor; cbn; intuition discriminate.
  - split; [vm_compute; reflexivity|]. reflexivity.
Qed.
Print Assumptions C20_lead_dropped.
Example C20_ex : piece_ok (lit "38;5;9;1", lit "a b") /\
  match parse_line (line_of [] [(lit "38;5;9;1", lit "a b"); (lit "39", lit "c")]) with
  | Ok ss => map s_text ss = [lit "a b"; lit "c"] | Err _ => False end.
Proof. split; [repeat split; cbn; intuition discriminate|vm_compute; reflexivity]. Qed.

(** ** C21 *)
(** Parsing a printed span gives it back first; a span printed with a reset is followed by a
    bogus span holding the reset (C21_reset_span), and two printed spans do not parse
    (C21_concat_raises). *)
Theorem C21_equal : forall e s, env_cs e = TRUE_COLOR ->
  (forall c, s_fg s = Some c -> c_bg c = false /\ color_ok c /\ no_ansi_ctor c /\ c_alpha c = fone) ->
  (forall c, s_bg s = Some c -> c_bg c = true /\ color_ok c /\ no_ansi_ctor c /\ c_alpha c = fone) ->
  fl_opaque (s_flags s) = false -> s_link s = [] -> text_ok (s_text s) ->
  exists s', first_from (span_str e s) = Ok (Some s') /\
    span_eqb e s' (mkSpan (s_text s) (s_fg s) (s_bg s) [] (s_flags s) true) = true /\
    parse_line (span_str e s) = Ok (s' :: if s_reset s && has_style s then [plain_span RESET] else []).
Proof. exact parse_printed_eq. Qed.
Print Assumptions C21_equal.
(** In every color space: the parsed span looks as a terminal shows the printed one. *)
Theorem C21_look : forall e s fg bg, layer_text e false (s_fg s) fg -> layer_text e true (s_bg s) bg ->
  fl_opaque (s_flags s) = false -> s_link s = [] -> text_ok (s_text s) ->
  exists s', yield_from (span_str e s) = (s' :: (if s_reset s && has_style s then [plain_span RESET] else []), None) /\
    s_text s' = s_text s /\ looks_like s' (styled (s_flags s) fg bg rend0).
Proof. exact parse_printed. Qed.
Print Assumptions C21_look.
Theorem C21_reset_span : exists s, s_text s = lit "a" /\ s_fg s = None /\ s_bg s = None /\
  parse_line (span_str tc s) = Ok [s; plain_span RESET].
Proof. exists (mkSpan (lit "a") None None [] bold true). vm_compute. auto. Qed.
Print Assumptions C21_reset_span.
(** Printed spans one after the other: the reset of a styled one ends the parse, whatever follows. *)
Theorem C21_concat_raises : forall e s t fg bg fg' bg', layer_text e false (s_fg s) fg -> layer_text e true (s_bg s) bg ->
  layer_text e false (s_fg t) fg' -> layer_text e true (s_bg t) bg' ->
  fl_opaque (s_flags s) = false -> fl_opaque (s_flags t) = false -> s_link s = [] -> s_link t = [] ->
  text_ok (s_text s) -> text_ok (s_text t) -> has_style s = true -> s_reset s = true ->
  exists s', s_text s' = s_text s /\ looks_like s' (styled (s_flags s) fg bg rend0) /\
    forall more, yield_from (span_str e s ++ span_str e t ++ more) = ([s'], Some ValueError).
Proof. exact parse_two_printed. Qed.
Print Assumptions C21_concat_raises.
Example C21_ex_concat : let s := mkSpan (lit "a") None None [] bold true in
  has_style s = true /\ fl_opaque (s_flags s) = false /\ text_ok (s_text s) /\ layer_text tc false (s_fg s) None /\
  yield_from (span_str tc s ++ span_str tc s ++ lit "more") = ([s], Some ValueError).
Proof. split; [reflexivity|]. split; [reflexivity|]. split; [repeat split; cbn; intuition discriminate|]. split; [exact I|]. vm_compute. reflexivity. Qed.
Theorem C21_link_lost : exists s s', parse_line (span_str tc s) = Ok [s'] /\
  s_link s <> s_link s'.
Proof.
  exists (mkSpan (lit "a") None None (lit "u") no_flags true). eexists. split; [vm_compute; reflexivity|]. discriminate.
Qed.
Print Assumptions C21_link_lost.
Theorem C21_opaque_lost : exists s s' r, s_link s = [] /\ parse_line (span_str tc s) = Ok (s' :: r) /\
  fl_opaque (s_flags s) = true /\ fl_opaque (s_flags s') = false.
Proof.
  exists (mkSpan (lit "a") None None [] (set_flag FOpaque true no_flags) true). eexists. eexists. split; [reflexivity|].
  split; [vm_compute; reflexivity|]. auto.
Qed.
Print Assumptions C21_opaque_lost.
Example C21_ex : let s := mkSpan (lit "Hi") (Some red_) None [] bold false in
  match parse_line (span_str tc s) with Ok [s'] => span_eqb tc s' (mutate s []) = true | _ => False end.
Proof. vm_compute. reflexivity. Qed.

(** ** C22 *)
(** Supported parameters: 1-9, 22, 23, 24, 27, 39, 49 and all color selections, in any order and
    number, over any number of sequences.  (The reset 0 is rejected, 25 leaves fast_blink on, 28 and
    29 are rejected: C22_reset_raises, C22_blink_stays, C22_reveal_raises.) *)
Theorem C22_agrees : forall lead l tail, ~ In 27 lead -> l <> [] -> tail_ok tail ->
  Forall (fun p => supported (fst p) /\ fst p <> [] /\ text_ok (snd p)) l ->
  exists ss, yield_from (line_of lead (sgr_pieces l) ++ tail)
             = (ss ++ (if str_eqb tail [] then [] else [plain_span tail]), None) /\
    Forall2 (fun s tp => s_text s = fst tp /\ looks_like s (snd tp)) ss (pens rend0 l).
Proof. exact parse_sgr_line. Qed.
Print Assumptions C22_agrees.
(** [pens] is what a terminal does with the same line. *)
Theorem C22_terminal : forall l m, e_parse m = PGround ->
  Forall (fun p => supported (fst p) /\ fst p <> [] /\ printable (snd p)) l ->
  vt (line_of [] (sgr_pieces l)) m =
  fold_left (fun m tp => type_text (fst tp) (set_rend (snd tp) m)) (pens (e_rend m) l) m.
Proof. exact vt_sgr_line. Qed.
Print Assumptions C22_terminal.
Theorem C22_reset_raises : exists l, parse_line (line_of [] (sgr_pieces l)) = Err ValueError /\
  pens rend0 l = [(lit "a", sgr [1] rend0); (lit "b", rend0)].
Proof. exists [([1], lit "a"); ([0], lit "b")]. vm_compute. auto. Qed.
Print Assumptions C22_reset_raises.
Theorem C22_blink_stays : exists l s1 s2, parse_line (line_of [] (sgr_pieces l)) = Ok [s1; s2] /\
  pens rend0 l = [(lit "a", sgr [6] rend0); (lit "b", rend0)] /\ fl_fast_blink (s_flags s2) = true.
Proof. exists [([6], lit "a"); ([25], lit "b")]. eexists. eexists. vm_compute. repeat split. Qed.
Print Assumptions C22_blink_stays.
Theorem C22_reveal_raises : exists l, parse_line (line_of [] (sgr_pieces l)) = Err TypeError /\
  pens rend0 l = [(lit "a", sgr [8] rend0); (lit "b", rend0)].
Proof. exists [([8], lit "a"); ([28], lit "b")]. vm_compute. auto. Qed.
Print Assumptions C22_reveal_raises.
Example C22_ex : supported [1; 38; 2; 1; 2; 3; 44; 22; 103; 39] /\
  sgr [1; 38; 2; 1; 2; 3; 44; 22; 103; 39] rend0 = with_bg (EIdx 11) rend0.
Proof.
  split; [|reflexivity].
  apply sup_code; [cbn; tauto|].
  apply (sup_color false (ERgb 1 2 3) [38; 2; 1; 2; 3]); [split; [lia|reflexivity]|].
  apply (sup_color true (EIdx 4) [44]); [right; left; split; [lia|reflexivity]|].
  apply sup_code; [cbn; tauto|].
  apply (sup_color true (EIdx 11) [103]); [right; right; split; [lia|reflexivity]|].
  apply sup_code; [cbn; tauto|]. constructor.
Qed.

(** ** C23 *)
(** Parsing never raises anything but ValueError, IndexError and TypeError.  The last two do occur
    (C23_TypeError, C23_IndexError); they need a '.' or one of the parameters 26, 28, 29, 54. *)
Theorem C23_exceptions : forall line x, parse_line line = Err x ->
  x = ValueError \/ (x = IndexError /\ exists b, occurs b line /\ In 46 b) \/
  (x = TypeError /\ exists b p, occurs b line /\ In p (split_on 59 b) /\ In p bad_parts).
Proof. exact parse_exn. Qed.
Print Assumptions C23_exceptions.
Theorem C23_ValueError : forall line,
  (forall b, occurs b line -> ~ In 46 b /\ forall p, In p (split_on 59 b) -> ~ In p bad_parts) ->
  (exists ss, parse_line line = Ok ss) \/ parse_line line = Err ValueError.
Proof. exact parse_ValueError. Qed.
Print Assumptions C23_ValueError.
Theorem C23_TypeError : exists line, parse_line line = Err TypeError.
Proof. exists (csi_m (lit "28") ++ lit "x"). vm_compute. reflexivity. Qed.
Print Assumptions C23_TypeError.
Theorem C23_IndexError : exists line, parse_line line = Err IndexError.
Proof. exists (csi_m (lit "38;2;1;2;.5") ++ lit "x"). vm_compute. reflexivity. Qed.
Print Assumptions C23_IndexError.
Example C23_ex : parse_line (csi_m (lit "1;what") ++ lit "x") = Err ValueError /\
  occurs (lit "1;what") (csi_m (lit "1;what") ++ lit "x").
Proof. split; [vm_compute; reflexivity|]. exists [], 109, (lit "x"), []. split; [reflexivity|]. split; [auto|discriminate]. Qed.

(** ** C24 *)
(** Grouping a row of cells (each one character with attributes and colors, as a screen stores it):
    lossless, no group could be joined with its neighbour.  [no_clash] excludes rows in which a
    colored cell follows an uncolored run with its character, which are grouped wrongly
    (C24_clash). *)
Theorem C24_group : forall e scells row, Forall2 stored scells row -> Forall (scell_ok e) scells -> no_clash scells ->
  scells <> [] ->
  exists gs, group e row = Ok gs /\ gs <> [] /\ Forall good_group gs /\ maximal gs /\
    Forall2 carries (flat_map letters gs) scells.
Proof. exact group_spec. Qed.
Print Assumptions C24_group.
Theorem C24_colored : forall row, Forall (fun c => ~ uncolored c) row -> no_clash row.
Proof. exact no_clash_colored. Qed.
Print Assumptions C24_colored.
Theorem C24_plain : forall row, Forall uncolored row -> no_clash row.
Proof. exact no_clash_plain. Qed.
Print Assumptions C24_plain.
Theorem C24_empty : forall e, group e [] = Ok [EMPTY_SPAN].
Proof. reflexivity. Qed.
Print Assumptions C24_empty.
Theorem C24_clash : exists row, row = [(lit "b", Some red_, None); (lit "a", None, None); (lit "a", Some red_, None)] /\
  match group tc row with
  | Ok gs => map (fun g => (s_text g, match s_fg g with Some _ => true | None => false end)) gs
             = [(lit "b", true); (lit "aa", false)]
  | Err _ => False
  end.
Proof. eexists. split; [reflexivity|]. vm_compute. reflexivity. Qed.
Print Assumptions C24_clash.
Definition ex_cells : list scell :=
  [(97, no_flags, Some red_, None, true); (98, no_flags, Some red_, None, true); (98, bold, Some red_, Some on_blue, true)].
Example C24_ex_hyps : Forall (scell_ok tc) ex_cells /\ no_clash ex_cells /\
  Forall2 stored ex_cells [(lit "a", Some red_, None); (lit "b", Some red_, None); (csi_m (lit "1") ++ lit "b" ++ RESET, Some red_, Some on_blue)].
Proof.
  assert (RF : regular tc (Some red_)) by (intros c H; injection H as <-; exists (ERgb 255 0 0); apply fancy_layers).
  assert (RB : regular tc (Some on_blue)) by (intros c H; injection H as <-; exists (ERgb 0 0 255); apply fancy_layers).
  assert (RN : regular tc None) by (intros c H; discriminate).
  split; [|split].
  - repeat constructor; assumption || discriminate.
  - apply no_clash_colored. repeat constructor; cbn; intuition discriminate.
  - constructor; [|constructor; [|constructor; [|constructor]]].
    + split; [reflexivity|]. split; [reflexivity|]. left. split; [intros []; reflexivity|reflexivity].
    + split; [reflexivity|]. split; [reflexivity|]. left. split; [intros []; reflexivity|reflexivity].
    + split; [reflexivity|]. split; [reflexivity|]. right. split; [intro H; discriminate (H FBold)|].
      eexists. split; [reflexivity|]. reflexivity.
Qed.
Example C24_ex : match group tc [(lit "a", Some red_, None); (lit "b", Some red_, None); (csi_m (lit "1") ++ lit "b" ++ RESET, Some red_, Some on_blue)] with
  | Ok gs => map s_text gs = [lit "ab"; lit "b"] | Err _ => False end.
Proof. vm_compute. reflexivity. Qed.

(** ** C25 *)
Theorem C25_escape : forall t, escape_html t = flat_map entity t.
Proof. exact escape_entities. Qed.
Print Assumptions C25_escape.
Theorem C25_safe : forall t c, In c (escape_html t) -> ~ In c [60; 62; 34; 39; 32].
Proof. exact escape_safe. Qed.
Print Assumptions C25_safe.
Theorem C25_ampersand : forall t p q, escape_html t = p ++ 38 :: q -> exists u r, In (38 :: u) entities /\ q = u ++ r.
Proof. exact escape_amp. Qed.
Print Assumptions C25_ampersand.
Theorem C25_injective : forall a b, escape_html a = escape_html b -> a = b.
Proof. exact escape_inj. Qed.
Print Assumptions C25_injective.
Example C25_ex : escape_html (lit "<a href='&amp;'>") = lit "&lt;a&#160;href=&#x27;&amp;amp;&#x27;&gt;".
Proof. vm_compute. reflexivity. Qed.
