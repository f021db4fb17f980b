(** Lemmas about the document of a terminal export. *)
From Coq Require Import ZArith List Bool Lia String.
From Verif Require Import PyBase PyLemmas F64 ColorModel ColorSpec ColorProofs ColorProofs2 SpanModel SpanSpec SpanProofs2 GroupProofs ScreenModel TermModel SvgSpec SvgProofs SvgDocModel SvgDocSpec.
Import ListNotations.
Open Scope Z_scope.
Open Scope list_scope.

(** * Building texts *)
Lemma chardata_app : forall a b r s, chardata a r -> chardata b s -> chardata (a ++ b) (r ++ s).
Proof.
  intros a b r s H G. induction H as [|c t r Hc Hn H IH|n c t r Hi H IH]; cbn [app]; auto.
  - now constructor.
  - rewrite <- app_assoc. now apply cd_ref.
Qed.
Definition plain_char (c : Z) : bool := xml_char c && negb (existsb (Z.eqb c) [60; 62; 38]).
Lemma chardata_by : forall s, forallb plain_char s = true -> chardata s s.
Proof.
  induction s as [|c s IH]; intro H; [constructor|]. cbn [forallb] in H. apply andb_prop in H. destruct H as [Hc H].
  unfold plain_char in Hc. apply andb_prop in Hc. destruct Hc as [Hc Hn].
  constructor; auto. intro I. apply negb_true_iff in Hn.
  assert (E : existsb (Z.eqb c) [60; 62; 38] = true) by (apply existsb_exists; exists c; split; auto; apply Z.eqb_refl).
  rewrite E in Hn. discriminate.
Qed.
Lemma forallb_concat : forall A (f : A -> bool) l, Forall (fun s => forallb f s = true) l -> forallb f (List.concat l) = true.
Proof. intros A f l H. induction H as [|s l Hs H IH]; auto. cbn. now rewrite forallb_app, Hs, IH. Qed.

Definition value_char (c : Z) : bool := xml_char c && negb (existsb (Z.eqb c) [9; 10; 60; 38; 34; 39]).
Lemma value_by : forall q s, q = 34 \/ q = 39 -> forallb value_char s = true -> value q s s.
Proof.
  intros q s Hq. induction s as [|c s IH]; intro H; [constructor|]. cbn [forallb] in H. apply andb_prop in H. destruct H as [Hc H].
  unfold value_char in Hc. apply andb_prop in Hc. destruct Hc as [Hc Hn].
  constructor; auto. intro I. apply negb_true_iff in Hn.
  assert (E : existsb (Z.eqb c) [9; 10; 60; 38; 34; 39] = true).
  { apply existsb_exists. exists c. split; [|apply Z.eqb_refl]. cbn [In] in I |- *. intuition lia. }
  rewrite E in Hn. discriminate.
Qed.

Lemma plain_of_range : forall c, 33 <= c <= 1000 -> c <> 60 -> c <> 62 -> c <> 38 -> plain_char c = true.
Proof.
  intros c H H1 H2 H3. unfold plain_char, xml_char. cbn [existsb].
  rewrite (proj2 (Z.leb_le 32 c)), (proj2 (Z.leb_le c 55295)) by lia.
  rewrite (proj2 (Z.eqb_neq c 60)), (proj2 (Z.eqb_neq c 62)), (proj2 (Z.eqb_neq c 38)) by auto.
  rewrite !orb_true_r. reflexivity.
Qed.
Lemma value_of_range : forall c, 33 <= c <= 1000 -> c <> 60 -> c <> 38 -> c <> 34 -> c <> 39 -> value_char c = true.
Proof.
  intros c H H1 H2 H3 H4. unfold value_char, xml_char. cbn [existsb].
  rewrite (proj2 (Z.leb_le 32 c)), (proj2 (Z.leb_le c 55295)) by lia.
  rewrite (proj2 (Z.eqb_neq c 60)), (proj2 (Z.eqb_neq c 38)), (proj2 (Z.eqb_neq c 34)), (proj2 (Z.eqb_neq c 39)),
    (proj2 (Z.eqb_neq c 9)), (proj2 (Z.eqb_neq c 10)) by lia.
  rewrite !orb_true_r. reflexivity.
Qed.
Lemma numeral_chars : forall v, numeral v -> forallb value_char v = true /\ forallb plain_char v = true.
Proof.
  intros v H. split; apply forallb_forall; intros c Hc; apply (proj1 (Forall_forall _ _) H) in Hc; cbn [In] in Hc;
    [apply value_of_range|apply plain_of_range]; lia.
Qed.
Lemma hex_chars : forall c, color_ok c -> forallb value_char (color_hex c) = true /\ forallb plain_char (color_hex c) = true.
Proof.
  intros c H. destruct (hex_roundtrip c H) as [d1 [d2 [d3 [d4 [d5 [d6 [-> [F _]]]]]]]].
  split; cbn [forallb]; (apply andb_true_iff; split; [reflexivity|]); apply (proj2 (forallb_forall _ [d1; d2; d3; d4; d5; d6]));
    intros x Hx; apply (proj1 (Forall_forall _ _) F) in Hx; unfold upper_hex in Hx; [apply value_of_range|apply plain_of_range]; lia.
Qed.
Lemma dec_plain : forall i, forallb value_char (dec i) = true /\ forallb plain_char (dec i) = true.
Proof.
  intro i. split; apply forallb_forall; intros c Hc; apply dec_chars in Hc; [apply value_of_range|apply plain_of_range]; lia.
Qed.
Lemma class_plain : forall i, forallb value_char (class_name i) = true /\ forallb plain_char (class_name i) = true.
Proof. intro i. unfold class_name. rewrite !forallb_app. destruct (dec_plain i) as [-> ->]. split; reflexivity. Qed.

(** text of a span *)
Lemma escaped_chardata : forall t, forallb xml_char t = true -> chardata (unbroken t) (escape_html t).
Proof.
  intros t H. rewrite escape_entities. induction t as [|c t IH]; [constructor|]. cbn [forallb] in H. apply andb_prop in H. destruct H as [Hc H].
  cbn [flat_map unbroken map]. unfold entity. specialize (IH H).
  destruct (c =? 38) eqn:E1; [apply Z.eqb_eq in E1; subst; apply cd_ref; auto; cbn; auto|].
  destruct (c =? 60) eqn:E2; [apply Z.eqb_eq in E2; subst; apply cd_ref; auto; cbn; auto|].
  destruct (c =? 62) eqn:E3; [apply Z.eqb_eq in E3; subst; apply cd_ref; auto; cbn; auto|].
  destruct (c =? 34) eqn:E4; [apply Z.eqb_eq in E4; subst; apply cd_ref; auto; cbn; auto|].
  destruct (c =? 39) eqn:E5; [apply Z.eqb_eq in E5; subst; apply cd_ref; auto; cbn; tauto|].
  destruct (c =? 32) eqn:E6; [apply cd_ref; auto; cbn; tauto|].
  cbn [app]. apply Z.eqb_neq in E1, E2, E3. apply cd_plain; auto. cbn [In]. intuition.
Qed.

(** * Building elements *)
Fixpoint attrs_str (l : list (str * Z * attr)) : str :=
  match l with [] => [] | (gap, q, (n, v)) :: r => gap ++ n ++ [61; q] ++ v ++ [q] ++ attrs_str r end.
Definition name_by (n : str) : bool := match n with [] => false | _ => forallb name_char n end.
Definition attr_by (x : str * Z * attr) : bool :=
  let '(gap, q, (n, v)) := x in
  match gap with [] => false | _ => forallb (fun c => (c =? 32) || (c =? 10)) gap end && name_by n && ((q =? 34) || (q =? 39)).
Lemma name_by_ok : forall n, name_by n = true -> xml_name n.
Proof. intros [|c n] H; [discriminate|]. split; [discriminate|exact H]. Qed.
Lemma attrs_by : forall l, forallb attr_by l = true -> Forall (fun x => forallb value_char (snd (snd x)) = true) l ->
  attributes (map snd l) (attrs_str l).
Proof.
  induction l as [|[[gap q] [n v]] l IH]; intros H F; [constructor|]. cbn [forallb] in H. apply andb_prop in H. destruct H as [Ha H].
  inversion F as [|? ? Hv Fl]; subst. cbn [snd] in Hv. unfold attr_by in Ha. apply andb_prop in Ha. destruct Ha as [Ha Hq].
  apply andb_prop in Ha. destruct Ha as [Hg Hn]. cbn [map snd attrs_str].
  assert (Q : q = 34 \/ q = 39) by (apply orb_prop in Hq; destruct Hq as [Hq|Hq]; apply Z.eqb_eq in Hq; auto).
  apply at_cons; auto.
  - destruct gap; [discriminate|discriminate].
  - destruct gap as [|g gap]; [discriminate|]. apply Forall_forall. intros c Hc.
    apply (proj1 (forallb_forall _ _) Hg) in Hc. apply orb_prop in Hc. unfold white. destruct Hc as [Hc|Hc]; apply Z.eqb_eq in Hc; auto.
  - now apply name_by_ok.
  - now apply value_by.
Qed.
Fixpoint distinct_by (l : list str) : bool :=
  match l with [] => true | n :: r => negb (existsb (str_eqb n) r) && distinct_by r end.
Lemma distinct_by_ok : forall l, distinct_by l = true -> NoDup l.
Proof.
  induction l as [|n l IH]; intro H; [constructor|]. cbn [distinct_by] in H. apply andb_prop in H. destruct H as [H1 H2].
  constructor; auto. intro I. apply negb_true_iff in H1.
  assert (E : existsb (str_eqb n) l = true) by (apply existsb_exists; exists n; split; auto; now apply str_eqb_eq).
  rewrite E in H1. discriminate.
Qed.
Definition vals_ok (l : list (str * Z * attr)) : Prop := Forall (fun x => forallb value_char (snd (snd x)) = true) l.
Lemma vals_nil : vals_ok []. Proof. constructor. Qed.
Lemma vals_cons : forall g q n v l, forallb value_char v = true -> vals_ok l -> vals_ok ((g, q, (n, v)) :: l).
Proof. intros. now constructor. Qed.
Ltac vals := repeat first [exact vals_nil | apply vals_cons].
Lemma wr_el : forall n l ch c rest s raw, name_by n = true -> distinct_by (map (fun x => fst (snd x)) l) = true ->
  forallb attr_by l = true -> vals_ok l ->
  writes ch c -> writes rest s ->
  raw = [60] ++ n ++ attrs_str l ++ [62] ++ c ++ [60; 47] ++ n ++ [62] ++ s ->
  writes (Element n (map snd l) ch :: rest) raw.
Proof.
  intros n l ch c rest s raw Hn Hd Ha Hv Hc Hs ->. apply wr_element; auto.
  - now apply name_by_ok.
  - rewrite map_map. now apply distinct_by_ok.
  - now apply attrs_by.
Qed.
Lemma wr_tx : forall t l s raw, t <> [] -> no_text_first l -> forallb plain_char t = true -> writes l s -> raw = t ++ s ->
  writes (Text t :: l) raw.
Proof. intros t l s raw Ht Hl Hp Hw ->. apply wr_text; auto. now apply chardata_by. Qed.

(** * Pieces *)
Definition displayed_ok (s : span) : Prop := (forall c, s_fg s = Some c -> color_ok c) /\ (forall c, s_bg s = Some c -> color_ok c).
Lemma text_written : forall t, forallb xml_char t = true -> writes (text_nodes (unbroken t)) (escape_html t).
Proof.
  intros t H. destruct t as [|c t]; [constructor|]. rewrite <- (app_nil_r (escape_html (c :: t))).
  change (text_nodes (unbroken (c :: t))) with [Text (unbroken (c :: t))].
  apply wr_text; [discriminate|exact I|now apply escaped_chardata|constructor].
Qed.
Lemma piece_written : forall nums dfg dbg p rest s, color_ok dfg -> color_ok dbg -> displayed_ok (p_span p) -> good_numbers (nums p) ->
  legible p -> writes rest s ->
  writes (piece_nodes nums dfg dbg p ++ rest)
    (as_svg (p_span p) (nums p) dfg dbg false (Some (class_name (p_class p))) ++ s).
Proof.
  intros nums dfg dbg p rest s Hf Hb [Ff Fb] [N1 [N2 [N3 [N4 N5]]]] Hl Hw.
  assert (E : svg_colors (p_span p) dfg dbg =
     (if fl_invert (s_flags (p_span p)) then match s_bg (p_span p) with Some c => c | None => dbg end else match s_fg (p_span p) with Some c => c | None => dfg end,
      if fl_invert (s_flags (p_span p)) then match s_fg (p_span p) with Some c => c | None => dfg end else match s_bg (p_span p) with Some c => c | None => dbg end)).
  { unfold svg_colors. destruct (fl_invert _); reflexivity. }
  unfold as_svg, piece_nodes. rewrite E. cbv zeta. clear E.
  assert (Os : color_ok match s_fg (p_span p) with Some c => c | None => dfg end) by (destruct (s_fg (p_span p)); auto).
  assert (Ob : color_ok match s_bg (p_span p) with Some c => c | None => dbg end) by (destruct (s_bg (p_span p)); auto).
  set (shown := match s_fg (p_span p) with Some c => c | None => dfg end) in *.
  set (behind := match s_bg (p_span p) with Some c => c | None => dbg end) in *.
  assert (Of : color_ok (if fl_invert (s_flags (p_span p)) then behind else shown)) by (destruct (fl_invert _); auto).
  assert (Og : color_ok (if fl_invert (s_flags (p_span p)) then shown else behind)) by (destruct (fl_invert _); auto).
  set (fg := if fl_invert (s_flags (p_span p)) then behind else shown) in *.
  set (bg := if fl_invert (s_flags (p_span p)) then shown else behind) in *.
  cbn [app].
  pose (rectl := [(lit " ", 39, (lit "x", sv_x (nums p))); (lit " ", 39, (lit "y", sv_yrect (nums p))); (lit " ", 39, (lit "fill", color_hex bg));
     (lit " ", 39, (lit "width", sv_width (nums p))); (lit " ", 39, (lit "height", sv_height (nums p)))]).
  pose (textl := [(lit "  ", 39, (lit "dy", lit "-0.25em")); (lit " ", 39, (lit "x", sv_x (nums p))); (lit " ", 39, (lit "y", sv_ytext (nums p)));
     (lit " ", 39, (lit "fill", color_hex fg)); (lit " ", 39, (lit "class", class_name (p_class p)))]).
  assert (Tx : writes (Element (lit "text") (map snd textl) (text_nodes (unbroken (s_text (p_span p)))) :: rest)
    ([60] ++ lit "text" ++ attrs_str textl ++ [62] ++ escape_html (s_text (p_span p)) ++ [60; 47] ++ lit "text" ++ [62] ++ s)).
  { eapply wr_el; [reflexivity|reflexivity|reflexivity| |now apply text_written|exact Hw|reflexivity].
    vals; [reflexivity|exact (proj1 (numeral_chars _ N1))|exact (proj1 (numeral_chars _ N5))|exact (proj1 (hex_chars _ Of))|exact (proj1 (class_plain _))]. }
  eapply (wr_el (lit "rect") rectl []); [reflexivity|reflexivity|reflexivity| |constructor|exact Tx|].
  - vals; [exact (proj1 (numeral_chars _ N1))|exact (proj1 (numeral_chars _ N2))|exact (proj1 (hex_chars _ Og))|exact (proj1 (numeral_chars _ N3))|exact (proj1 (numeral_chars _ N4))].
  - unfold rectl, textl, quoted. cbn [attrs_str]. rewrite <- !app_assoc. reflexivity.
Qed.
Lemma pieces_written : forall nums dfg dbg l rest s, color_ok dfg -> color_ok dbg ->
  Forall (fun p => displayed_ok (p_span p) /\ good_numbers (nums p) /\ legible p) l -> writes rest s ->
  writes (flat_map (piece_nodes nums dfg dbg) l ++ rest) (svg_screen nums dfg dbg l ++ s).
Proof.
  intros nums dfg dbg l rest s Hf Hb F Hw. induction F as [|p l [P1 [P2 P3]] F IH]; [exact Hw|].
  cbn [flat_map]. unfold svg_screen. cbn [map List.concat]. rewrite <- !app_assoc.
  now apply (piece_written nums dfg dbg p).
Qed.

(** * The style sheet *)
Lemma declarations_join : forall d, join (lit ";" ++ [NL]) (map (fun kv => fst kv ++ lit ":" ++ snd kv) d) = declarations d.
Proof.
  induction d as [|[k v] d IH]; [reflexivity|]. destruct d as [|[k' v'] d]; [cbn; now rewrite app_nil_r|].
  change (join (lit ";" ++ [NL]) (map (fun kv => fst kv ++ lit ":" ++ snd kv) ((k, v) :: (k', v') :: d)))
    with ((k ++ lit ":" ++ v) ++ (lit ";" ++ [NL]) ++ join (lit ";" ++ [NL]) (map (fun kv => fst kv ++ lit ":" ++ snd kv) ((k', v') :: d))).
  rewrite IH. rewrite <- !app_assoc. reflexivity.
Qed.
Lemma rule_spec : forall p : piece, svg_rule (snd (fst p)) (snd p) = piece_rule p.
Proof.
  intro p. unfold svg_rule, piece_rule. rewrite declarations_join, svg_styles_spec. reflexivity.
Qed.
Lemma declarations_plain : forall d, Forall (fun kv => forallb plain_char (fst kv) = true /\ forallb plain_char (snd kv) = true) d ->
  forallb plain_char (declarations d) = true.
Proof.
  intros d H. induction H as [|[k v] d [Hk Hv] H IH]; [reflexivity|]. cbn [declarations]. cbn [fst snd] in *.
  rewrite !forallb_app, Hk, Hv. destruct d; [reflexivity|]. rewrite forallb_app, IH. reflexivity.
Qed.
Lemma rule_plain : forall p, displayed_ok (p_span p) -> forallb plain_char (piece_rule p) = true.
Proof.
  intros p [Hf Hb]. unfold piece_rule. rewrite !forallb_app. rewrite (proj2 (class_plain _)), declarations_plain; [reflexivity|].
  unfold piece_css. apply Forall_app. split.
  - unfold wanted_css. destruct (fl_bold _), (fl_dim _), (fl_italic _), (fl_underline _); repeat (apply Forall_cons; [split; reflexivity|]); constructor.
  - destruct (if fl_invert (s_flags (p_span p)) then s_bg (p_span p) else s_fg (p_span p)) as [c|] eqn:E; [|constructor].
    apply Forall_cons; [|constructor]. split; [reflexivity|]. apply hex_chars. destruct (fl_invert _); auto.
Qed.
Lemma sheet_spec : forall l, svg_stylesheet l = List.concat (map piece_rule l).
Proof. intro l. unfold svg_stylesheet. f_equal. apply map_ext. exact rule_spec. Qed.
Lemma sheet_plain : forall l, Forall (fun p => displayed_ok (p_span p)) l -> forallb plain_char (List.concat (map piece_rule l)) = true.
Proof.
  intros l H. apply forallb_concat. apply Forall_map. eapply Forall_impl; [|exact H]. intros p. apply rule_plain.
Qed.

(** * The document *)
Lemma ne_app : forall (a b : str), a <> [] -> a ++ b <> [].
Proof. intros [|x a] b H; [congruence|discriminate]. Qed.
Lemma frame_spec : forall fs w h dbg l inner screen, numeral fs -> numeral w -> numeral h -> color_ok dbg ->
  Forall (fun p => displayed_ok (p_span p)) l -> writes inner ([10] ++ screen ++ [10]) ->
  document (terminal_frame fs w h dbg l inner)
    (svg_template fs w h (svg_stylesheet l) (svg_background w h dbg) screen).
Proof.
  intros fs w h dbg l inner screen Hfs Hw Hh Hb F1 Wg.
  rewrite sheet_spec. pose proof (sheet_plain l F1) as Sp. unfold terminal_frame. set (sheet := List.concat (map piece_rule l)) in *.
  destruct (numeral_chars _ Hfs) as [_ Pfs]. destruct (numeral_chars _ Hw) as [Vw _]. destruct (numeral_chars _ Hh) as [Vh _].
  destruct (hex_chars _ Hb) as [Vb _].
  assert (W7 : writes [Text [10]] [10]) by (eapply wr_tx; [discriminate|exact I|reflexivity|constructor|reflexivity]).
  pose (gl := [(lit " ", 34, (lit "transform", lit "translate(16, 16)"))]).
  assert (W6 : writes [Element (lit "g") (map snd gl) (inner); Text [10]]
    ([60] ++ lit "g" ++ attrs_str gl ++ [62] ++ ([10] ++ screen ++ [10]) ++ [60; 47] ++ lit "g" ++ [62] ++ [10])).
  { eapply wr_el; [reflexivity|reflexivity|reflexivity| |exact Wg|exact W7|reflexivity]. vals; reflexivity. }
  match type of W6 with writes ?a ?b => set (t6 := a) in *; set (s6 := b) in * end.
  assert (W5 : writes (Text [10] :: t6) ([10] ++ s6)) by (eapply wr_tx; [discriminate|exact I|reflexivity|exact W6|reflexivity]).
  pose (rl := [(lit " ", 39, (lit "width", w)); (lit " ", 39, (lit "height", h)); (lit " ", 39, (lit "fill", lit "#" ++ color_hex dbg)); (lit " ", 39, (lit "rx", lit "9px"))]).
  assert (W4 : writes (Element (lit "rect") (map snd rl) [] :: Text [10] :: t6)
     ([60] ++ lit "rect" ++ attrs_str rl ++ [62] ++ [] ++ [60; 47] ++ lit "rect" ++ [62] ++ [10] ++ s6)).
  { eapply wr_el; [reflexivity|reflexivity|reflexivity| |constructor|exact W5|reflexivity].
    vals; [exact Vw|exact Vh| |reflexivity]. rewrite forallb_app, Vb. reflexivity. }
  match type of W4 with writes ?a ?b => set (t4 := a) in *; set (s4 := b) in * end.
  assert (W3 : writes (Text [10] :: t4) ([10] ++ s4)) by (eapply wr_tx; [discriminate|exact I|reflexivity|exact W4|reflexivity]).
  pose (sl := [(lit " ", 34, (lit "type", lit "text/css"))]).
  pose (css := font_rule fs ++ sheet ++ [10] ++ lit "    ").
  assert (Wc : writes [Text css] css).
  { rewrite <- (app_nil_r css) at 2. eapply wr_tx; [|exact I| |constructor|reflexivity].
    - unfold css, font_rule. discriminate.
    - unfold css, font_rule. rewrite !forallb_app, Pfs, Sp. reflexivity. }
  assert (W2 : writes (Element (lit "style") (map snd sl) [Text css] :: Text [10] :: t4)
     ([60] ++ lit "style" ++ attrs_str sl ++ [62] ++ css ++ [60; 47] ++ lit "style" ++ [62] ++ [10] ++ s4)).
  { eapply wr_el; [reflexivity|reflexivity|reflexivity| |exact Wc|exact W3|reflexivity]. vals; reflexivity. }
  match type of W2 with writes ?a ?b => set (t2 := a) in *; set (s2 := b) in * end.
  assert (W1 : writes (Text ([10] ++ lit "    ") :: t2) (([10] ++ lit "    ") ++ s2)).
  { eapply wr_tx; [discriminate|exact I|reflexivity|exact W2|reflexivity]. }
  pose (vl := [(lit " ", 34, (lit "width", w)); (lit " ", 34, (lit "height", h));
     ([10] ++ lit "    ", 34, (lit "viewBox", lit "0 0 " ++ w ++ [32] ++ h)); (lit " ", 34, (lit "xmlns", lit "http://www.w3.org/2000/svg"))]).
  assert (W0 : writes [Element (lit "svg") (map snd vl) (Text ([10] ++ lit "    ") :: t2)]
     ([60] ++ lit "svg" ++ attrs_str vl ++ [62] ++ (([10] ++ lit "    ") ++ s2) ++ [60; 47] ++ lit "svg" ++ [62] ++ [])).
  { eapply wr_el; [reflexivity|reflexivity|reflexivity| |exact W1|constructor|reflexivity].
    vals; [exact Vw|exact Vh| |reflexivity]. rewrite !forallb_app, Vw, Vh. reflexivity. }
  exists [10], [], ([60] ++ lit "svg" ++ attrs_str vl ++ [62] ++ (([10] ++ lit "    ") ++ s2) ++ [60; 47] ++ lit "svg" ++ [62] ++ []).
  split; [repeat constructor; now right|]. split; [constructor|]. split; [|split; [exact W0|exact I]].
  unfold s2, css, s4, s6, vl, sl, rl, gl, svg_template, ln, svg_background, quoted, font_rule. cbn [attrs_str].
  rewrite <- !app_assoc. reflexivity.
Qed.
Lemma document_spec : forall fs w h nums dfg dbg l, numeral fs -> numeral w -> numeral h -> color_ok dfg -> color_ok dbg ->
  Forall (fun p => displayed_ok (p_span p) /\ good_numbers (nums p) /\ legible p) l ->
  document (terminal_tree fs w h nums dfg dbg l)
    (svg_template fs w h (svg_stylesheet l) (svg_background w h dbg) (svg_screen nums dfg dbg l)).
Proof.
  intros fs w h nums dfg dbg l Hfs Hw Hh Hf Hb F. apply frame_spec; auto.
  - eapply Forall_impl; [|exact F]; cbn; tauto.
  - assert (Wn : writes [Text [10]] [10]) by (eapply wr_tx; [discriminate|exact I|reflexivity|constructor|reflexivity]).
    destruct l as [|p l].
    + eapply wr_tx; [discriminate|exact I|reflexivity|constructor|reflexivity].
    + unfold screen_nodes. eapply wr_tx; [discriminate|exact I|reflexivity| |reflexivity]. now apply pieces_written.
Qed.

(** the colors of the pieces are those of the cells *)
Lemma group_loop_colors : forall e row g b attrs prev l, Forall valid_cell row -> displayed_ok g ->
  group_loop e row g b attrs prev = Ok l -> Forall displayed_ok l.
Proof.
  intros e row. induction row as [|[[t fg] bg] row IH]; intros g b attrs prev l F Hg H; cbn [group_loop] in H.
  - injection H as <-. now constructor.
  - inversion F as [|? ? [C1 C2] Fr]; subst. cbn [fst snd] in C1, C2.
    destruct (str_eqb t prev).
    + unfold bindr in H. destruct (index (-1) t) as [lst|]; [|discriminate].
      eapply IH; [exact Fr| |exact H]. exact Hg.
    + unfold bindr in H. destruct (first_from t) as [f|]; [|discriminate].
      destruct (style_attrs_eqb _ attrs).
      * eapply IH; [exact Fr| |exact H]. exact Hg.
      * match type of H with match ?x with _ => _ end = _ => destruct x as [r|] eqn:R; [|discriminate] end.
        assert (D : Forall displayed_ok r).
        { eapply IH; [exact Fr| |exact R]. rewrite mutate_colors. split; assumption. }
        injection H as <-. destruct b; [exact D|]. now constructor.
Qed.
Lemma group_colors : forall e row l, Forall valid_cell row -> group e row = Ok l -> Forall displayed_ok l.
Proof. intros e row l F H. eapply group_loop_colors; [exact F| |exact H]. split; discriminate. Qed.
Lemma export_colors : forall e s l, Forall (Forall valid_cell) (sc_cells s) -> export_svg e s = Ok l ->
  Forall (fun p => displayed_ok (p_span p)) l.
Proof.
  intros e s l F H. destruct (export_layout e s l H) as [R [G _]].
  apply Forall_forall. intros p Hp. pose proof (proj1 (Forall_forall _ _) R p Hp) as Hr. cbn in Hr.
  destruct (nth_error (sc_cells s) (Z.to_nat (p_row p))) as [row|] eqn:E.
  - specialize (G _ _ E (proj1 Hr)). apply group_colors in G.
    + apply (proj1 (Forall_forall _ _) G). apply in_map. apply filter_In. split; auto. apply Z.eqb_refl.
    + apply (proj1 (Forall_forall _ _) F). eapply nth_error_In; exact E.
  - apply nth_error_None in E. unfold zlen in Hr. lia.
Qed.

Lemma export_document_spec : forall e s fs w h nums dfg dbg l, numeral fs -> numeral w -> numeral h ->
  color_ok dfg -> color_ok dbg -> Forall (Forall valid_cell) (sc_cells s) -> (forall p, good_numbers (nums p)) ->
  export_svg e s = Ok l -> Forall legible l ->
  exists doc, export_document e s fs w h nums dfg dbg = Ok doc /\ document (terminal_tree fs w h nums dfg dbg l) doc.
Proof.
  intros e s fs w h nums dfg dbg l Hfs Hw Hh Hf Hb C N X L. unfold export_document. rewrite X. cbn [bindr].
  eexists. split; [reflexivity|]. apply document_spec; auto.
  pose proof (export_colors e s l C X) as D. apply Forall_forall. intros p Hp. split; [|split; [apply N|]].
  - now apply (proj1 (Forall_forall _ _) D).
  - now apply (proj1 (Forall_forall _ _) L).
Qed.
