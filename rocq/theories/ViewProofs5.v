(** What an SVG export shows (C122): translucent content. *)
From Coq Require Import ZArith Reals List Bool Lia String.
From Verif Require Import PyBase PyLemmas F64 SpaceModel SpaceSpec GreySpec ColorModel ColorSpec ColorProofs PaletteSpec AnsiRe SpanModel Vt SpanSpec
  SpanProofs SpanProofs2 GroupProofs GroupSpec GroupProofs2 ScreenModel ScreenSpec ScreenProofs ScreenProofs2 ScreenProofs3 ScreenProofs4 ScreenProofs5 ScreenProofs6
  ScreenProofs7 ScreenProofs8 DrawSpec DrawProofs DrawProofs2 SvgSpec SvgDocSpec SvgGeoSpec SvgTextModel SvgTextSpec ViewSpec ViewProofs ViewProofs2 ViewProofs3.
From Verif Require DrawProofs3 TransSpec TransProofs.
Import ListNotations.
Open Scope Z_scope.
Open Scope list_scope.

Lemma lead_nil : forall f, lead f = [] -> f = no_flags.
Proof.
  intros f H. unfold lead, csi_or_empty in H. pose proof (attached f) as A. destruct (colorless_body f); [|discriminate].
  destruct (flags_dec f no_flags); [assumption|discriminate].
Qed.
Lemma piece_text : forall c f r, r = [] \/ (r = RESET /\ lead f <> []) -> exists rst, lead f ++ c :: r = cell_text c f rst.
Proof.
  intros c f r H. unfold cell_text. destruct H as [->|[-> N]].
  - exists false. rewrite uncolored_str. reflexivity.
  - exists true. rewrite uncolored_str, attached. destruct (flags_dec f no_flags) as [->|]; [exfalso; now apply N|]. reflexivity.
Qed.

Section Films.
Variables (e : env) (w h : Z) (origin : pos).
Lemma told_film : forall a k P, told e w h k P -> TransSpec.tact_ok w h a ->
  told e w h (perform e origin k a) (TransProofs.tpaint e as_asked w h P a).
Proof.
  intros a [[s c] m] P [I1 I2 I3 I4 I6 I9] Ha. cbn [fst snd] in *. destruct a as [data tb force|fill|].
  - pose proof Ha as Ha'. destruct Ha as [Hd [Ht [Htb [Hs Hstk]]]].
    assert (Hfine : fine_data data).
    { unfold fine_data. revert Hs. apply Forall_impl. intros en. apply Forall_impl. apply TransProofs.layerable_fine. }
    assert (Hcalm : calm_write s data) by (split; [exact I4|rewrite I1, I2; exact Hd]).
    destruct (write_bulk_effect e c s data tb force I6 I3 Hcalm Ht Hfine) as [s' [c' [n [E [Hc' WE]]]]].
    cbn [perform]. rewrite E. destruct (we_size _ _ _ _ _ _ WE) as [S1 [S2 [S3 S4]]].
    split; cbn [fst snd]; auto; try congruence; [apply WE|].
    intros q Hq. destruct (I9 q Hq) as [old [Eold Sold]].
    assert (Hq' : on_screen (sc_w s) (sc_h s) q) by (rewrite I1, I2; exact Hq).
    pose proof (we_cell _ _ _ _ _ _ WE q old Hq' Eold) as G. rewrite I1, I2 in G.
    destruct (TransProofs.outcome_films e as_asked w h data tb force q Ha' Hq) as [[E1 E2]|[base [layers [bgs [t [f [b [ST [IK [BD [EO [SH [r [TX TR]]]]]]]]]]]]]]; cbv zeta in *.
    + rewrite E2 in G. exists old. unfold TransProofs.tpaint. rewrite E2. tauto.
    + rewrite EO in G. destruct G as [G1 G2].
      set (v := TransSpec.visible base layers) in *.
      assert (T : tells (t, Some f, b) (TransProofs.tpaint e as_asked w h P (AWrite data tb force) q)).
      { unfold TransProofs.tpaint. rewrite EO, (TransProofs.visible_of_stacked _ _ _ _ ST). fold v.
        destruct (piece_text (fst v) (s_flags (snd v)) r TR) as [rst ER]. rewrite ER in TX. subst t.
        exists (fst v, s_flags (snd v), Some f, b, rst). split; [apply stored_cell|].
        destruct SH as [L1 [L2 [L3 _]]]. cbn [fst snd] in *. split; [reflexivity|]. split; [exact L3|]. split; [exact L1|]. split; [exact L2|].
        split; [reflexivity|discriminate]. }
      destruct (cell_eqb (t, Some f, b) old) eqn:Eq.
      * apply same_cell_iff in Eq. pose proof (shows_det as_asked _ _ _ _ Eq (tells_shows _ _ T) (tells_shows _ _ Sold)) as Ev.
        exists old. rewrite Ev. destruct (G1 Eq). auto.
      * assert (N : ~ same_cell (t, Some f, b) old) by (intro Hsame; apply same_cell_iff in Hsame; congruence).
        destruct (G2 N) as [A B]. eauto.
  - exact (told_act e w h origin (AClear fill) (s, c, m) P (Build_told e w h (s, c, m) P I1 I2 I3 I4 I6 I9) Ha).
  - exact (told_act e w h origin ADraw (s, c, m) P (Build_told e w h (s, c, m) P I1 I2 I3 I4 I6 I9) Ha).
Qed.
Lemma told_films : forall acts k P, told e w h k P -> Forall (TransSpec.tact_ok w h) acts ->
  told e w h (fold_left (perform e origin) acts k) (fold_left (TransProofs.tpaint e as_asked w h) acts P).
Proof.
  intro acts. induction acts as [|a acts IH]; intros k P I Ha; [exact I|]. inversion Ha; subst. cbn [fold_left]. apply IH; auto. now apply told_film.
Qed.
Lemma films_painted : forall acts P, Forall (TransSpec.tact_ok w h) acts ->
  TransSpec.tpainted as_asked w h P acts (fold_left (TransProofs.tpaint e as_asked w h) acts P).
Proof.
  intro acts. induction acts as [|a acts IH]; intros P Ha; [intros q _; reflexivity|]. inversion Ha; subst. cbn [fold_left TransSpec.tpainted].
  exists (TransProofs.tpaint e as_asked w h P a). split; [|now apply IH].
  intros q Hq. destruct a as [data tb force|fill|]; [|reflexivity|reflexivity]. now apply (TransProofs.tpaint_write e as_asked w h P data tb force q).
Qed.
End Films.

Lemma view_films : forall e w h cursor fill origin m acts, powers e -> 0 < w -> is_ctl fill = false -> Forall (TransSpec.tact_ok w h) acts ->
  let k := fold_left (perform e origin) acts (new_screen w h cursor [fill], [], m) in
  exists p l, TransSpec.tpainted as_asked w h (blank fill) acts p /\ export_svg e (fst (fst k)) = Ok l /\ pictured spelled w h l p /\
    (gaps_end w h p -> forall nums dfg dbg, pictured (fun piece _ v => inked nums dfg dbg piece v) w h l p) /\
    (forall fs dfg dbg, font fs -> w <= 8192 -> 0 <= h <= 8192 -> color_ok dfg -> color_ok dbg -> in_xml w h p ->
      exists doc wt ht nl, export_text e (fst (fst k)) w h fs dfg dbg = Ok doc /\
        document (terminal_frame (dec fs) wt ht dbg l (numbered_nodes dfg dbg (combine l nl))) doc /\ Forall2 (placed fs) l nl).
Proof.
  intros e w h cursor fill origin m acts Hp Hw Hfill Ha. cbv zeta.
  pose proof (told_films e w h origin acts _ _ (told_start e w h cursor fill m Hfill) Ha) as T.
  pose proof (films_painted e w h acts (blank fill) Ha) as TP.
  set (P := fold_left (TransProofs.tpaint e as_asked w h) acts (blank fill)) in *. set (k := fold_left (perform e origin) acts _) in *.
  destruct (export_ok e w h k P Hp Hw T) as [l El]. exists P, l. split; [exact TP|]. split; [exact El|].
  split; [exact (spelled_all e w h k P Hp Hw T l El)|]. split.
  - intros G nums dfg dbg. exact (inked_all e w h k P Hp Hw T l El nums dfg dbg G).
  - intros fs dfg dbg H1 H2 H3 H4 H5 H6. destruct (told_document e w h k P Hp Hw T fs dfg dbg H1 H2 H3 H4 H5 H6) as [l' [doc [wt [ht [nl [D1 D]]]]]].
    rewrite El in D1. injection D1 as <-. exists doc, wt, ht, nl. exact D.
Qed.

(** * Against the terminal *)
Lemma view_films_terminal : forall e w h cursor fill origin m acts, env_cs e = TRUE_COLOR -> 0 < w -> is_ctl fill = false ->
  at_rest m -> DrawSpec.fits w h origin m -> Forall (TransSpec.tact_ok w h) acts ->
  let '(s, _, m') := fold_left (perform e origin) (acts ++ [ADraw]) (new_screen w h cursor [fill], [], m) in
  let shown q := fst (seen origin m' q) in
  exists l, export_svg e s = Ok l /\ pictured spelled w h l shown /\
    (gaps_end w h shown -> forall nums dfg dbg, pictured (fun p _ v => inked nums dfg dbg p v) w h l shown).
Proof.
  intros e w h cursor fill origin m acts HT Hw Hfill Hm Hf Ha.
  assert (Hp : powers e) by (intro N; congruence).
  assert (Hsh : shades e as_asked).
  { intros c Hc. destruct (DrawProofs3.shade_exists e Hp) as [sh [H1 H2]].
    specialize (H1 c Hc). specialize (H2 c Hc). unfold approximates, red, green, blue in H2. rewrite HT in H2. rewrite H2 in H1.
    unfold as_asked. destruct (c_rgb c) as [[r g] b]. exact H1. }
  set (k0 := (new_screen w h cursor [fill], [], m) : world).
  assert (I0 : inv e as_asked w h origin (e_grid m) (e_w m) (e_h m) never k0 (blank fill)) by (apply inv_start; auto).
  assert (RUN : forall l k P, inv e as_asked w h origin (e_grid m) (e_w m) (e_h m) never k P -> Forall (TransSpec.tact_ok w h) l ->
    inv e as_asked w h origin (e_grid m) (e_w m) (e_h m) never (fold_left (perform e origin) l k) (fold_left (TransProofs.tpaint e as_asked w h) l P)).
  { intro l. induction l as [|a l IH]; intros k P I Hl; [exact I|]. inversion Hl; subst. cbn [fold_left]. apply IH; auto.
    now apply (TransProofs.tinv_act e as_asked w h origin (e_grid m) (e_w m) (e_h m) Hsh Hf). }
  pose proof (RUN acts k0 (blank fill) I0 Ha) as I1.
  pose proof (told_films e w h origin acts _ _ (told_start e w h cursor fill m Hfill) Ha) as T1. fold k0 in T1.
  rewrite fold_left_app. cbn [fold_left]. set (k1 := fold_left (perform e origin) acts k0) in *.
  set (P := fold_left (TransProofs.tpaint e as_asked w h) acts (blank fill)) in *.
  destruct (inv_draw e as_asked w h origin (e_grid m) (e_w m) (e_h m) Hsh Hf never k1 _ I1) as [I2 SN].
  assert (T : told e w h (perform e origin k1 ADraw) P).
  { exact (told_act e w h origin ADraw k1 P T1 Logic.I). }
  destruct (perform e origin k1 ADraw) as [[s c] m']. cbv zeta. cbn [fst snd] in SN.
  assert (EQ : forall q, on_screen w h q -> P q = fst (seen origin m' q)).
  { intros q Hq. destruct (SN q Hq) as [A|[[] _]]. rewrite A. cbn [fst]. now destruct (P q). }
  destruct (export_ok e w h (s, c, m') P Hp Hw T) as [l El]. exists l. split; [exact El|]. split.
  - apply (pictured_ext _ w h l P); [exact EQ|]. exact (spelled_all e w h (s, c, m') P Hp Hw T l El).
  - intros G nums dfg dbg. apply (pictured_ext _ w h l P); [exact EQ|]. apply (inked_all e w h (s, c, m') P Hp Hw T l El).
    apply (gaps_ext w h (fun q => fst (seen origin m' q))); [intros q Hq; symmetry; auto|exact G].
Qed.
