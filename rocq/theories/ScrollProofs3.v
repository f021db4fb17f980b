(** Writes after a clear. *)
From Coq Require Import ZArith Reals List Bool Lia.
From Verif Require Import PyBase PyLemmas F64 SpaceModel ColorModel ColorSpec AnsiRe SpanModel SpanSpec
  ScreenModel ScreenSpec ScreenProofs ScreenProofs2 ScreenProofs3 ScreenProofs4 ScreenProofs5 ScreenProofs6 ScreenProofs7 ScreenProofs8 ScrollProofs.
Import ListNotations.
Open Scope Z_scope.

Lemma clear_then_write : forall e c s fill sp tb force, cache_ok e c -> sc_off s = 0 ->
  fine_span sp -> opaque_span sp -> fine tb -> ~ In NL (s_text sp) -> 0 < sc_w s -> 0 < sc_h s ->
  exists s' c' n, write e c (clear s fill) [sp] (Some (0, 0)) tb force = (s', c', Ok n) /\
    forall k ch, 0 <= k -> k < sc_w s -> nth_error (get_characters e sp true true) (Z.to_nat k) = Some ch ->
      exists new, cell_at s' (k, 0) = Some new /\ same_cell new (plain_cell (ch, sp)).
Proof.
  intros e c s fill sp tb force Hc Ho Hf Hop Ht Hn Hw Hh.
  destruct (clear_all s fill) as [E1 [E2 [Sh _]]].
  destruct (layout e c (clear s fill) 0 0 [sp] tb force Hc Sh) as [s' [c' [n [E [L _]]]]]; auto.
  - split; [exact Ho|]. apply Forall_cons; [|apply Forall_nil]. split; [exact Hh|]. split; auto.
  - rewrite E1. lia.
  - rewrite E2. lia.
  - exists s', c', n. split; [exact E|]. intros k ch K1 K2 Ek. rewrite E1, E2 in L. cbv zeta in L.
    destruct (L k ch sp K1) as [new [A B]]; [nia| |].
    + unfold pieces. cbn [flat_map]. rewrite app_nil_r. exact (map_nth_error (fun c0 => (c0, sp)) _ _ Ek).
    + replace (0 * sc_w s + 0 + k) with k in A by lia. rewrite Z.mod_small, Z.div_small in A by lia. eauto.
Qed.

Lemma place_line_above : forall e w h line i x y lst st, cache_ok e (ws_cache st) -> 0 <= h -> 0 <= ws_off st -> y < ws_off st ->
  exists c, place_line e w h line i x y lst st = (after st (ws_wm st, ws_am st) c, Ok tt).
Proof.
  intros e w h line. induction line as [|s line IH]; intros i x y lst st Hc Hh H0 Hy.
  - exists (ws_cache st). destruct st; auto.
  - cbn [place_line]. destruct (cached_ok e (ws_cache st) s true true Hc) as [c' [Ec Hc']]. rewrite Ec.
    cbn [ws_wm ws_am ws_cells ws_off ws_cache].
    replace (h - 1 <? y - ws_off st) with false by (symmetry; apply Z.ltb_ge; lia). rewrite andb_false_r.
    cbn [ws_wm ws_am ws_cells ws_off ws_cache].
    rewrite place_off by lia.
    destruct (IH (i + 1) x (y - ws_off st) lst (mkW (ws_wm st) (ws_am st) (ws_cells st) (ws_off st) c')) as [c'' E'']; cbn [ws_cache ws_off]; auto; try lia.
    exists c''. rewrite E''. reflexivity.
Qed.
Lemma above_offset : forall e c s x y line tb force, cache_ok e c -> shaped s -> 0 <= sc_h s -> 0 <= sc_off s -> y < sc_off s ->
  exists c', write e c s line (Some (x, y)) tb force = (s, c', Ok 0).
Proof.
  intros e c s x y line tb force Hc Hs Hh H0 Hy. apply shaped_dims in Hs. unfold write, write_bulk. cbn [place_all].
  destruct (place_line_above e (sc_w s) (sc_h s) line 0 x y (zlen line - 1)
    (mkW (blank_matrix (sc_w s) (sc_h s) None) (blank_matrix (sc_w s) (sc_h s) []) (sc_cells s) (sc_off s) c) Hc Hh H0 Hy) as [c' E].
  rewrite E. unfold after. cbn [ws_wm ws_am ws_cells ws_off ws_cache fst snd].
  destruct (commit_items e (sc_w s) (sc_h s) [] tb (sc_cells s) (sc_buf s) Hs) as [cells' [Ec [D G]]].
  { intros q a []. }
  { intros q ex _ X. discriminate X. }
  cbn [fold_left fst snd] in Ec. rewrite Ec.
  assert (Z0 : filter (changes (fun q => okf (outcome tb [] q)) (sc_cells s)) (positions (sc_w s) (sc_h s)) = []).
  { generalize (positions (sc_w s) (sc_h s)) as l. clear. induction l as [|q l IH]; [reflexivity|exact IH]. }
  rewrite Z0. exists c'. cbn [fold_left].
  assert (Ecells : cells' = sc_cells s).
  { apply (mget_ext _ (sc_w s) (sc_h s)); auto. intros X Y HX HY. exact (G (X, Y) (conj HX HY)). }
  rewrite Ecells. destruct s. reflexivity.
Qed.
Lemma clear_swallows : forall e c s fill x y line tb force, cache_ok e c -> 0 <= sc_h s -> 0 <= sc_off s -> y < sc_off s ->
  exists c', write e c (clear s fill) line (Some (x, y)) tb force = (clear s fill, c', Ok 0).
Proof.
  intros e c s fill x y line tb force Hc Hh H0 Hy. destruct (clear_all s fill) as [E1 [E2 [Sh _]]].
  apply above_offset; auto.
Qed.
