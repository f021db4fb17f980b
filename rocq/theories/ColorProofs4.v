(** Lemmas: the body of a sequence with an alpha value after it. *)
From Coq Require Import ZArith List Bool String Lia.
From Verif Require Import PyBase PyLemmas F64 SpaceModel ColorTab ColorModel ColorSpec Vt ColorProofs ColorProofs2.
Import ListNotations.
Open Scope Z_scope.

Lemma split_end : forall s t, ~ In 59 t -> split_on 59 (s ++ 59 :: t) = split_on 59 s ++ [t].
Proof.
  intros s t H. rewrite <- (join_split_on 59 s) at 1.
  assert (F : Forall (fun x => ~ In 59 x) (split_on 59 s ++ [t])) by (apply Forall_app; split; [apply split_on_no_sep|constructor; auto]).
  assert (J : forall l, l <> [] -> join [59] (l ++ [t]) = join [59] l ++ 59 :: t).
  { induction l as [|a l IH]; intro N; [congruence|]. destruct l as [|b l]; [reflexivity|].
    change (join [59] ((a :: b :: l) ++ [t])) with (a ++ [59] ++ join [59] ((b :: l) ++ [t])). rewrite IH by discriminate.
    change (join [59] (a :: b :: l)) with (a ++ [59] ++ join [59] (b :: l)). now rewrite <- !app_assoc. }
  rewrite <- J by apply split_on_ne. apply split_on_join; auto. destruct (split_on 59 s); discriminate.
Qed.
Lemma from_ansi_rgb_alpha : forall bg r g b t a al, channel_ok r -> channel_ok g -> channel_ok b ->
  ~ In 59 t -> In 46 t -> py_float t = Ok a ->
  from_ansi (rgb_seq bg r g b ++ lit ";" ++ t) al = Ok (mkColor (r, g, b) bg a TRUE_COLOR (Some (rgb_seq bg r g b))).
Proof.
  intros bg r g b t a al Hr Hg Hb Hs Hd Ha. rewrite <- (from_ansi_rgb bg r g b a Hr Hg Hb).
  unfold channel_ok in *. unfold from_ansi. cbv zeta. change (lit ";" ++ t) with (59 :: t). rewrite split_end by auto.
  unfold last_of at 1 2. rewrite last_last. assert (C : contains_char 46 t = true) by (apply existsb_exists; exists 46; auto). rewrite C, Ha.
  cbn [bindr]. rewrite removelast_last. rewrite split_rgb_seq by lia. cbn [last_of last]. rewrite dec_no_dot by lia. cbn [bindr]. reflexivity.
Qed.
Lemma from_ansi_idx_alpha : forall bg n t a al, 0 <= n < 256 -> ~ In 59 t -> In 46 t -> py_float t = Ok a ->
  from_ansi (idx_seq bg n ++ lit ";" ++ t) al = Ok (mkColor (palette_entry n) bg a EIGHT_BIT (Some (idx_seq bg n ++ lit ";" ++ t))).
Proof.
  intros bg n t a al Hn Hs Hd Ha.
  unfold from_ansi. cbv zeta. change (lit ";" ++ t) with (59 :: t). rewrite split_end by auto.
  unfold last_of at 1 2. rewrite last_last. assert (C : contains_char 46 t = true) by (apply existsb_exists; exists 46; auto). rewrite C, Ha.
  cbn [bindr]. rewrite removelast_last. rewrite split_idx_seq. cbn [last_of last].
  change (3 <? zlen [if bg then lit "48" else lit "38"; lit "5"; dec n]) with false. cbv iota.
  cbn [last_of last]. rewrite py_int_dec_all. cbn [bindr].
  change (zlen [if bg then lit "48" else lit "38"; lit "5"; dec n] =? 1) with false. cbv iota beta.
  assert (B : startswith (lit "4") (if bg then lit "48" else lit "38") = bg) by (destruct bg; reflexivity).
  rewrite B. destruct (Z.leb_spec 0 n); [|lia]. destruct (Z.ltb_spec n 256); [|lia]. cbn [andb negb].
  destruct (table_spec n Hn) as [r [g [b [-> [V1 [V2 [V3 <-]]]]]]]. now apply new_color_ok.
Qed.

Theorem alpha_after_rgb : forall e (bg : bool) r g b t a al, channel_ok r -> channel_ok g -> channel_ok b ->
  ~ In 59 t -> In 46 t -> py_float t = Ok a -> env_cs e = TRUE_COLOR ->
  let code := (if bg then lit "48" else lit "38") ++ lit ";2;" ++ dec r ++ lit ";" ++ dec g ++ lit ";" ++ dec b in
  exists c, from_ansi (code ++ lit ";" ++ t) al = Ok c /\ c_rgb c = (r, g, b) /\ c_bg c = bg /\ c_alpha c = a /\ color_ansi e c = code.
Proof.
  intros e bg r g b t a al Hr Hg Hb Hs Hd Ha He code.
  assert (E : code = rgb_seq bg r g b) by (unfold code, rgb_seq; destruct bg; reflexivity).
  eexists. rewrite E. split; [apply from_ansi_rgb_alpha; eassumption|]. repeat split.
  unfold color_ansi. rewrite He. cbn [c_origin c_ctor]. destruct bg; reflexivity.
Qed.
Theorem alpha_after_index : forall e (bg : bool) n t a al, 0 <= n < 256 -> ~ In 59 t -> In 46 t -> py_float t = Ok a -> env_cs e = EIGHT_BIT \/ env_cs e = TRUE_COLOR ->
  let code := (if bg then lit "48" else lit "38") ++ lit ";5;" ++ dec n ++ lit ";" ++ t in
  exists c, from_ansi code al = Ok c /\ c_bg c = bg /\ c_alpha c = a /\ color_ansi e c = code.
Proof.
  intros e bg n t a al Hn Hs Hd Ha He code.
  assert (E : code = idx_seq bg n ++ lit ";" ++ t) by (unfold code, idx_seq; destruct bg; rewrite <- ?app_assoc; reflexivity).
  eexists. rewrite E. split; [apply from_ansi_idx_alpha; eassumption|]. repeat split.
  unfold color_ansi. cbn [c_origin c_ctor]. destruct He as [-> | ->], bg; reflexivity.
Qed.
