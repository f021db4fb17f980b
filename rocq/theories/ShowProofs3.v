(** Lemmas: what the printed form of a span evaluates to. *)
From Coq Require Import ZArith List Bool String Lia Reals Lra.
From Flocq Require Import Core IEEE754.BinarySingleNaN.
From Verif Require Import PyBase PyLemmas F64 FloatLemmas SpaceModel ColorModel SpanModel BlendProofs DecSpec DecProofs ReprModel ReprSpec
  SvgGeoProofs ReprProofs KeyUseModel KeyUseSpec KeyUseProofs SpanProofs MainProofs ShowModel ShowSpec ShowProofs ShowProofs2.
Import ListNotations.
Open Scope Z_scope.
Open Scope list_scope.

(** * Arguments that may be missing *)
Definition slot := (str * option (str * value))%type.
Fixpoint present (l : list slot) : list kv :=
  match l with [] => [] | (k, Some v) :: r => (k, v) :: present r | (_, None) :: r => present r end.
Fixpoint slot_value (k : str) (l : list slot) : option value :=
  match l with
  | (j, o) :: r => if str_eqb k j then option_map snd o else slot_value k r
  | [] => None
  end.
Definition key_values (l : list kv) : list (str * value) := map (fun a => (fst a, snd (snd a))) l.
Lemma present_app : forall a b, present (a ++ b) = present a ++ present b.
Proof. induction a as [|[k [v|]] a IH]; intro b; cbn [app present]; [reflexivity|now rewrite IH|apply IH]. Qed.
Lemma present_keys : forall l k, In k (map fst (present l)) -> In k (map fst l).
Proof. induction l as [|[j [v|]] l IH]; intros k H; cbn in *; [exact H|destruct H; auto|auto]. Qed.
Lemma present_nodup : forall l, NoDup (map fst l) -> NoDup (map fst (present l)).
Proof.
  induction l as [|[j [v|]] l IH]; intro H; cbn [map fst present] in *; [constructor| |].
  - inversion H; subst. constructor; [|auto]. intro X. apply present_keys in X. contradiction.
  - inversion H; subst. auto.
Qed.
Lemma lookup_absent : forall l k, ~ In k (map fst l) -> lookup k l = None.
Proof.
  induction l as [|[j v] l IH]; intros k H; [reflexivity|]. cbn [lookup]. destruct (str_eqb k j) eqn:E.
  - apply str_eqb_eq in E. subst j. exfalso. apply H. now left.
  - apply IH. intro X. apply H. now right.
Qed.
Lemma key_values_keys : forall l, map fst (key_values l) = map fst l.
Proof. intro l. unfold key_values. rewrite map_map. reflexivity. Qed.
Lemma lookup_present : forall l k, NoDup (map fst l) -> lookup k (key_values (present l)) = slot_value k l.
Proof.
  induction l as [|[j [v|]] l IH]; intros k H; cbn [map fst] in H; inversion H; subst; [reflexivity| |]; cbn [present slot_value].
  - unfold key_values. cbn [map lookup fst snd]. destruct (str_eqb k j); [reflexivity|]. now apply IH.
  - destruct (str_eqb k j) eqn:E; [|now apply IH]. apply str_eqb_eq in E. subst j. cbn [option_map]. apply lookup_absent.
    rewrite key_values_keys. intro X. now apply present_keys in X.
Qed.
Lemma bind_keywords_ok : forall params l got, NoDup (map fst l) -> (forall k, In k (map fst l) -> In k params) ->
  (forall k, In k (map fst l) -> lookup k got = None) ->
  exists out, bind_keywords params (map arg_value l) got = Some out /\
    forall k, lookup k out = match lookup k (key_values l) with Some v => Some v | None => lookup k got end.
Proof.
  intros params l. induction l as [|[j [t v]] l IH]; intros got N P G.
  - exists got. split; reflexivity.
  - cbn [map fst] in *. inversion N; subst. unfold arg_value at 1. cbn [fst snd bind_keywords].
    replace (existsb (str_eqb j) params) with true.
    2: { symmetry. apply existsb_exists. exists j. split; [apply P; now left|]. now apply str_eqb_eq. }
    rewrite (G j (or_introl eq_refl)). cbn [andb].
    destruct (IH ((j, v) :: got)) as [out [B L]]; [assumption|intros k K; apply P; now right| |].
    { intros k K. cbn [lookup]. destruct (str_eqb k j) eqn:E; [|apply G; now right]. apply str_eqb_eq in E. subst k. contradiction. }
    exists out. split; [exact B|]. intro k. rewrite L. unfold key_values. cbn [map lookup fst snd].
    destruct (str_eqb k j) eqn:E; [|reflexivity]. apply str_eqb_eq in E. subst k.
    rewrite lookup_absent; [reflexivity|]. fold (key_values l). now rewrite key_values_keys.
Qed.

(** * The arguments printed for a span *)
Definition shown_color (c : option color) (c' : option color) : option (str * value) :=
  match c, c' with Some c, Some c' => Some (color_repr c, VColor c') | _, _ => None end.
Definition shown_true (b : bool) : option (str * value) := if b then Some (lit "True", VBool true) else None.
Definition style_slots (f : flags) : list slot := map (fun k => (field_name k, shown_true (get_flag k f))) all_flags.
Definition first_slots (s : span) : list slot := style_slots (s_flags s) ++ [(lit "reset_after", shown_true (s_reset s))].
Definition rest_slots (pr : Z -> bool) (s : span) (fg bg : option color) : list slot :=
  [(lit "foreground", shown_color (s_fg s) fg); (lit "background", shown_color (s_bg s) bg);
   (lit "hyperlink", if str_eqb (s_link s) [] then None else Some (repr_str pr (s_link s), VStr (s_link s)))].
Definition slots (pr : Z -> bool) (s : span) (fg bg : option color) : list slot := first_slots s ++ rest_slots pr s fg bg.

Lemma truthy_shown : forall s, map (fun n => n ++ lit "=True") (truthy_fields s) = map show_kv (present (first_slots s)).
Proof.
  intro s. unfold truthy_fields, first_slots. rewrite present_app, !map_app. f_equal.
  - unfold style_slots. generalize all_flags. induction l as [|k l IH]; [reflexivity|]. cbn [filter map]. unfold shown_true at 1.
    destruct (get_flag k (s_flags s)); cbn [map present]; [|exact IH]. rewrite IH. reflexivity.
  - destruct (s_reset s); reflexivity.
Qed.
Lemma joined_snoc : forall l a, l <> [] -> joined (l ++ [a]) = joined l ++ lit ", " ++ show_kv a.
Proof. intros l a H. unfold joined. rewrite map_app. cbn [map]. apply join_snoc. destruct l; [congruence|discriminate]. Qed.
Lemma joined_grow : forall l k o, (l <> [] \/ o = None) ->
  joined (l ++ present [(k, o)]) = match o with Some v => joined l ++ lit ", " ++ k ++ lit "=" ++ fst v | None => joined l end.
Proof.
  intros l k [v|] H; cbn [present].
  - destruct H as [H|H]; [|discriminate]. now apply (joined_snoc l (k, v)).
  - now rewrite app_nil_r.
Qed.
Definition same_opt (a b : option color) : Prop := (a = None <-> b = None).
Lemma span_text : forall pr s fg bg, same_opt (s_fg s) fg -> same_opt (s_bg s) bg -> ~ comma_twice s ->
  span_repr pr s = lit "Span" ++ lit "(" ++ repr_str pr (s_text s) ++ lit ", " ++ joined (present (slots pr s fg bg)) ++ lit ")".
Proof.
  intros pr s fg bg Hf Hb NC. unfold span_repr. rewrite truthy_shown. fold (joined (present (first_slots s))).
  unfold slots. rewrite present_app. set (l := present (first_slots s)).
  change (rest_slots pr s fg bg) with ([(lit "foreground", shown_color (s_fg s) fg)] ++ [(lit "background", shown_color (s_bg s) bg)] ++
    [(lit "hyperlink", if str_eqb (s_link s) [] then None else Some (repr_str pr (s_link s), VStr (s_link s)))]).
  rewrite !present_app.
  destruct l as [|a0 l0] eqn:El.
  - (* nothing printed before: nothing printed after *)
    assert (E : s_fg s = None /\ s_bg s = None /\ s_link s = []).
    { assert (A : (forall k, get_flag k (s_flags s) = false) /\ s_reset s = false).
      { subst l. unfold first_slots in El. rewrite present_app in El. apply app_eq_nil in El. destruct El as [E1 E2]. split.
        - intro k. assert (X : forall ks, In k ks -> present (map (fun k => (field_name k, shown_true (get_flag k (s_flags s)))) ks) = [] -> get_flag k (s_flags s) = false).
          { induction ks as [|j ks IH]; intros I E; [contradiction|]. cbn [map present] in E. unfold shown_true at 1 in E.
            destruct (get_flag j (s_flags s)) eqn:G; [discriminate|]. destruct I as [->|I]; [exact G|now apply IH]. }
          apply (X all_flags); [destruct k; cbn; tauto|exact E1].
        - destruct (s_reset s); [discriminate|reflexivity]. }
      destruct A as [A1 A2]. unfold comma_twice in NC.
      destruct (s_fg s); [exfalso; apply NC; split; [exact A1|]; split; [exact A2|]; left; discriminate|].
      destruct (s_bg s); [exfalso; apply NC; split; [exact A1|]; split; [exact A2|]; right; left; discriminate|].
      destruct (s_link s) as [|x u]; [auto|exfalso; apply NC; split; [exact A1|]; split; [exact A2|]; right; right; discriminate]. }
    destruct E as [E1 [E2 E3]]. rewrite E1, E2, E3. change (str_eqb [] []) with true. cbv iota. rewrite <- !app_assoc. reflexivity.
  - assert (Ne : forall x : list kv, (a0 :: l0) ++ x <> []) by (intros x H; discriminate).
    rewrite !app_assoc. rewrite joined_grow; [|left; rewrite <- app_assoc; apply Ne]. rewrite joined_grow; [|left; apply Ne].
    rewrite joined_grow; [|left; discriminate].
    unfold same_opt in Hf, Hb.
    destruct (s_fg s) as [cf|]; destruct fg as [cf'|]; try (exfalso; destruct Hf as [X Y]; first [discriminate (X eq_refl)|discriminate (Y eq_refl)]);
    destruct (s_bg s) as [cb|]; destruct bg as [cb'|]; try (exfalso; destruct Hb as [X Y]; first [discriminate (X eq_refl)|discriminate (Y eq_refl)]);
    cbn [shown_color]; destruct (str_eqb (s_link s) []); cbn [fst]; rewrite <- ?app_assoc; reflexivity.
Qed.

Lemma slot_names : forall pr s fg bg, map fst (slots pr s fg bg) =
  map lit (style_params ++ ["reset_after"; "foreground"; "background"; "hyperlink"]%string).
Proof. reflexivity. Qed.
Lemma str_NoDup : forall l, (fix go (l : list str) := match l with [] => true | a :: r => negb (existsb (str_eqb a) r) && go r end) l = true -> NoDup l.
Proof.
  induction l as [|a r IH]; intro H; [constructor|]. apply andb_prop in H. destruct H as [H1 H2]. constructor; [|now apply IH].
  intro I. apply negb_true_iff in H1. rewrite <- not_true_iff_false in H1. apply H1. apply existsb_exists. exists a. split; [exact I|]. now apply str_eqb_eq.
Qed.
Lemma slots_nodup : forall pr s fg bg, NoDup (map fst (slots pr s fg bg)).
Proof. intros. rewrite slot_names. apply str_NoDup. reflexivity. Qed.

Lemma span_call : forall pr s fg bg, same_opt (s_fg s) fg -> same_opt (s_bg s) bg ->
  call (lit "Span") ((None, VStr (s_text s)) :: map arg_value (present (slots pr s fg bg))) =
  Some (VSpan (mkSpan (s_text s) fg bg (s_link s) (s_flags s) true)).
Proof.
  intros pr s fg bg Hf Hb. unfold call. change (str_eqb (lit "Span") (lit "Color")) with false. change (str_eqb (lit "Span") (lit "Span")) with true. cbv iota.
  set (L := slots pr s fg bg). pose proof (slots_nodup pr s fg bg) as ND. fold L in ND.
  assert (B : bind_args span_params span_params ((None, VStr (s_text s)) :: map arg_value (present L)) [] =
    bind_keywords span_params (map arg_value (present L)) [(lit "text", VStr (s_text s))]).
  { change span_params with (lit "text" :: tl span_params) at 2. cbn [bind_args]. destruct (present L) as [|[a b] r]; reflexivity. }
  rewrite B. destruct (bind_keywords_ok span_params (present L) [(lit "text", VStr (s_text s))]) as [out [E LK]].
  - now apply present_nodup.
  - intros k K. apply present_keys in K. unfold L in K. rewrite slot_names in K.
    assert (X : forall a, In a (style_params ++ ["reset_after"; "foreground"; "background"; "hyperlink"]%string) ->
      In a (["text"; "foreground"; "background"; "hyperlink"]%string ++ style_params ++ ["reset_after"]%string)).
    { intros a H. apply in_app_or in H. cbn in H |- *. tauto. }
    unfold span_params. apply in_map_iff in K. destruct K as [a [<- K]]. apply in_map. now apply X.
  - intros k K. apply present_keys in K. unfold L in K. rewrite slot_names in K. cbn [lookup]. destruct (str_eqb k (lit "text")) eqn:Et; [|reflexivity].
    apply str_eqb_eq in Et. subst k. exfalso. revert K. cbn. intuition discriminate.
  - rewrite E.
    assert (G : forall k, lookup k out = match slot_value k L with Some v => Some v | None => lookup k [(lit "text", VStr (s_text s))] end)
      by (intro k; rewrite LK; now rewrite lookup_present).
    clear LK E B ND.
    assert (T : lookup (lit "text") out = Some (VStr (s_text s))) by (rewrite G; reflexivity).
    assert (F : as_color_or_none (given "foreground" VNone out) = Some fg).
    { unfold given. rewrite G. change (slot_value (lit "foreground") L) with (option_map snd (shown_color (s_fg s) fg)).
      unfold same_opt in Hf. destruct (s_fg s); destruct fg; try reflexivity; exfalso; destruct Hf as [X Y]; first [discriminate (X eq_refl)|discriminate (Y eq_refl)]. }
    assert (Bg : as_color_or_none (given "background" VNone out) = Some bg).
    { unfold given. rewrite G. change (slot_value (lit "background") L) with (option_map snd (shown_color (s_bg s) bg)).
      unfold same_opt in Hb. destruct (s_bg s); destruct bg; try reflexivity; exfalso; destruct Hb as [X Y]; first [discriminate (X eq_refl)|discriminate (Y eq_refl)]. }
    assert (Lk : given "hyperlink" (VStr []) out = VStr (s_link s)).
    { unfold given. rewrite G. change (slot_value (lit "hyperlink") L) with
        (option_map snd (if str_eqb (s_link s) [] then None else Some (repr_str pr (s_link s), VStr (s_link s)))).
      destruct (str_eqb (s_link s) []) eqn:El; [|reflexivity]. apply str_eqb_eq in El. rewrite El. reflexivity. }
    assert (Rs : as_bool (given "reset_after" (VBool true) out) = Some true).
    { unfold given. rewrite G. change (slot_value (lit "reset_after") L) with (option_map snd (shown_true (s_reset s))). destruct (s_reset s); reflexivity. }
    assert (St : all_some (map (fun k => as_bool (given k (VBool false) out)) style_params) = Some (map (fun k => get_flag k (s_flags s)) all_flags)).
    { assert (One : forall k n, slot_value (lit n) L = option_map snd (shown_true (get_flag k (s_flags s))) -> lookup (lit n) [(lit "text", VStr (s_text s))] = None ->
        as_bool (given n (VBool false) out) = Some (get_flag k (s_flags s))).
      { intros k n H1 H2. unfold given. rewrite G, H1, H2. destruct (get_flag k (s_flags s)); reflexivity. }
      unfold style_params. cbn [map].
      rewrite (One FBold), (One FDim), (One FItalic), (One FUnderline), (One FBlink), (One FFastBlink), (One FInvert), (One FConceal), (One FStrike), (One FOpaque) by reflexivity.
      reflexivity. }
    unfold make_span. rewrite T, F, Bg, Lk, Rs, St. destruct (s_flags s). reflexivity.
Qed.

Lemma name_ok_slots : forall pr s fg bg k, In k (map fst (slots pr s fg bg)) -> name_ok k.
Proof.
  intros pr s fg bg k K. rewrite slot_names in K. cbn in K.
  repeat (destruct K as [<-|K]; [split; reflexivity|]). contradiction.
Qed.
Lemma present_in : forall l a, In a (present l) -> In (fst a, Some (snd a)) l.
Proof.
  induction l as [|[j [v|]] l IH]; intros a H; cbn [present] in H; [contradiction| |].
  - destruct H as [<-|H]; [now left|]. right. now apply IH.
  - right. now apply IH.
Qed.
Lemma span_closed : forall read pr s fg bg, Forall character (s_text s) -> Forall character (s_link s) ->
  same_opt (s_fg s) fg -> same_opt (s_bg s) bg ->
  (forall c c', s_fg s = Some c -> fg = Some c' -> item read (color_repr c) (VColor c')) ->
  (forall c c', s_bg s = Some c -> bg = Some c' -> item read (color_repr c) (VColor c')) ->
  ~ comma_twice s -> closed_item read (span_repr pr s) (VSpan (mkSpan (s_text s) fg bg (s_link s) (s_flags s) true)).
Proof.
  intros read pr s fg bg Ct Cl Hf Hb If Ib NC. rewrite (span_text pr s fg bg Hf Hb NC).
  apply call_item_string; [split; reflexivity|exact Ct| |now apply span_call].
  apply Forall_forall. intros a Ha. split.
  - apply (name_ok_slots pr s fg bg). apply present_keys. now apply in_map.
  - apply present_in in Ha. unfold slots, first_slots in Ha. rewrite <- app_assoc in Ha. apply in_app_or in Ha.
    assert (Tr : forall b, shown_true b = Some (snd a) -> item read (fst (snd a)) (snd (snd a))).
    { intros b E. unfold shown_true in E. destruct b; [|discriminate]. injection E as <-. apply item_true. }
    destruct Ha as [Ha|Ha].
    + unfold style_slots in Ha. apply in_map_iff in Ha. destruct Ha as [k [E _]]. injection E as _ E. now apply (Tr _ E).
    + cbn [app rest_slots In] in Ha. destruct Ha as [E|[E|[E|[E|[]]]]]; injection E as _ E.
      * now apply (Tr _ E).
      * destruct (s_fg s) as [c|]; [|discriminate]. destruct fg as [c'|]; [|discriminate]. injection E as <-. now apply If.
      * destruct (s_bg s) as [c|]; [|discriminate]. destruct bg as [c'|]; [|discriminate]. injection E as <-. now apply Ib.
      * destruct (str_eqb (s_link s) []); [discriminate|]. injection E as <-. now apply item_string.
Qed.
