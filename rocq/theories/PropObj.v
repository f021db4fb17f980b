(** C94, C95: color objects, their caches and the forced color space. *)
From Coq Require Import ZArith List Bool Lia String.
From Verif Require Import PyBase F64 SpaceModel ColorModel SpanModel ScreenModel ObjModel ObjSpec ObjProofs3 ObjProofs4.
Import ListNotations.
Open Scope string_scope.
Open Scope list_scope.
Open Scope Z_scope.

Definition rich : env := {| env_cs := TRUE_COLOR; env_pow := fun x _ => x |}.
Definition plainly (t : string) : op := OSpan (lit t) None None [] no_flags true.

(** * C94 Forcing a color space affects what is written afterwards *)
(** Full statement: whatever has happened before, after [terminal.color_space = c] everything
    written is in [c]; that is, programs see what they would see if every sequence were computed
    when it is needed.  False: plain text written before leaves the sequence of the default
    foreground behind, and plain text written later is emitted with it. *)
Theorem C94_refuted : exists e c p q, keeps_space p /\ keeps_space q /\
  snd (orun (p ++ OSpace c :: q) (machine0 e 2 1)) <> snd (plain_run (p ++ OSpace c :: q) (plain0 e 2 1)).
Proof.
  exists rich, NO_COLOR, [plainly "a"; OWrite [((0, 0), [0%nat])] None],
    [plainly "b"; OWrite [((1, 0), [1%nat])] None; ORender (1, 1) false].
  split; [repeat constructor|]. split; [repeat constructor|]. vm_compute. discriminate.
Qed.
Print Assumptions C94_refuted.

Example C94_seen :
  let written := [plainly "a"; OWrite [((0, 0), [0%nat])] None; OSpace NO_COLOR;
                  plainly "b"; OWrite [((1, 0), [1%nat])] None; ORender (1, 1) false] in
  (nth 5 (snd (orun written (machine0 rich 2 1))) SNone,
   nth 5 (snd (plain_run written (plain0 rich 2 1))) SNone) =
  (SStr (27 :: lit "[1;1H" ++ 27 :: lit "[38;2;255;255;255ma" ++ 27 :: lit "[0m"
         ++ 27 :: lit "[38;2;255;255;255mb" ++ 27 :: lit "[0m"),
   SStr (27 :: lit "[1;1H" ++ 27 :: lit "[38;2;255;255;255ma" ++ 27 :: lit "[0m"
         ++ 27 :: lit "[38;5;255mb" ++ 27 :: lit "[0m")).
Proof. vm_compute. reflexivity. Qed.

(** It holds when the space is forced before anything else is done. *)
Theorem C94_first : forall e w h c prog, keeps_space prog ->
  snd (orun (OSpace c :: prog) (machine0 e w h)) = SNone :: snd (plain_run prog (plain0 (at_space e c) w h)).
Proof. exact space_first. Qed.
Print Assumptions C94_first.

(** It holds for colors made afterwards. *)
Theorem C94_fresh : forall e w h p d v, color_of d = Ok v ->
  let m := fst (orun p (machine0 e w h)) in
  snd (orun (p ++ [OColor (CMake d); OAnsi (List.length (m_colors m))]) (machine0 e w h)) =
  snd (orun p (machine0 e w h)) ++ [SNone; SStr (color_ansi (m_env m) v)].
Proof. exact ansi_fresh. Qed.
Print Assumptions C94_fresh.

(** A color whose sequence has been read keeps it whatever is done later. *)
Theorem C94_sticky : forall e w h p q i a,
  snd (orun (p ++ [OAnsi i]) (machine0 e w h)) = snd (orun p (machine0 e w h)) ++ [SStr a] ->
  snd (orun (p ++ [OAnsi i] ++ q ++ [OAnsi i]) (machine0 e w h)) =
  snd (orun (p ++ [OAnsi i] ++ q) (machine0 e w h)) ++ [SStr a].
Proof. exact ansi_sticky. Qed.
Print Assumptions C94_sticky.

(** All calls of [Color.white()] share one such color. *)
Theorem C94_white : forall e w h p q a,
  let m1 := fst (orun p (machine0 e w h)) in
  let p1 := p ++ [OColor (CWhite false); OAnsi (List.length (m_colors m1))] in
  snd (orun p1 (machine0 e w h)) = snd (orun p (machine0 e w h)) ++ [SNone; SStr a] ->
  let m2 := fst (orun (p1 ++ q) (machine0 e w h)) in
  snd (orun (p1 ++ q ++ [OColor (CWhite false); OAnsi (List.length (m_colors m2))]) (machine0 e w h)) =
  snd (orun (p1 ++ q) (machine0 e w h)) ++ [SNone; SStr a].
Proof. exact white_shared. Qed.
Print Assumptions C94_white.

(** The first color of each of a color's groups is that color: if its sequence has been read, the
    group's first color has it, too. *)
Theorem C94_group : forall e w h p q g i a x,
  snd (orun (p ++ [OAnsi i]) (machine0 e w h)) = snd (orun p (machine0 e w h)) ++ [SStr a] ->
  let m := fst (orun (p ++ [OAnsi i] ++ q) (machine0 e w h)) in
  snd (orun ((p ++ [OAnsi i] ++ q) ++ [OColor (CGroup g i 0); OAnsi (List.length (m_colors m))]) (machine0 e w h)) =
  snd (orun (p ++ [OAnsi i] ++ q) (machine0 e w h)) ++ [SNone; x] -> x = SStr a.
Proof. exact group_self. Qed.
Print Assumptions C94_group.

(** Of the colors of a group, only those that have not been asked before take the new space. *)
Example C94_group_ex :
  snd (orun [OColor (CMake (DTriple (255, 0, 0))); OColor (CGroup Triadic 0 1); OAnsi 0; OAnsi 1; OSpace STANDARD;
             OColor (CGroup Triadic 0 0); OColor (CGroup Triadic 0 1); OColor (CGroup Triadic 0 2);
             OAnsi 2; OAnsi 3; OAnsi 4; OColor (CGroup Tetradic 0 4)] (machine0 rich 2 1)) =
  [SNone; SNone; SStr (lit "38;2;255;0;0"); SStr (lit "38;2;0;254;0"); SNone; SNone; SNone; SNone;
   SStr (lit "38;2;255;0;0"); SStr (lit "38;2;0;254;0"); SStr (lit "34"); SErr IndexError].
Proof. vm_compute. reflexivity. Qed.

(** Still, a sequence is never that of a space that was not in force at some time. *)
Theorem C94_some_space : forall e w h p i v a,
  snd (orun (p ++ [OLook i; OAnsi i]) (machine0 e w h)) = snd (orun p (machine0 e w h)) ++ [SColor v; SStr a] ->
  exists c, In c (env_cs e :: spaces p) /\ a = color_ansi (at_space e c) v.
Proof. exact ansi_some_space. Qed.
Print Assumptions C94_some_space.

Example C94_ex :
  let red := OColor (CMake (DTriple (255, 0, 0))) in
  let p := [OSpace STANDARD; red; OAnsi 0; OSpace EIGHT_BIT; red] in
  snd (orun (p ++ [OAnsi 0; OAnsi 1]) (machine0 rich 2 1)) =
  [SNone; SNone; SStr (lit "31"); SNone; SNone; SStr (lit "31"); SStr (lit "38;5;196")] /\
  spaces p = [STANDARD; EIGHT_BIT] /\
  (exists v, color_of (DTriple (255, 0, 0)) = Ok v) /\
  snd (orun [OColor (CWhite false); OAnsi 0; OSpace STANDARD; OColor (CWhite false); OAnsi 1] (machine0 rich 2 1)) =
  [SNone; SStr (lit "38;2;255;255;255"); SNone; SNone; SStr (lit "38;2;255;255;255")].
Proof.
  split; [vm_compute; reflexivity|]. split; [reflexivity|]. split; [eexists; reflexivity|]. vm_compute. reflexivity.
Qed.

(** * C95 Caches cannot be observed while the color space stays *)
Theorem C95_caches : forall e w h prog, keeps_space prog ->
  snd (orun prog (machine0 e w h)) = snd (plain_run prog (plain0 e w h)).
Proof. exact caches_hidden. Qed.
Print Assumptions C95_caches.

Example C95_ex :
  let prog := [OColor (CMake (DTriple (255, 0, 0))); OColor (CMake (DTriple (0, 0, 255)));
               OColor (CBlend 0 1 (flit 1 2) None 0); OColor (CBlend 0 1 (flit 1 2) None 0);
               OColor (CBackground 2 true None); OColor (CContrast 4); OColor (CContrast 4);
               OAnsi 2; OAnsi 3; OAnsi 5; OAnsi 6;
               OSpan (lit "hi") (Some 5%nat) (Some 4%nat) [] no_flags true; OStr 0; OChars 0 true true;
               OWrite [((0, 0), [0%nat])] None; OWrite [((0, 0), [0%nat])] None; ORender (1, 1) false] in
  keeps_space prog /\
  skipn 7 (snd (orun prog (machine0 rich 2 1))) =
  [SStr (lit "38;2;127;0;127"); SStr (lit "38;2;127;0;127"); SStr (lit "48;2;245;245;245"); SStr (lit "48;2;245;245;245");
   SNone; SStr (27 :: lit "[48;2;245;245;245;48;2;127;0;127mhi" ++ 27 :: lit "[0m"); SStrs [lit "h"; lit "i"];
   SInt 2; SInt 0;
   SStr (27 :: lit "[1;1H" ++ 27 :: lit "[48;2;245;245;245;48;2;127;0;127mh" ++ 27 :: lit "[0m"
         ++ 27 :: lit "[48;2;245;245;245;48;2;127;0;127mi" ++ 27 :: lit "[0m")].
Proof. split; [repeat constructor|]. vm_compute. reflexivity. Qed.

Example C95_groups :
  let prog := [OColor (CMake (DTriple (255, 128, 0))); OColor (CGroup Tetradic 0 2); OColor (CComplement 0);
               OColor (CGroup Tetradic 0 1); OColor (CGroup Tetradic 0 3); OColor (CGroup Analogous 0 2);
               OAnsi 1; OAnsi 2; OAnsi 3; OAnsi 4; OAnsi 5] in
  keeps_space prog /\
  skipn 6 (snd (orun prog (machine0 rich 2 1))) = skipn 6 (snd (plain_run prog (plain0 rich 2 1))) /\
  firstn 2 (skipn 6 (snd (orun prog (machine0 rich 2 1)))) = [SStr (lit "38;2;0;126;254"); SStr (lit "38;2;0;126;254")].
Proof. split; [repeat constructor|]. split; vm_compute; reflexivity. Qed.
