(** C113: several threads write to one screen (screen.py). *)
From Coq Require Import ZArith List Bool String Lia Permutation.
From Verif Require Import PyBase F64 SpaceModel ColorModel ColorSpec AnsiRe SpanModel SpanSpec ScreenModel ScreenSpec RaceModel RaceSpec
  ResizeRaceModel CrewModel CrewSpec CrewProofs CrewProofs2 CrewProofs3 PropScreen.
Import ListNotations.
Open Scope string_scope.
Open Scope list_scope.
Open Scope Z_scope.

(** ** C113 *)
(** The steps of one thread, while the others do nothing, are a write. *)
Theorem C113_write : forall e c s x y sp tb force n i sent, (i < n)%nat -> cache_ok e c -> shaped s -> sc_off s = 0 -> y < sc_h s ->
  match write_bulk e c s [((x, y), [sp])] tb force with
  | (s', _, Ok _) => exists tr, one_write ((x, y), sp, tb) tr /\ crew_run e (map (By i) tr) (rested s n sent) = Some (rested s' n sent)
  | _ => True
  end.
Proof. exact crew_alone. Qed.
Print Assumptions C113_write.

(** However the steps of any number of threads follow each other, no write fails with IndexError, and the matrix keeps
    its shape. *)
Theorem C113_never_fails : forall e s n sent tr k, shaped s -> keyed s -> crew_run e tr (rested s n sent) = Some k ->
  ~ In Failed (r_writers k) /\ shaped (r_screen k) /\ sc_w (r_screen k) = sc_w s /\ sc_h (r_screen k) = sc_h s.
Proof. exact crew_never_fails. Qed.
Print Assumptions C113_never_fails.

(** Threads that store different cells: whatever the interleaving, and whenever the screen is drawn, the screen and what
    is shown are those of the same writes one after the other, in any order. *)
Theorem C113_apart : forall own e s n sent tr s' sent' ds dflt idx, shaped s -> keyed s -> crew_run e tr (rested s n sent) = Some (rested s' n sent') ->
  (forall i, (i < n)%nat -> one_write (nth i ds dflt) (part i tr)) -> apart own tr -> Permutation idx (seq 0 n) ->
  exists s'', in_turn e (map (fun i => nth i ds dflt) idx) s = Some s'' /\
    forall q, on_screen (sc_w s) (sc_h s) q -> cell_at s' q = cell_at s'' q /\ newest_of q s' sent' = newest_of q s'' sent.
Proof. exact crew_in_turn. Qed.
Print Assumptions C113_apart.

(** A cell several threads store: where none stores it between the moment another one stores it and notes it, what is
    shown is what the screen holds. *)
Theorem C113_truthful_partial : forall e s n sent tr s' m sent' q, shaped s -> keyed s -> crew_run e tr (rested s n sent) = Some (rested s' m sent') ->
  on_screen (sc_w s) (sc_h s) q -> truthful e q s sent -> untangled q None tr = true -> truthful e q s' sent'.
Proof. exact stays_truthful. Qed.
Print Assumptions C113_truthful_partial.
(** Where one does, the screen ends up holding what one thread wrote and the terminal shows what the other wrote: any
    two threads may do so, with any two characters at any cell ... *)
Theorem C113_tangled_refuted : forall e s n i j sent q spA spB tbA tbB chA chB old, (i < n)%nat -> (j < n)%nat -> i <> j ->
  shaped s -> sc_off s = 0 -> on_screen (sc_w s) (sc_h s) q -> opaque_span spA -> opaque_span spB -> ~ In NL (s_text spA) -> ~ In NL (s_text spB) ->
  get_characters e spA true true = [chA] -> get_characters e spB true true = [chB] -> cell_at s q = Some old ->
  ~ same_cell (plain_cell (chA, spA)) old -> ~ same_cell (plain_cell (chB, spB)) (plain_cell (chA, spA)) ->
  exists tr s', one_write (q, spA, tbA) (part i tr) /\ one_write (q, spB, tbB) (part j tr) /\
    crew_run e tr (rested s n sent) = Some (rested s' n sent) /\ cell_at s' q = Some (plain_cell (chB, spB)) /\
    newest_of q s' sent = Some (drawn e (plain_cell (chA, spA))).
Proof. exact tangled_plain. Qed.
Print Assumptions C113_tangled_refuted.
(** ... and it stays so, whatever is written elsewhere and drawn. *)
Theorem C113_left : forall e s n sent tr k q, shaped s -> keyed s -> on_screen (sc_w s) (sc_h s) q -> Forall (leaves q) tr ->
  crew_run e tr (rested s n sent) = Some k -> cell_at (r_screen k) q = cell_at s q /\ newest_of q (r_screen k) (r_sent k) = newest_of q s sent.
Proof. exact crew_leaves. Qed.
Print Assumptions C113_left.

(** * Examples *)
Definition pair_ : screen := snd (render (new_screen 2 1 (0, 0) [32]) (1, 1) false).
Definition o_ : span := sp_ "o" None None.
Definition x_ : span := sp_ "x" None None.
Lemma pair_ok : shaped pair_ /\ keyed pair_ /\ sc_off pair_ = 0 /\ truthful e0 (0, 0) pair_ [] /\ truthful e0 (1, 0) pair_ [].
Proof.
  assert (X : forall q, truthful e0 q pair_ []) by (intros q c t _ H; discriminate H).
  split; [|split; [|split; [reflexivity|split; apply X]]]; repeat split; try (cbn; lia); repeat constructor.
Qed.
Definition own_ (q : pos) : nat := Z.to_nat (fst q).
Definition woven_ : list crew_event :=
  [By 0 (Call (0, 0) o_ BLACK); By 1 (Call (1, 0) x_ BLACK); By 1 Lay; By 0 Lay; By 0 Lay; By 1 Lay; By 1 (Save (1, 0)); By 0 (Save (0, 0));
   By 0 (Enter (0, 0)); Show; By 1 (Enter (1, 0)); By 0 Return; By 1 Return].
Example C113_apart_ex :
  (forall i, (i < 2)%nat -> one_write (nth i [((0, 0), o_, BLACK); ((1, 0), x_, BLACK)] ((0, 0), o_, BLACK)) (part i woven_)) /\ apart own_ woven_ /\
  untangled (0, 0) None woven_ = true /\ untangled (1, 0) None woven_ = true /\
  match crew_run e0 woven_ (rested pair_ 2 []) with
  | Some k => map (fun wr => match wr with Idle => true | _ => false end) (r_writers k) = [true; true] /\
      map (map (fun c => fst (fst c))) (sc_cells (r_screen k)) = [[[111]; [120]]] /\
      map (map fst) (r_sent k) = [[(0, 0)]] /\ map fst (sc_buf (r_screen k)) = [(1, 0)]
  | None => False
  end.
Proof.
  split.
  { intros i Hi. destruct i as [|[|i]]; [| |lia]; cbn [nth]; eexists; (split; [reflexivity|]); repeat (apply Forall_cons; [intros []|]); apply Forall_nil. }
  split. { intros i q H. cbn in H. repeat (destruct H as [H|H]; [try discriminate H; injection H as <- <-; reflexivity|]). destruct H. }
  split; [reflexivity|]. split; [reflexivity|]. vm_compute. repeat split.
Qed.
(** both write the first cell: the screen holds "x", the terminal shows "o" *)
Definition torn_ : list crew_event :=
  [By 0 (Call (0, 0) o_ BLACK); By 1 (Call (0, 0) x_ BLACK); By 0 Lay; By 0 Lay; By 1 Lay; By 1 Lay; By 0 (Save (0, 0)); By 1 (Save (0, 0));
   By 1 (Enter (0, 0)); By 1 Return; By 0 (Enter (0, 0)); By 0 Return; Show;
   By 0 (Call (0, 0) x_ BLACK); By 0 Lay; By 0 Lay; By 0 (Save (0, 0)); By 0 Return; Show].
Example C113_tangled_ex : untangled (0, 0) None torn_ = false /\
  match crew_run e0 torn_ (rested pair_ 2 []) with
  | Some k => map (fun wr => match wr with Idle => true | _ => false end) (r_writers k) = [true; true] /\
      map (map (fun c => fst (fst c))) (sc_cells (r_screen k)) = [[[120]; [32]]] /\
      r_sent k = [[((0, 0), csi_m (lit "38;2;255;255;255") ++ lit "o" ++ RESET)]; []] /\ sc_buf (r_screen k) = []
  | None => False
  end.
Proof. split; [reflexivity|]. vm_compute. repeat split. Qed.
Example C113_tangled_case : exists old, cell_at pair_ (0, 0) = Some old /\ ~ same_cell (plain_cell (lit "o", o_)) old /\
  ~ same_cell (plain_cell (lit "x", x_)) (plain_cell (lit "o", o_)) /\ opaque_span o_ /\ opaque_span x_ /\ ~ In NL (s_text o_) /\ ~ In NL (s_text x_) /\
  get_characters e0 o_ true true = [lit "o"] /\ get_characters e0 x_ true true = [lit "x"].
Proof.
  eexists. split; [reflexivity|]. split; [intros [K _]; discriminate K|]. split; [intros [K _]; discriminate K|].
  split; [split; intros c K; discriminate K|]. split; [split; intros c K; discriminate K|].
  split; [intros [K|[]]; discriminate K|]. split; [intros [K|[]]; discriminate K|]. split; reflexivity.
Qed.
