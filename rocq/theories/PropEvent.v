(** C44: events (event.py). *)
From Coq Require Import ZArith List Bool String.
From Verif Require Import PyBase EventModel EventSpec EventProofs.
Open Scope Z_scope.

(** Calling an event serves the queue of its callbacks: each once, in registration order, with
    the data; callbacks added meanwhile are served in the same call; an exception ends it at
    that callback and comes out; otherwise the result is truthy iff some callback's was. *)
Theorem C44_emission : forall L W D (b : behaviour L W D) d ls w done w' vs x fuel,
  served b d ls w done w' (vs, x) -> Forall sane vs -> (List.length done <= fuel)%nat ->
  exists ls' o, emit (appending b) fuel d (mkE ls w)
    = Some (mkE (ls ++ ls') w', match x with None => Ok o | Some e => Err e end)
    /\ truthy o = existsb truthy vs.
Proof. exact event_reaches_all. Qed.
Print Assumptions C44_emission.

(** Callbacks that add no others: all run exactly once, in order. *)
Theorem C44_each_once_in_order : forall L W D (f : L -> D -> W -> W * pyval) d ls w,
  served (fun l d w => (fst (f l d w), [], Ok (snd (f l d w)))) d ls w ls
    (fold_left (fun w l => fst (f l d w)) ls w)
    ((fix go ls w := match ls with
                     | [] => []
                     | l :: r => snd (f l d w) :: go r (fst (f l d w))
                     end) ls w, None).
Proof. exact served_plain. Qed.
Print Assumptions C44_each_once_in_order.

Theorem C44_clear_stops : forall L W D (beh : L -> D -> estate L W -> estate L W * res pyval)
    fuel i d o s cb s' v o',
  nth_error (ev_listeners s) i = Some cb ->
  beh cb d s = (event_clear s', Ok v) -> ior o (or_false v) = Ok o' ->
  emit_from beh (S fuel) i d o s = Some (event_clear s', Ok o').
Proof. exact clearing_stops. Qed.
Print Assumptions C44_clear_stops.

(** Adding: appended last; a non callable raises ValueError and changes nothing; an event is
    true iff it has listeners. *)
Theorem C44_registration : forall L W (l : L) (s : estate L W),
  event_iadd (Some l) s = (mkE (ev_listeners s ++ [l]) (ev_world s), Ok tt) /\
  event_iadd None s = (s, Err ValueError) /\
  (event_bool s = true <-> ev_listeners s <> []).
Proof. exact registration. Qed.
Print Assumptions C44_registration.

(** A callback that keeps re-adding itself makes the call run forever. *)
Theorem C44_self_appending_diverges : forall L W D (b : behaviour L W D) l d,
  (forall w, exists w', b l d w = (w', [l], Ok VNone)) ->
  forall fuel w, emit (appending b) fuel d (mkE [l] w) = None.
Proof. exact self_appending_never_ends. Qed.
Print Assumptions C44_self_appending_diverges.

(** [sane] results are those of the annotated type; a truthy non-number makes the call raise
    TypeError. *)
Theorem C44_other_results :
  exists (b : behaviour unit unit unit),
    served b tt [tt] tt [tt] tt ([VOther true], None) /\
    forall fuel, emit (appending b) (S fuel) tt (mkE [tt] tt) = Some (mkE [tt] tt, Err TypeError).
Proof. exact truthy_string_raises. Qed.
Print Assumptions C44_other_results.

(** Non-vacuity: three callbacks logging their number, the second adding a fourth and the
    third raising. *)
Definition demo : behaviour Z (list Z) Z := fun l d w =>
  (w ++ [l * 100 + d], if l =? 2 then [4] else [], if l =? 3 then Err (UserError 7) else Ok (VBool (l =? 2))).
Example C44_case_added : served demo 9 [1; 2] [] [1; 2; 4] [109; 209; 409]
  ([VBool false; VBool true; VBool false], None).
Proof. repeat (eapply served_next; [reflexivity|]). apply served_nil. Qed.
Example C44_case_raise : served demo 9 [1; 3; 2] [] [1; 3] [109; 309] ([VBool false], Some (UserError 7)).
Proof. eapply served_next; [reflexivity|]. eapply served_exn. reflexivity. Qed.
Example C44_case_run : emit (appending demo) 3 9 (mkE [1; 2] [])
  = Some (mkE [1; 2; 4] [109; 209; 409], Ok (VBool true)).
Proof. reflexivity. Qed.
