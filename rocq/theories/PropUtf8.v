(** C83: input that is not UTF-8. *)
From Coq Require Import ZArith List Bool Lia String.
From Verif Require Import PyBase CoreModel KeySpec Utf8Spec Utf8Proofs.
Import ListNotations.
Open Scope Z_scope.
Open Scope list_scope.

(** ** C83 *)
(** A byte that cannot continue the input appears as Python writes the bytes object, before the
    character it interrupts; when nothing follows, the beginning of that character is lost. *)
Theorem C83_invalid : forall M (cb : M -> M) mode raw cs p b r c cs', Forall scalar cs -> Forall scalar cs' ->
  scalar c -> utf8 c = p ++ r -> r <> [] -> 0 <= b < 256 -> ~ utf8_prefix (p ++ [b]) ->
  ~ surrogate_begin (p ++ [b]) ->
  exists t, byte_shown b t /\
  getch cb mode true raw None sio_empty false (flat_map utf8 cs ++ p ++ b :: r ++ flat_map utf8 cs') =
    (sio_empty, mode, Returned (decode_key raw (cs ++ t ++ c :: cs'))) /\
  getch cb mode true raw None sio_empty false (flat_map utf8 cs ++ p ++ [b]) =
    (sio_empty, mode, Returned (decode_key raw (cs ++ t))).
Proof. exact getch_invalid. Qed.
Print Assumptions C83_invalid.

(** Every input either is UTF-8 up to an unfinished character, or has a first such byte. *)
Theorem C83_inputs : forall input, Forall (fun b => 0 <= b < 256) input ->
  (exists cs p c r, Forall scalar cs /\ scalar c /\ utf8 c = p ++ r /\ r <> [] /\ input = flat_map utf8 cs ++ p) \/
  (exists cs p b c r rest, Forall scalar cs /\ scalar c /\ utf8 c = p ++ r /\ r <> [] /\ ~ utf8_prefix (p ++ [b]) /\
    input = flat_map utf8 cs ++ p ++ b :: rest).
Proof. exact invalid_split. Qed.
Print Assumptions C83_inputs.

(** The whole account: every input is understood in exactly one way, and that is what getch returns;
    it waits when the last byte leaves something incomplete. *)
Theorem C83_exact : forall M (cb : M -> M) mode raw input, Forall (fun b => 0 <= b < 256) input -> input <> [] ->
  exists t w, understood [] input t w /\
  getch cb mode true raw None sio_empty false input =
    if w then (sio_empty, cb mode, Waits) else (sio_empty, mode, Returned (decode_key raw t)).
Proof. exact getch_understood. Qed.
Print Assumptions C83_exact.

(** After the first two bytes of an encoded surrogate nothing is understood any more: every further
    byte of the read, whatever it is, appears as Python writes it. *)
Theorem C83_surrogate : forall M (cb : M -> M) mode raw cs b rest ts, Forall scalar cs -> 160 <= b <= 191 ->
  Forall (fun b => 0 <= b < 256) rest -> Forall2 byte_shown rest ts ->
  getch cb mode true raw None sio_empty false (flat_map utf8 cs ++ 237 :: b :: rest) =
    match rest with
    | [] => (sio_empty, cb mode, Waits)
    | _ => (sio_empty, mode, Returned (decode_key raw (cs ++ List.concat ts)))
    end.
Proof. exact getch_surrogate. Qed.
Print Assumptions C83_surrogate.

(** an e with acute accent interrupted by the byte 0xff, and by a letter; a surrogate *)
Example C83_ex : utf8 233 = [195] ++ [169] /\ scalar 233 /\
  snd (getch (fun m : bool => m) true true true None sio_empty false [97; 195; 255; 169; 98]) = Returned (decode_key true (lit "ab'\xff'" ++ [233; 98])) /\
  snd (getch (fun m : bool => m) true true true None sio_empty false [195; 97]) = Returned (decode_key true (lit "b'a'")) /\
  snd (getch (fun m : bool => m) true true true None sio_empty false [237; 160]) = Waits /\
  snd (getch (fun m : bool => m) true true true None sio_empty false [120; 237; 160; 128; 121]) = Returned (decode_key true (lit "xb'\x80'b'y'")).
Proof. split; [reflexivity|]. split; [unfold scalar; lia|]. vm_compute. repeat split. Qed.
Example C83_ex_invalid : ~ utf8_prefix ([] ++ [255]).
Proof.
  intros [c [t [S E]]]. destruct (utf8_cases c S) as [[a [U R]]|[[a [b [U R]]]|[[a [b [d [U R]]]]|[a [b [d [f [U R]]]]]]]]; rewrite U in E; injection E as E; lia.
Qed.
