(** C84-C87: using keys (core.py Key, __main__.py getch and size). *)
From Coq Require Import ZArith List Bool String Lia.
From Verif Require Import PyBase F64 SpaceModel ColorModel AnsiRe SpanModel Vt SpanSpec CoreModel KeyTab KeySpec KeyProofs KeyUseModel KeyUseSpec KeyUseProofs PropScreen.
Import ListNotations.
Open Scope Z_scope.
Open Scope list_scope.

(** ** C84 *)
(** Keys have the names of an xterm's keys: full statement: [forall b k, on_keyboard b -> In k (sends b) ->
    exists names, decode_key false k = Ok names /\ key_eq names (OStr (called b)) = true].  It holds for
    the keys that are tabled and not swapped ... *)
Theorem C84_named_partial : forall b k, on_keyboard b -> tabled b = true -> swapped b = false -> In k (sends b) ->
  exists names, decode_key false k = Ok names /\ key_eq names (OStr (called b)) = true.
Proof. exact button_named. Qed.
Print Assumptions C84_named_partial.
(** ... and fails for every key that is not tabled (page up, page down, six combinations of arrows) ... *)
Theorem C84_missing_refuted : forall b k, on_keyboard b -> tabled b = false -> In k (sends b) ->
  decode_key false k = Ok [k] /\ exists names, decode_key false k = Ok names /\ key_eq names (OStr (called b)) = false.
Proof. intros b k H T I. split; [exact (button_unnamed b k H T I)|exact (unnamed_wrong b k H T I)]. Qed.
Print Assumptions C84_missing_refuted.
(** ... and for home and end, each of which is taken for the other *)
Theorem C84_swapped_refuted : (exists names, decode_key false (CSI (lit "H")) = Ok names /\ key_eq names (OStr (lit "home")) = false) /\
  (exists names, decode_key false (CSI (lit "F")) = Ok names /\ key_eq names (OStr (lit "end")) = false) /\
  (exists names, decode_key false (CSI (lit "H")) = Ok names /\ key_eq names (OStr (lit "end")) = true) /\
  (exists names, decode_key false (CSI (lit "F")) = Ok names /\ key_eq names (OStr (lit "home")) = true).
Proof. exact home_end. Qed.
Print Assumptions C84_swapped_refuted.
Example C84_ex : on_keyboard (Arrow 5 Left_) /\ tabled (Arrow 5 Left_) = true /\ swapped (Arrow 5 Left_) = false /\
  sends (Arrow 5 Left_) = [CSI (lit "1;5D")] /\ called (Arrow 5 Left_) = lit "ctrl-left" /\
  sends (Function 11) = [CSI (lit "23~")] /\ called (Function 11) = lit "F11".
Proof. repeat split; try reflexivity; cbn; lia. Qed.
Example C84_ex_missing : on_keyboard (Arrow 8 Up) /\ tabled (Arrow 8 Up) = false /\ called (Arrow 8 Up) = lit "ctrl-alt-shift-up".
Proof. repeat split; try reflexivity; cbn; lia. Qed.

(** ** C85 *)
(** Text is never taken for a key.  Exactly what is taken for a key: the sequences it sends, and its
    name, typed or pasted as text. *)
Theorem C85_only : forall b k, on_keyboard b -> tabled b = true -> swapped b = false ->
  ((exists names, decode_key false k = Ok names /\ key_eq names (OStr (called b)) = true) <-> In k (sends b) \/ k = called b).
Proof. exact button_only. Qed.
Print Assumptions C85_only.
(** So a pasted name is refuted in every case *)
Theorem C85_pasted_refuted : forall b, on_keyboard b ->
  decode_key false (called b) = Ok [called b] /\ key_eq [called b] (OStr (called b)) = true.
Proof. exact typed_name. Qed.
Print Assumptions C85_pasted_refuted.
Example C85_ex : on_keyboard Enter /\ tabled Enter = true /\ swapped Enter = false /\ called Enter = lit "return".
Proof. repeat split. Qed.

(** ** C86 *)
(** Membership in a list works by any name of the key ... *)
Theorem C86_lists : forall k l, in_list k l = true <-> exists n, In n k /\ In n l.
Proof. exact in_list_spec. Qed.
Print Assumptions C86_lists.
(** ... but keys are not values: no key equals any key, itself included, and none can be looked up *)
Theorem C86_equality_refuted : forall k k', key_eq k (OKey k') = false.
Proof. exact keys_differ. Qed.
Print Assumptions C86_equality_refuted.
Theorem C86_sets_refuted : forall k l, in_set k l = Err TypeError.
Proof. exact in_set_raises. Qed.
Print Assumptions C86_sets_refuted.
Example C86_ex : in_list [lit "return"; lit "ctrl-m"] [lit "up"; lit "ctrl-m"] = true /\
  in_list [lit "return"; lit "ctrl-m"] [lit "up"; lit "m"] = false.
Proof. split; reflexivity. Qed.

(** ** C87 *)
(** [slate getch --raw] shows, after its prompt, a Python literal whose value is what was typed, without
    control characters.  [pr] is str.isprintable, false for the C1 controls. *)
Theorem C87_raw : forall e pr typed, (forall x, 128 <= x <= 159 -> pr x = false) -> Forall character typed ->
  exists line, run_getch e pr true typed = (waiting ++ line ++ [NL], Ok tt) /\ literal line = Some typed /\
    Forall (fun c => is_ctl c = false) line.
Proof. exact getch_raw. Qed.
Print Assumptions C87_raw.
Theorem C87_named : forall e pr k names, dict_get POSIX_KEY_NAMES k = Some names ->
  run_getch e pr false k = (waiting ++ join (lit " | ") names ++ [NL], Ok tt) /\
  Forall (fun c => is_ctl c = false) (join (lit " | ") names).
Proof. exact getch_named. Qed.
Print Assumptions C87_named.
Theorem C87_character : forall e pr c, (forall x, 128 <= x <= 159 -> pr x = false) -> character c -> dict_get POSIX_KEY_NAMES [c] = None ->
  exists line, run_getch e pr false [c] = (waiting ++ line ++ [NL], Ok tt) /\ literal line = Some [c] /\
    Forall (fun c => is_ctl c = false) line.
Proof. exact getch_char. Qed.
Print Assumptions C87_character.
(** Anything else that is not a mouse report is printed as it is, escape sequences included ... *)
Theorem C87_verbatim : forall e pr k, keyboard k -> dict_get POSIX_KEY_NAMES k = None -> zlen k <> 1 ->
  run_getch e pr false k = (waiting ++ k ++ [NL], Ok tt).
Proof. exact getch_verbatim. Qed.
Print Assumptions C87_verbatim.
(** ... so the terminal obeys a key instead of showing it, and a middle click ends the command *)
Theorem C87_escape_refuted : exists k, keyboard k /\ forall e pr, exists line,
  run_getch e pr false k = (waiting ++ line ++ [NL], Ok tt) /\ In 27 line.
Proof. exact getch_escape. Qed.
Print Assumptions C87_escape_refuted.
Theorem C87_click_refuted : forall e pr x y, 0 <= x -> 0 <= y ->
  run_getch e pr false (mouse_report (dec 1) (dec x) (dec y) 77) = (waiting, Err KeyError).
Proof. exact getch_crash. Qed.
Print Assumptions C87_click_refuted.
Example C87_ex : fst (run_getch e0 (fun _ => false) true (lit "it's" ++ [27; 233])) =
  waiting ++ lit """it's\x1b\xe9""" ++ [NL] /\ Forall character (lit "it's" ++ [27; 233]) /\
  keyboard (lit "hi") /\ run_size (80, 24) = lit "80 x 24" ++ [NL].
Proof.
  split; [vm_compute; reflexivity|]. split; [repeat constructor; unfold character; lia|]. split; [|reflexivity].
  apply keyboard_few. reflexivity.
Qed.
