(** key_names.py, transcribed by a script from the source text.  Definitions only. *)
From Coq Require Import ZArith List String.
From Verif Require Import PyBase.
Open Scope Z_scope.

(** key_names.py:3-85 *)
Definition POSIX_KEY_NAMES : list (str * list str) :=
  [ ([27], [lit "esc"; lit "escape"]);
    ([27; 91; 65], [lit "up"; lit "arrow-up"]);
    ([27; 91; 66], [lit "down"; lit "arrow-down"]);
    ([27; 91; 67], [lit "right"; lit "arrow-right"]);
    ([27; 91; 68], [lit "left"; lit "arrow-left"]);
    ([27; 91; 49; 59; 50; 65], [lit "shift-up"; lit "shift-arrow-up"]);
    ([27; 91; 49; 59; 50; 66], [lit "shift-down"; lit "shift-arrow-down"]);
    ([27; 91; 49; 59; 50; 67], [lit "shift-right"; lit "shift-arrow-right"]);
    ([27; 91; 49; 59; 50; 68], [lit "shift-left"; lit "shift-arrow-left"]);
    ([27; 91; 49; 59; 51; 65], [lit "alt-up"; lit "alt-arrow-up"]);
    ([27; 91; 49; 59; 51; 66], [lit "alt-down"; lit "alt-arrow-down"]);
    ([27; 91; 49; 59; 51; 67], [lit "alt-right"; lit "alt-arrow-right"]);
    ([27; 91; 49; 59; 51; 68], [lit "alt-left"; lit "alt-arrow-left"]);
    ([27; 91; 49; 59; 52; 65], [lit "alt-shift-up"; lit "alt-shift-arrow-up"]);
    ([27; 91; 49; 59; 52; 66], [lit "alt-shift-down"; lit "alt-shift-arrow-down"]);
    ([27; 91; 49; 59; 52; 67], [lit "alt-shift-right"; lit "alt-shift-arrow-right"]);
    ([27; 91; 49; 59; 52; 68], [lit "alt-shift-left"; lit "alt-shift-arrow-left"]);
    ([27; 91; 49; 59; 54; 65], [lit "ctrl-shift-up"; lit "ctrl-shift-arrow-up"]);
    ([27; 91; 49; 59; 54; 66], [lit "ctrl-shift-down"; lit "ctrl-shift-arrow-down"]);
    ([127], [lit "backspace"]);
    ([27; 127], [lit "alt-backspace"]);
    ([1], [lit "ctrl-a"]);
    ([2], [lit "ctrl-b"]);
    ([3], [lit "ctrl-c"]);
    ([4], [lit "ctrl-d"]);
    ([5], [lit "ctrl-e"]);
    ([6], [lit "ctrl-f"]);
    ([7], [lit "ctrl-g"]);
    ([8], [lit "ctrl-backspace"; lit "ctrl-h"]);
    ([9], [lit "tab"; lit "ctrl-i"]);
    ([10], [lit "return"; lit "ctrl-j"]);
    ([11], [lit "ctrl-k"]);
    ([12], [lit "ctrl-l"]);
    ([13], [lit "ctrl-m"]);
    ([14], [lit "ctrl-n"]);
    ([15], [lit "ctrl-o"]);
    ([16], [lit "ctrl-p"]);
    ([17], [lit "ctrl-q"]);
    ([18], [lit "ctrl-r"]);
    ([19], [lit "ctrl-s"]);
    ([20], [lit "ctrl-t"]);
    ([21], [lit "ctrl-u"]);
    ([22], [lit "ctrl-v"]);
    ([23], [lit "ctrl-w"]);
    ([24], [lit "ctrl-x"]);
    ([25], [lit "ctrl-y"]);
    ([26], [lit "ctrl-z"]);
    ([27; 91; 49; 59; 53; 65], [lit "ctrl-up"]);
    ([27; 91; 49; 59; 53; 66], [lit "ctrl-down"]);
    ([27; 91; 49; 59; 53; 67], [lit "ctrl-right"]);
    ([27; 91; 49; 59; 53; 68], [lit "ctrl-left"]);
    ([27; 91; 72], [lit "end"]);
    ([27; 91; 70], [lit "home"]);
    ([27; 91; 50; 126], [lit "insert"]);
    ([27; 91; 51; 126], [lit "delete"]);
    ([27; 91; 90], [lit "shift-tab"]);
    ([27; 91; 49; 49; 126], [lit "F1"]);
    ([27; 79; 80], [lit "F1"]);
    ([27; 91; 49; 50; 126], [lit "F2"]);
    ([27; 79; 81], [lit "F2"]);
    ([27; 91; 49; 51; 126], [lit "F3"]);
    ([27; 79; 82], [lit "F3"]);
    ([27; 91; 49; 52; 126], [lit "F4"]);
    ([27; 79; 83], [lit "F4"]);
    ([27; 91; 49; 53; 126], [lit "F5"]);
    ([27; 91; 49; 55; 126], [lit "F6"]);
    ([27; 91; 49; 56; 126], [lit "F7"]);
    ([27; 91; 49; 57; 126], [lit "F8"]);
    ([27; 91; 50; 48; 126], [lit "F9"]);
    ([27; 91; 50; 49; 126], [lit "F10"]);
    ([27; 91; 50; 51; 126], [lit "F11"]);
    ([27; 91; 50; 52; 126], [lit "F12"]) ].

(** key_names.py:87-107 *)
Definition NT_KEY_NAMES : list (str * list str) :=
  [ ([27], [lit "esc"]);
    ([27; 75], [lit "left"]);
    ([27; 77], [lit "right"]);
    ([27; 72], [lit "up"]);
    ([27; 80], [lit "down"]);
    ([13], [lit "return"]);
    ([8], [lit "backspace"]);
    ([0; 59], [lit "f1"]);
    ([0; 60], [lit "f2"]);
    ([0; 61], [lit "f3"]);
    ([0; 62], [lit "f4"]);
    ([0; 63], [lit "f5"]);
    ([0; 64], [lit "f6"]);
    ([0; 65], [lit "f7"]);
    ([0; 66], [lit "f8"]);
    ([0; 67], [lit "f9"]);
    ([0; 68], [lit "f10"]);
    ([224; 133], [lit "f11"]);
    ([224; 134], [lit "f12"]) ].
