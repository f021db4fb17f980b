(** Specification, independent of Slate: a terminal with a normal and an alternate screen buffer
    (private mode 1049 of xterm).  What its other commands do is left open. *)
From Coq Require Import ZArith List Bool String.
From Verif Require Import PyBase Vt CommandSpec.
Import ListNotations.
Open Scope Z_scope.

(** Any terminal: [Buf] is a buffer with its cursor and rendition, [Rest] everything else (the title, the
    modes, the bell).  [obey]: what a command does to the rest and to the buffer that is shown; [erased]: a
    buffer as it is when the alternate one is entered; [recall]: the cursor goes back to where it was last
    saved. *)
Record terminal := mkTerminal {
  Rest : Type; Buf : Type;
  obey : command -> Rest * Buf -> Rest * Buf;
  erased : Buf -> Buf;
  recall : Buf -> Buf
}.
(** restoring the title, hiding and showing the cursor *)
Definition aside (k : command) : Prop := k = Csi (lit "23;0") 116 \/ k = Csi (lit "?25") 104 \/ k = Csi (lit "?25") 108.
(** ... leave the buffer alone *)
Definition tidy (T : terminal) : Prop := forall k r b, aside k -> snd (obey T k (r, b)) = b.

(** [Alternate b0 b]: the alternate buffer [b] is shown, the normal one is kept as [b0] *)
Inductive display (B : Type) := Normal (b : B) | Alternate (b0 b : B).
Arguments Normal {B}. Arguments Alternate {B}.

(** [Some true]: to the alternate buffer; [Some false]: back.  Simplification: other modes in the same sequence
    are passed over. *)
Definition switches (k : command) : option bool :=
  match k with
  | Csi (c :: ps) f =>
      if (c =? 63) && forallb param_char ps && existsb (Z.eqb 1049) (params ps)
      then if f =? 104 then Some true else if f =? 108 then Some false else None
      else None
  | _ => None
  end.
Definition carry (T : terminal) (st : Rest T * display (Buf T)) (k : command) : Rest T * display (Buf T) :=
  let '(r, d) := st in
  match switches k, d with
  | Some true, Normal b => (r, Alternate b (erased T b))
  | Some true, Alternate b0 b => (r, Alternate b0 (erased T b))
  | Some false, Normal b => (r, Normal (recall T b))
  | Some false, Alternate b0 _ => (r, Normal b0)
  | None, Normal b => let '(r', b') := obey T k (r, b) in (r', Normal b')
  | None, Alternate b0 b => let '(r', b') := obey T k (r, b) in (r', Alternate b0 b')
  end.
(** what is displayed after [out] *)
Definition shown (T : terminal) (c1 : bool) (out : str) (st : Rest T * display (Buf T)) : Rest T * display (Buf T) :=
  fold_left (carry T) (commands c1 out) st.

(** nothing half-received *)
Definition whole (c1 : bool) (out : str) : Prop := snd (scan c1 Ground out) = Ground.
(** no command to change the buffer *)
Definition stays (c1 : bool) (out : str) : Prop := Forall (fun k => switches k = None) (commands c1 out).
(** what commands do to one buffer *)
Definition obeys (T : terminal) (l : list command) (rb : Rest T * Buf T) : Rest T * Buf T := fold_left (fun rb k => obey T k rb) l rb.
