(** Specification of color descriptions: what every text means. *)
From Coq Require Import ZArith List String Reals.
From Verif Require Import PyBase F64 SpaceModel ColorTab ColorModel ColorSpec BlendSpec DecSpec NumSpec.
Import ListNotations.
Open Scope Z_scope.

Definition byte (n : Z) : Prop := 0 <= n <= 255.

(** Three hexadecimal numbers: two characters, two characters, and the rest *)
Definition hex_triple (h : str) (rgb : triple) : Prop :=
  exists x y z r g b, h = x ++ y ++ z /\ List.length x = 2%nat /\ List.length y = 2%nat /\
    int_text 16 x r /\ int_text 16 y g /\ int_text 16 z b /\ byte r /\ byte g /\ byte b /\ rgb = (r, g, b).
(** "#", possibly several times, and the numbers *)
Definition hashed (d : str) (rgb : triple) : Prop :=
  exists k h, d = repeat 35 (S k) ++ h /\ (forall t, h <> 35 :: t) /\ hex_triple h rgb.

(** the fields between semicolons *)
Fixpoint semi (l : list str) : str :=
  match l with [] => [] | [a] => a | a :: r => a ++ 59 :: semi r end.
Definition fields (d : str) (l : list str) : Prop := l <> [] /\ Forall (fun p => ~ In 59 p) l /\ d = semi l.

(** A last field with a point is the alpha value, [v] instead of [v0]. *)
Definition takes_alpha (l : list str) (v0 : R) (l' : list str) (v : R) : Prop :=
  (exists t, l = l' ++ [t] /\ l' <> [] /\ In 46 t /\ float_text t v) \/
  (l' = l /\ v = v0 /\ exists q t, l = q ++ [t] /\ ~ In 46 t).

(** the palette entry and the layer a single number stands for *)
Definition sgr_entry (n i : Z) : Prop :=
  (30 <= n <= 37 /\ i = n - 30) \/ (40 <= n <= 47 /\ i = n - 40) \/ (90 <= n <= 97 /\ i = n - 82) \/
  (100 <= n <= 107 /\ i = n - 92) \/
  (byte n /\ ~ 30 <= n <= 37 /\ ~ 40 <= n <= 47 /\ ~ 90 <= n <= 97 /\ ~ 100 <= n <= 107 /\ i = n).
Definition four (s : str) : Prop := exists t, s = 52 :: t.

Inductive ansi : list str -> triple -> bool -> colorspace -> Prop :=
| ansi_one : forall p n i bg, int_text 10 p n -> sgr_entry n i ->
    (bg = true <-> 40 <= n <= 47 \/ 100 <= n <= 107 \/ four p) -> ansi [p] (palette_entry i) bg STANDARD
| ansi_palette : forall a m p i bg, (List.length m <= 1)%nat -> int_text 10 p i -> byte i ->
    (bg = true <-> four a) -> ansi (a :: m ++ [p]) (palette_entry i) bg EIGHT_BIT
| ansi_rgb : forall (bg : bool) pr pg pb r g b rest, int_text 10 pr r -> int_text 10 pg g -> int_text 10 pb b ->
    byte r -> byte g -> byte b ->
    ansi ((if bg then lit "48" else lit "38") :: lit "2" :: pr :: pg :: pb :: rest) (r, g, b) bg TRUE_COLOR.

Definition a_name (n : str) : Prop := exists h, In (n, h) NAMED_COLORS.

(** [d] describes the color of channels [rgb] on the layer [bg], made for the color space [sp], with
    the alpha value [v] *)
Inductive describes (d : str) : triple -> bool -> colorspace -> R -> Prop :=
| by_hex : forall rgb, List.length d <> 9%nat -> hashed d rgb -> describes d rgb false TRUE_COLOR 1
| by_hex_alpha : forall d' p q rgb a, d = d' ++ [p; q] -> List.length d = 9%nat -> hashed d' rgb -> int_text 16 [p; q] a ->
    describes d rgb false TRUE_COLOR (IZR a / 255)
| by_name : forall l l1 v h rgb, fields d l -> takes_alpha l 1 l1 v -> In (semi l1, 35 :: h) NAMED_COLORS ->
    hex_triple h rgb -> describes d rgb false TRUE_COLOR v
| by_ansi : forall l l1 l2 v1 v rgb bg sp, (forall t, d <> 35 :: t) -> fields d l -> takes_alpha l 1 l1 v1 -> ~ a_name (semi l1) ->
    takes_alpha l1 v1 l2 v -> ansi l2 rgb bg sp -> describes d rgb bg sp v.
