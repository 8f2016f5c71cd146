(** UTF-8 by the table of RFC 3629 (section 3), and character classes by their ASCII members; neither uses the decoder, the encoder or
    the class tests of the model. *)
From Verif Require Export M_Utf8 S_Ascii.
Set Implicit Arguments. Unset Strict Implicit.
Local Open Scope lit_scope.
Local Open Scope Z_scope.

(** The character [r] is written as these bytes. *)
Inductive utf8 : Z -> bytes -> Prop :=
| utf8_1 : forall a, bz a < 128 -> utf8 (bz a) [a]
| utf8_2 : forall a b x y, bz a = 192 + x -> 0 <= x < 32 -> bz b = 128 + y -> 0 <= y < 64 ->
    128 <= 64 * x + y -> utf8 (64 * x + y) [a; b]
| utf8_3 : forall a b c x y z, bz a = 224 + x -> 0 <= x < 16 -> bz b = 128 + y -> 0 <= y < 64 -> bz c = 128 + z -> 0 <= z < 64 ->
    2048 <= 4096 * x + 64 * y + z -> ~ 55296 <= 4096 * x + 64 * y + z < 57344 -> utf8 (4096 * x + 64 * y + z) [a; b; c]
| utf8_4 : forall a b c d x y z w, bz a = 240 + x -> 0 <= x < 8 -> bz b = 128 + y -> 0 <= y < 64 -> bz c = 128 + z -> 0 <= z < 64 ->
    bz d = 128 + w -> 0 <= w < 64 -> 65536 <= 262144 * x + 4096 * y + 64 * z + w <= 1114111 ->
    utf8 (262144 * x + 4096 * y + 64 * z + w) [a; b; c; d].

(** The characters of a byte string: a byte with which no character begins counts as U+FFFD. *)
Inductive decodes : bytes -> list Z -> Prop :=
| decodes_nil : decodes [] []
| decodes_char : forall r p s rs, utf8 r p -> decodes s rs -> decodes (p ++ s) (r :: rs)
| decodes_bad : forall b s rs, (forall r p q, b :: s = p ++ q -> ~ utf8 r p) -> decodes s rs -> decodes (b :: s) (65533 :: rs).

(** A class of characters: its ASCII members, whether U+FFFD is in it, and the table for the rest. *)
Definition class (ascii : bytes) (bad : bool) (tab : Z -> bool) (r : Z) : Prop :=
  In r (map bz ascii) \/ (r = 65533 /\ bad = true) \/ (128 <= r /\ r <> 65533 /\ tab r = true).

(** The text made of these characters. *)
Inductive written : list Z -> bytes -> Prop :=
| written_nil : written [] []
| written_cons : forall r p rs s, utf8 r p -> written rs s -> written (r :: rs) (p ++ s).

(** Small letters in place of the capitals, by position in the alphabet. *)
Definition capitals : bytes := str "ABCDEFGHIJKLMNOPQRSTUVWXYZ".
Definition smalls : bytes := str "abcdefghijklmnopqrstuvwxyz".
