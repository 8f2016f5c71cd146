(** Specification of what is done to ASCII text: bytes only, no Unicode tables. *)
From Verif Require Export M_Trim S_Trim.
Set Implicit Arguments. Unset Strict Implicit.
Local Open Scope lit_scope.

Definition ascii (s : bytes) : Prop := Forall (fun b => (bz b < 128)%Z) s.
Definition letters : bytes := str "ABCDEFGHIJKLMNOPQRSTUVWXYZabcdefghijklmnopqrstuvwxyz".
Definition digits : bytes := str "0123456789".
Definition blanks : bytes := [x09; x0a; x0b; x0c; x0d; x20].
Definition puncts : bytes := str "!""#%&'()*,-./:;?@[\]_{}".
Definition symbols : bytes := str "$+<=>^`|~".
Definition one_of (l : bytes) (b : byte) : bool := existsb (Byte.eqb b) l.

(** The bytes that join into words. *)
Definition word_byte (c : cfg) (b : byte) : bool := (one_of letters b && negb (c_alpha c)) || (one_of digits b && negb (c_num c)).
Definition low_byte (c : cfg) (b : byte) : byte := if word_byte c b && c_lower c then small b else b.
(** The words of a text: single bytes, or with [c_alphanum] off maximal runs of word bytes. *)
Inductive ascii_words (c : cfg) : bytes -> list bytes -> Prop :=
| aw_nil : ascii_words c [] []
| aw_byte : forall b s ws, c_alphanum c = true \/ word_byte c b = false -> ascii_words c s ws -> ascii_words c (b :: s) ([low_byte c b] :: ws)
| aw_run : forall r s ws, c_alphanum c = false -> r <> [] -> Forall (fun b => word_byte c b = true) r ->
    match s with b :: _ => word_byte c b = false | [] => True end -> ascii_words c s ws -> ascii_words c (r ++ s) (map (low_byte c) r :: ws).
