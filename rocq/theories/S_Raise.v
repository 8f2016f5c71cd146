(** Words of the dictionary in an output (C110). *)
From Verif Require Export S_Exact.
Set Implicit Arguments. Unset Strict Implicit.

(** How many of the pieces [qs] are words of the dictionary. *)
Definition dict_words (E : env) (d : dict E) (qs : list bytes) : nat :=
  length (filter (fun q => match dict_value d q with Some _ => true | None => false end) qs).

(** How often [w] is among them. *)
Definition times (w : bytes) (qs : list bytes) : nat := length (filter (beqb w) qs).
