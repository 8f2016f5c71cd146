(** Histories with new dictionaries. *)
From Verif Require Export M_Heap.
Set Implicit Arguments. Unset Strict Implicit.

(** The calls since the last new dictionary. *)
Definition last_calls (E : env) (os : list (hop E)) : list (dop E) :=
  fold_left (fun l o => match o with HReset => [] | HOp o => l ++ [o] end) os [].
