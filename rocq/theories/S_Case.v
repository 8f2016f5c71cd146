(** Specification: texts that differ in the case of Latin letters only. *)
From Verif Require Export S_Split.
Definition same_letters (a b : bytes) : Prop := Forall2 (fun x y => small x = small y) a b.
