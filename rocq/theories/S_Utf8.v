(** UTF-8 validity, stated through the encoding of scalar values. *)
From Verif Require Export M_Utf8.

Definition valid (s : bytes) : Prop := exists rs, Forall (fun r => scalar r = true) rs /\ s = concat (map enc rs).
