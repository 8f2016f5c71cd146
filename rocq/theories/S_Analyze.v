(** Specification of FindAllOccs and Analyze. *)
From Verif Require Export M_Analyze S_Load S_Dict.
From Coq Require Export Sorting.Sorted.
Set Implicit Arguments. Unset Strict Implicit.

(** The occurrences of [w] in [data] taken from the right: decreasing offsets; an occurrence is taken exactly if it
    ends before or where the next one taken begins. *)
Definition right_occs (data w : bytes) (l : list nat) : Prop :=
  StronglySorted (fun i j => j < i) l /\
  forall i, In i l <-> occurs_at w data i /\ forall j, In j l -> i < j -> i + length w <= j.

(** How often [w] is in [l]. *)
Fixpoint times (w : bytes) (l : list bytes) : nat := match l with [] => 0 | v :: t => (if beqb w v then 1 else 0) + times w t end.

(** The length of a word in bytes, or in code points. *)
Definition span (by_runes : bool) (w : bytes) : nat := if by_runes then length (runes_of w) else length w.
