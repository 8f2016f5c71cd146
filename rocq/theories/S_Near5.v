(** Exact TF-IDF weights. *)
From Verif Require Export S_Idf S_Near2.
Set Implicit Arguments. Unset Strict Implicit.

(** The exact weight of the word [w] among the words [k] that count: its IDF value times the share of its occurrences. *)
Definition exact_weight {E : env} (H : ar E = ieee) (i : idf E) (k : list bytes) (w : bytes) (r : R) : Prop :=
  exists x a, idf_is i w x /\ real64 H x = Some a /\ r = (a * INR (tally w k) / INR (length k))%R.
(** The IDF values of the words are 0 or between 2^-900 and 2^900. *)
Definition sane_idf {E : env} (H : ar E = ieee) (i : idf E) (k : list bytes) : Prop :=
  forall w x, In w k -> idf_is i w x -> exists a, real64 H x = Some a /\ (a = 0 \/ / 2 ^ 900 <= a <= 2 ^ 900)%R.
