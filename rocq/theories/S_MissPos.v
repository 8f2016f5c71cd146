(** Known and unknown characters in the part-of-speech tagger. *)
From Verif Require Export S_Pos S_Emit P_Laws64.

(** The table has logarithms of probabilities between -64 and 0. *)
Definition tag_probs_ok {E : env} (em : Z -> rune -> option (f64 E)) : Prop :=
  forall y o v, em y o = Some v -> le64 (lit64 E (-64) 0) v /\ le64 v (lit64 E 0 0).
(** The start probability of the state is not that of an impossible event. *)
Definition can_start {E : env} (tb : ptab E) (y : Z) : Prop := ltb64 E (min_float E) (p_start tb y) = true.
(** A path without impossible start or missing emission. *)
Definition clean_path {E : env} (tb : ptab E) (obs : list rune) (q : list Z) : Prop :=
  (exists y ys, q = y :: ys /\ can_start tb y) /\ Forall2 (fun o y => p_emit tb y o <> None) obs q.
