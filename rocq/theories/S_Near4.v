(** The exact log-probability of a state path of the part-of-speech tagger. *)
From Verif Require Export S_MissPos S_Near2.
Set Implicit Arguments. Unset Strict Implicit.

(** The sum of the start, transition and emission values along a candidate path, added without rounding; everything last to first. Every
    character has an emission in its state, and the path has a possible start. *)
Inductive tag_sum {E : env} (H : ar E = ieee) (tb : ptab E) : list rune -> list Z -> R -> Prop :=
| ts_one : forall o y e a b, state_set tb [o] y -> can_start tb y -> p_emit tb y o = Some e -> real64 H e = Some a -> real64 H (p_start tb y) = Some b ->
    tag_sum H tb [o] [y] (a + b)
| ts_cons : forall o y os x p r v e a b, tag_sum H tb os (x :: p) r -> state_set tb (o :: os) y -> trans tb x y v -> real64 H v = Some b ->
    p_emit tb y o = Some e -> real64 H e = Some a -> tag_sum H tb (o :: os) (y :: x :: p) (r + b + a).
