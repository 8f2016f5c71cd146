(** What Segment's use of math.Log2 is assumed to be. *)
From Verif Require Export S_Exact S_Near2.
Set Implicit Arguments. Unset Strict Implicit.

(** The total is [t], at most 2^64; every frequency is at least 1 and below the total by a factor of at least 1 + 2^-12; math.Log2 of these numbers has an
    absolute error of at most 2^-40. *)
Record log2_ok {E : env} (H : ar E = ieee) (d : dict E) (t : R) : Prop := {
  l2_total : real64 H (d_total d) = Some t;
  l2_range : (1 <= t <= 2 ^ 64)%R;
  l2_freq : forall w f, stored d w f -> exists a, real64 H f = Some a /\ (1 <= a /\ a * (1 + / 2 ^ 12) <= t)%R;
  l2_log : forall f a, f = d_total d \/ (exists w, stored d w f) -> real64 H f = Some a ->
    exists b, real64 H (m_log2 E f) = Some b /\ (Rabs (b - ln a / ln 2) <= / 2 ^ 40)%R
}.
