(** A logarithm that is accurate everywhere, and the dictionaries considered with it. *)
From Verif Require Export S_Exact S_Near2.
Set Implicit Arguments. Unset Strict Implicit.

(** math.Log: -Inf at 0, a relative error of at most 2^-52 from 1 on, and monotone on these numbers. *)
Record accurate_log {E : env} (H : ar E = ieee) : Prop := {
  al_zero : forall f, real64 H f = Some 0%R -> real64 H (m_log E f) = None /\ ltb64 E (m_log E f) (lit64 E 0 0) = true;
  al_log : forall f a, real64 H f = Some a -> (1 <= a)%R -> exists b, real64 H (m_log E f) = Some b /\ (Rabs (b - ln a) <= ln a / 2 ^ 52)%R;
  al_mono : forall f g a b, real64 H f = Some a -> real64 H g = Some b -> (a = 0 \/ 1 <= a)%R -> (1 <= b)%R -> (a <= b)%R -> le64 (m_log E f) (m_log E g)
}.
(** The total is [t], above 1; a frequency is 0 or between 1 and [t]. *)
Record freqs_ok {E : env} (H : ar E = ieee) (d : dict E) (t : R) : Prop := {
  fo_total : real64 H (d_total d) = Some t;
  fo_above : (1 < t)%R;
  fo_freq : forall w f, stored d w f -> exists a, real64 H f = Some a /\ (a = 0 \/ 1 <= a <= t)%R
}.
