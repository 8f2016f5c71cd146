(** The probability of a way to cut, with an accurate logarithm. *)
From Verif Require Export S_Dag Ieee.
From Coq Require Export Reals.
From Flocq Require Import IEEE754.BinarySingleNaN.
Set Implicit Arguments. Unset Strict Implicit.

(** The real number that a finite float64 is. *)
Definition real64 {A : arith} (H : A = ieee) (x : f64 A) : option R :=
  let y : b64 := eq_rect A f64 x ieee H in if is_finite y then Some (B2R y) else None.

(** What is assumed of the dictionary and of math.Log: the total is [t]; a frequency is 0 or between 1 and [t]; the logarithm of 0 is -Inf, that
    of the total, of 1 and of a frequency has a relative error of at most 2^-52; that of a frequency is not above that of the total. *)
Record log_ok {E : env} (H : ar E = ieee) (d : dict E) (t : R) : Prop := {
  lo_total : real64 H (d_total d) = Some t;
  lo_above : (1 < t)%R;
  lo_freq : forall w f, stored d w f -> exists a, real64 H f = Some a /\ (a = 0 \/ 1 <= a <= t)%R;
  lo_zero : forall f, real64 H f = Some 0%R -> real64 H (m_log E f) = None /\ ltb64 E (m_log E f) (lit64 E 0 0) = true;
  lo_log : forall f a, f = d_total d \/ f = lit64 E 1 0 \/ (exists w, stored d w f) -> real64 H f = Some a -> (1 <= a)%R ->
    exists b, real64 H (m_log E f) = Some b /\ (Rabs (b - ln a) <= ln a / 2 ^ 52)%R;
  lo_mono : forall w f, stored d w f -> le64 (m_log E f) (m_log E (d_total d))
}.

(** The probability of the pieces [ps]: the product of the relative frequencies, where an unknown piece counts once and a piece that only
    begins dictionary words never. *)
Definition reading_prob {E : env} (H : ar E = ieee) (d : dict E) (t : R) (ps : list (list rune)) (r : R) : Prop :=
  exists l, Forall2 (fun p a => exists f, reported d (lit64 E 1 0) (string_of_runes p) f /\ real64 H f = Some a) ps l /\
            r = fold_right (fun a r => (a / t * r)%R) 1%R l.
