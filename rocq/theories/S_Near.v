(** Exact lengths of segmentations. *)
From Verif Require Export S_Seg Ieee.
From Coq Require Export Reals.
From Flocq Require Import IEEE754.BinarySingleNaN.

(** The real number that a finite float32 is. *)
Definition real32 {A : arith} (H : A = ieee) (x : f32 A) : option R :=
  let y : b32 := eq_rect A f32 x ieee H in if is_finite y then Some (B2R y) else None.
(** The exact sum of the path lengths of a segmentation. *)
Definition exact_length {E : env} (H : ar E = ieee) (d : dict E) (rs : list tref) (s : R) : Prop :=
  exists l, Forall2 (fun r x => real32 H (dist_of d r) = Some x) rs l /\ s = fold_right Rplus 0%R l.
