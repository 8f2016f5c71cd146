(** The IEEE 754 instance of the arithmetic: Go's float64/float32 on amd64 (no fused multiply-add),
    round to nearest even, from Flocq's BinarySingleNaN. *)
From Verif Require Import M_Env.
From Flocq Require Import IEEE754.BinarySingleNaN Core.

Definition prec64 : FLX.Prec_gt_0 53 := eq_refl.
Definition max64 : Prec_lt_emax 53 1024 := eq_refl.
Definition prec32 : FLX.Prec_gt_0 24 := eq_refl.
Definition max32 : Prec_lt_emax 24 128 := eq_refl.

Notation b64 := (binary_float 53 1024).
Notation b32 := (binary_float 24 128).

Definition lit_64 (m e : Z) : b64 := @binary_normalize 53 1024 prec64 max64 mode_NE m e false.
Definition lit_32 (m e : Z) : b32 := @binary_normalize 24 128 prec32 max32 mode_NE m e false.

Definition conv_32 (x : b64) : b32 :=
  match x with
  | B754_zero s => B754_zero s
  | B754_infinity s => B754_infinity s
  | B754_nan => B754_nan
  | B754_finite s m e _ =>
      @binary_normalize 24 128 prec32 max32 mode_NE (cond_Zopp s (Zpos m)) e s
  end.

Definition ieee : arith := {|
  f64 := b64;
  f32 := b32;
  lit64 := lit_64;
  add64 := @Bplus 53 1024 prec64 max64 mode_NE;
  sub64 := @Bminus 53 1024 prec64 max64 mode_NE;
  mul64 := @Bmult 53 1024 prec64 max64 mode_NE;
  div64 := @Bdiv 53 1024 prec64 max64 mode_NE;
  ltb64 := @Bltb 53 1024;
  eqb64 := @Beqb 53 1024;
  trunc64 := @Bnearbyint 53 1024 max64 mode_ZR;
  lit32 := lit_32;
  add32 := @Bplus 24 128 prec32 max32 mode_NE;
  sub32 := @Bminus 24 128 prec32 max32 mode_NE;
  ltb32 := @Bltb 24 128;
  eqb32 := @Beqb 24 128;
  to32 := conv_32;
  zero32_refl := eq_refl;
  zero64_refl := eq_refl;
  zero64_irr := eq_refl
|}.
