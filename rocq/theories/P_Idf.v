(** Integers as float64, products and quotients; used for package idf. *)
From Verif Require Import M_Env Ieee P_Ieee P_Laws64.
From Coq Require Import Reals Lra Lia.
From Flocq Require Import Core IEEE754.BinarySingleNaN.
Set Implicit Arguments. Unset Strict Implicit.

Notation rnd64 := (round radix2 (SpecFloat.fexp 53 1024) ZnearestE).
Lemma small_ok : forall r, (Rabs r <= bpow radix2 1023)%R -> (Rabs (rnd64 r) < bpow radix2 1024)%R.
Proof.
  intros r H. apply Rle_lt_trans with (bpow radix2 1023); [|apply bpow_lt; lia].
  apply abs_round_le_generic; [apply fexp_correct; reflexivity|apply valid_rnd_N| |exact H].
  apply generic_format_bpow. cbn. lia.
Qed.
Lemma int_format : forall n, (0 <= n <= 2 ^ 53)%Z -> generic_format radix2 (SpecFloat.fexp 53 1024) (IZR n).
Proof.
  intros n H. destruct (Z.eq_dec n (2 ^ 53)) as [->|Hne].
  - replace (IZR (2 ^ 53)) with (bpow radix2 53) by reflexivity. apply generic_format_bpow. cbn. lia.
  - replace (IZR n) with (F2R (Float radix2 n 0)) by (unfold F2R; cbn; lra).
    apply generic_format_F2R. intro Hn. cbn [Fnum Fexp] in *. unfold cexp, SpecFloat.fexp, SpecFloat.emin. apply Z.max_lub; [|lia]. apply Z.le_sub_0.
    apply mag_le_bpow; [apply F2R_neq_0; exact Hn|].
    unfold F2R. cbn [Fnum Fexp bpow]. rewrite Rmult_1_r, Rabs_pos_eq by (apply IZR_le; lia).
    apply IZR_lt. change (Z.pow_pos radix2 53) with (2 ^ 53)%Z. lia.
Qed.
Lemma lit_int : forall n, (0 <= n <= 2 ^ 53)%Z -> B2R (lit_64 n 0) = IZR n /\ is_finite (lit_64 n 0) = true /\ Bsign (lit_64 n 0) = false.
Proof.
  intros n H. pose proof (binary_normalize_correct 53 1024 prec64 max64 mode_NE n 0 false) as Hc. cbv zeta in Hc. fold (lit_64 n 0) in Hc.
  replace (F2R (Float radix2 n 0)) with (IZR n) in Hc by (unfold F2R; cbn; lra). change (round_mode mode_NE) with ZnearestE in Hc.
  rewrite Rlt_bool_true in Hc.
  - destruct Hc as (H1 & H2 & H3). rewrite round_generic in H1 by (try apply valid_rnd_N; apply int_format, H). split; [exact H1|]. split; [exact H2|].
    rewrite H3. destruct (Rcompare_spec (IZR n) 0) as [K|K|K]; try reflexivity. apply (lt_IZR n 0) in K. lia.
  - apply small_ok. rewrite Rabs_pos_eq by (apply (IZR_le 0); lia). apply Rle_trans with (bpow radix2 53); [|apply bpow_le; lia].
    replace (bpow radix2 53) with (IZR (2 ^ 53)) by reflexivity. apply IZR_le. lia.
Qed.
Lemma lit_of_R : forall (x : b64) n, (0 <= n <= 2 ^ 53)%Z -> is_finite x = true -> B2R x = IZR n -> Bsign x = false -> x = lit_64 n 0.
Proof. intros x n H Hf Hr Hs. destruct (lit_int H) as (K1 & K2 & K3). apply B2R_Bsign_inj; congruence. Qed.
Lemma add_ints : forall a b, (0 <= a)%Z -> (0 <= b)%Z -> (a + b <= 2 ^ 53)%Z -> add64 ieee (lit_64 a 0) (lit_64 b 0) = lit_64 (a + b) 0.
Proof.
  intros a b Ha Hb Hab. destruct (@lit_int a) as (A1 & A2 & A3); [lia|]. destruct (@lit_int b) as (B1 & B2 & B3); [lia|].
  pose proof (Bplus_correct 53 1024 prec64 max64 mode_NE _ _ A2 B2) as Hc. cbv zeta in Hc. rewrite A1, B1, <- plus_IZR in Hc. change (round_mode mode_NE) with ZnearestE in Hc.
  rewrite round_generic in Hc by (try apply valid_rnd_N; apply int_format; lia). rewrite Rlt_bool_true in Hc.
  - destruct Hc as (H1 & H2 & H3). apply lit_of_R; [lia|exact H2|exact H1|]. cbn [add64 ieee]. rewrite H3, A3, B3. destruct (Rcompare_spec (IZR (a + b)) 0) as [K|K|K]; try reflexivity.
    apply (lt_IZR _ 0) in K. lia.
  - rewrite Rabs_pos_eq by (apply (IZR_le 0); lia). apply Rle_lt_trans with (bpow radix2 53); [|apply bpow_lt; lia].
    replace (bpow radix2 53) with (IZR (2 ^ 53)) by reflexivity. apply IZR_le. lia.
Qed.

(** A quotient of counts is finite and not 0. *)
Lemma div_ints : forall a b, (1 <= a <= b)%Z -> (b <= 2 ^ 53)%Z ->
  exists x, div64 ieee (lit_64 a 0) (lit_64 b 0) = x /\ is_finite x = true /\ (0 < B2R x)%R.
Proof.
  intros a b Ha Hb. destruct (@lit_int a) as (A1 & A2 & A3); [lia|]. destruct (@lit_int b) as (B1 & B2 & B3); [lia|].
  assert (Hb0 : (0 < IZR b)%R) by (apply (IZR_lt 0); lia). assert (Ha0 : (1 <= IZR a)%R) by (apply (IZR_le 1); lia).
  assert (Hab : (IZR a <= IZR b)%R) by (apply IZR_le; lia). assert (Hbt : (IZR b <= bpow radix2 53)%R) by (replace (bpow radix2 53) with (IZR (2 ^ 53)) by reflexivity; apply IZR_le; lia).
  assert (Hne : B2R (lit_64 b 0) <> 0%R) by (rewrite B1; lra).
  pose proof (Bdiv_correct 53 1024 prec64 max64 mode_NE (lit_64 a 0) (lit_64 b 0) Hne) as Hc. cbv zeta in Hc. rewrite A1, B1 in Hc. change (round_mode mode_NE) with ZnearestE in Hc.
  assert (Hq : (bpow radix2 (-53) <= IZR a / IZR b <= 1)%R).
  { split; [|apply Rmult_le_reg_r with (IZR b); [exact Hb0|]; unfold Rdiv; rewrite Rmult_assoc, Rinv_l by lra; lra].
    apply Rmult_le_reg_r with (IZR b); [exact Hb0|]. unfold Rdiv. rewrite Rmult_assoc, Rinv_l, Rmult_1_r by lra.
    apply Rle_trans with (bpow radix2 (-53) * bpow radix2 53)%R; [apply Rmult_le_compat_l; [apply bpow_ge_0|exact Hbt]|]. rewrite <- bpow_plus. cbn. lra. }
  rewrite Rlt_bool_true in Hc.
  - destruct Hc as (H1 & H2 & _). eexists. split; [reflexivity|]. cbn [div64 ieee]. split; [rewrite H2; exact A2|]. rewrite H1.
    apply Rlt_le_trans with (bpow radix2 (-53)); [apply bpow_gt_0|]. apply round_ge_generic; [apply fexp_correct; reflexivity|apply valid_rnd_N| |apply Hq]. apply generic_format_bpow. cbn. lia.
  - apply small_ok. rewrite Rabs_pos_eq by (pose proof (bpow_gt_0 radix2 (-53)); lra). apply Rle_trans with 1%R; [lra|]. change 1%R with (bpow radix2 0). apply bpow_le. lia.
Qed.
Lemma mul_num : forall x y : b64, is_nan x = false -> is_finite y = true -> B2R y <> 0%R -> is_nan (mul64 ieee x y) = false.
Proof.
  intros x y Hx Hy Hn. cbn [mul64 ieee]. pose proof (Bmult_correct 53 1024 prec64 max64 mode_NE x y) as Hc. cbv zeta in Hc.
  destruct y as [s|s| |s m e B]; try discriminate; [cbn in Hn; congruence|]. destruct x as [s'|s'| |s' m' e' B']; try discriminate; [destruct s', s; reflexivity|destruct s', s; reflexivity|].
  match type of Hc with if ?c then _ else _ => destruct c end.
  - destruct Hc as (_ & H & _). destruct (Bmult mode_NE (B754_finite s' m' e' B') (B754_finite s m e B)); try discriminate; reflexivity.
  - destruct (Bmult mode_NE (B754_finite s' m' e' B') (B754_finite s m e B)); try discriminate; reflexivity.
Qed.
Lemma num_nan : forall x : b64, num64 (A := ieee) x <-> is_nan x = false.
Proof.
  intro x. unfold num64. cbn [eqb64 ieee]. split; intro H.
  - destruct (eqb_not_nan H); assumption.
  - rewrite (eqb_key H H). apply Req_bool_true. reflexivity.
Qed.
Lemma mul_zero : forall y : b64, is_finite y = true -> (0 <= B2R y)%R -> eqb64 ieee (mul64 ieee (lit_64 0 0) y) (lit_64 0 0) = true.
Proof. intros [s|s| |s m e B] H _; try discriminate; destruct s; reflexivity. Qed.

(** The order of sort.Float64s. *)
Definition fkey (x : b64) : R := if is_nan x then (- bpow radix2 1024 - 1)%R else @key 53 1024 x.
Lemma float_less_key : forall x y : b64, ltb64 ieee x y || negb (eqb64 ieee x x) && eqb64 ieee y y = Rlt_bool (fkey x) (fkey y).
Proof.
  intros x y. pose proof (num_nan x) as Nx. pose proof (num_nan y) as Ny. unfold num64 in *. unfold fkey.
  destruct (is_nan x) eqn:Hx; destruct (is_nan y) eqn:Hy.
  - destruct x, y; try discriminate. rewrite Rlt_bool_false by lra. reflexivity.
  - rewrite Rlt_bool_true by (pose proof (key_range Hy); lra). destruct (eqb64 ieee x x) eqn:Ex; [discriminate (proj1 Nx eq_refl)|]. rewrite (proj2 Ny eq_refl). cbn. apply orb_true_r.
  - rewrite Rlt_bool_false by (pose proof (key_range Hx); lra). rewrite (proj2 Nx eq_refl). cbn [negb andb]. rewrite orb_false_r. destruct y; try discriminate. destruct x as [[]|[]| |[]]; reflexivity.
  - rewrite (proj2 Nx eq_refl). cbn [negb andb]. rewrite orb_false_r. apply (ltb_key Hx Hy).
Qed.
