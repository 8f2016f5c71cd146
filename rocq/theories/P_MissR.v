(** float64 sums with -3.14e100: what is absorbed. *)
From Verif Require Import M_Env Ieee P_Ieee P_Laws64 P_Idf P_Idf2 P_Rank2.
From Coq Require Import Reals Lra Lia.
From Flocq Require Import Core IEEE754.BinarySingleNaN.
Set Implicit Arguments. Unset Strict Implicit.
Local Open Scope R_scope.

Lemma absorb : forall v t k, fmt v -> v <= - bpow radix2 k -> - bpow radix2 (k - 54) <= t <= 0 -> (0 <= k <= 1000)%Z -> rnd64 (v + t) = v.
Proof.
  intros v t k Fv Hv Ht Hk. apply Rle_antisym; [apply rnd_le; [lra|exact Fv]|].
  assert (P : 0 < bpow radix2 k) by apply bpow_gt_0. assert (Vl : Valid_exp (SpecFloat.fexp 53 1024)) by (apply fexp_correct; reflexivity).
  apply (@round_N_ge_midp radix2 (SpecFloat.fexp 53 1024) Vl); [exact Fv|]. unfold pred. rewrite succ_eq_pos by lra.
  assert (U : bpow radix2 (k - 52) <= ulp radix2 (SpecFloat.fexp 53 1024) (- v)).
  { apply Rle_trans with (ulp radix2 (SpecFloat.fexp 53 1024) (bpow radix2 k)).
    - rewrite ulp_bpow. apply bpow_le. unfold SpecFloat.fexp, SpecFloat.emin. lia.
    - apply ulp_le_pos; try lra; try exact Vl. exact (fexp_monotone 53 1024). }
  assert (B1 : bpow radix2 (k - 52) = 4 * bpow radix2 (k - 54)) by (replace (k - 52)%Z with (2 + (k - 54))%Z by lia; rewrite bpow_plus; reflexivity).
  assert (P2 : 0 < bpow radix2 (k - 54)) by apply bpow_gt_0. lra.
Qed.

Definition mn : R := - 8081665415464805 * bpow radix2 281.
Lemma mn_bounds : - bpow radix2 334 <= mn <= - bpow radix2 333.
Proof.
  unfold mn. replace 334%Z with (53 + 281)%Z by lia. replace 333%Z with (52 + 281)%Z by lia. rewrite !bpow_plus. assert (0 < bpow radix2 281) by apply bpow_gt_0.
  replace (bpow radix2 53) with 9007199254740992 by reflexivity. replace (bpow radix2 52) with 4503599627370496 by reflexivity. nra.
Qed.
Lemma mn_fmt : fmt mn.
Proof.
  unfold mn. replace (- 8081665415464805 * bpow radix2 281) with (- (8081665415464805 * bpow radix2 281)) by ring. apply generic_format_opp. apply (@scaled_format 8081665415464805 281); lia.
Qed.
Lemma pow_fmt : forall k, (0 <= k <= 1000)%Z -> fmt (- bpow radix2 k).
Proof. intros k H. apply generic_format_opp, generic_format_bpow. unfold SpecFloat.fexp, SpecFloat.emin. lia. Qed.

Section A.
  Variable A : arith.
  Variable H : A = ieee.
  Definition cast (x : f64 A) : b64 := match H in _ = a return f64 a with eq_refl => x end.
  Definition vl (x : f64 A) : R := B2R (cast x).
  Definition fn (x : f64 A) : Prop := is_finite (cast x) = true.
  (** Between -2^600 and 0; at least -2^62; at most -3.14e100; a probability of a table; -3.14e100 itself. *)
  Definition rng (x : f64 A) : Prop := fn x /\ - bpow radix2 600 <= vl x <= 0.
  Definition small (x : f64 A) : Prop := fn x /\ - bpow radix2 62 <= vl x <= 0.
  Definition big (x : f64 A) : Prop := fn x /\ - bpow radix2 600 <= vl x <= mn.
  Definition prob (x : f64 A) : Prop := fn x /\ - 64 <= vl x <= 0.
  Definition isM (x : f64 A) : Prop := fn x /\ vl x = mn.
End A.

Lemma le_vl : forall A (H : A = ieee) x y, fn H x -> fn H y -> (le64 x y <-> vl H x <= vl H y).
Proof.
  intros A H. subst A. intros x y Hx Hy. unfold fn, vl, cast in *. cbn iota in *.
  assert (Nx : is_nan x = false) by (destruct x; try discriminate; reflexivity). assert (Ny : is_nan y = false) by (destruct y; try discriminate; reflexivity).
  assert (N : forall z : b64, is_nan z = false -> num64 (A := ieee) z). { intros z Hz. unfold num64. cbn [eqb64 ieee]. rewrite (eqb_key Hz Hz). apply Req_bool_true. reflexivity. }
  unfold le64. cbn [ltb64 ieee]. rewrite (le_key Nx Ny), (proj1 (key_fin Hx)), (proj1 (key_fin Hy)). split; [intros (_ & _ & G); exact G|]. intro G. split; [apply N, Nx|]. split; [apply N, Ny|exact G].
Qed.
Lemma eq_vl : forall A (H : A = ieee) x y, fn H x -> fn H y -> (eqb64 A x y = true <-> vl H x = vl H y).
Proof.
  intros A H. subst A. intros x y Hx Hy. unfold fn, vl, cast in *. cbn iota in *. cbn [eqb64 ieee]. rewrite (Beqb_correct _ _ _ _ Hx Hy). split; [|apply Req_bool_true].
  destruct (Req_bool_spec (B2R x) (B2R y)); [auto|discriminate].
Qed.
Lemma lt_vl : forall A (H : A = ieee) x y, fn H x -> fn H y -> (ltb64 A x y = true <-> vl H x < vl H y).
Proof.
  intros A H. subst A. intros x y Hx Hy. unfold fn, vl, cast in *. cbn iota in *. cbn [ltb64 ieee]. rewrite (Bltb_correct _ _ _ _ Hx Hy). split; [|apply Rlt_bool_true].
  destruct (Rlt_bool_spec (B2R x) (B2R y)); [auto|discriminate].
Qed.
Lemma fmt_vl : forall A (H : A = ieee) x, fmt (vl H x).
Proof. intros A H x. unfold vl. apply generic_format_B2R. Qed.
Lemma prob_le : forall A (H : A = ieee) x, fn H x -> (prob H x <-> le64 (lit64 A (-64) 0) x /\ le64 x (lit64 A 0 0)).
Proof.
  intros A H x Hx. assert (L : (fn H (lit64 A (-64) 0) /\ vl H (lit64 A (-64) 0) = -64) /\ fn H (lit64 A 0 0) /\ vl H (lit64 A 0 0) = 0).
  { subst A. unfold fn, vl, cast. cbn [lit64 ieee]. split; [|split; reflexivity]. split; [vm_compute; reflexivity|]. unfold lit_64. cbv. lra. }
  destruct L as ((L1 & L2) & L3 & L4). unfold prob. rewrite (le_vl L1 Hx), (le_vl Hx L3), L2, L4. tauto.
Qed.
Lemma le_fn : forall A (H : A = ieee) x, le64 (lit64 A (-64) 0) x -> le64 x (lit64 A 0 0) -> fn H x.
Proof.
  intros A H. subst A. intros x H1 H2. unfold fn, cast. destruct x as [s|s| |s m e B]; try reflexivity.
  - destruct s; [destruct H1 as (_ & _ & H1)|destruct H2 as (_ & _ & H2)]; cbn [ltb64 lit64 ieee] in *; vm_compute in *; congruence.
  - destruct H1 as (_ & H1 & _). unfold num64 in H1. cbn [eqb64 ieee] in H1. vm_compute in H1. discriminate.
Qed.
Lemma add_vl : forall A (H : A = ieee) x y, rng H x -> rng H y -> fn H (add64 A x y) /\ vl H (add64 A x y) = rnd64 (vl H x + vl H y).
Proof.
  intros A H. subst A. intros x y [Hx Rx] [Hy Ry]. unfold fn, vl, cast in *. cbn iota in *. cbn [add64 ieee].
  pose proof (Bplus_correct 53 1024 prec64 max64 mode_NE x y Hx Hy) as Hc. cbv zeta in Hc. change (round_mode mode_NE) with ZnearestE in Hc. rewrite Rlt_bool_true in Hc.
  - destruct Hc as (H1 & H2 & _). auto.
  - apply small_ok. rewrite Rabs_left1 by lra. assert (bpow radix2 601 = 2 * bpow radix2 600) by (replace 601%Z with (1 + 600)%Z by lia; rewrite bpow_plus; reflexivity).
    assert (bpow radix2 601 <= bpow radix2 1023) by (apply bpow_le; lia). lra.
Qed.
Lemma pows : 64 <= bpow radix2 8 /\ bpow radix2 8 <= bpow radix2 62 /\ bpow radix2 62 <= bpow radix2 279 /\ bpow radix2 279 <= bpow radix2 333 /\ bpow radix2 334 <= bpow radix2 546 /\ bpow radix2 546 <= bpow radix2 600.
Proof. split; [cbn; lra|]. repeat split; apply bpow_le; lia. Qed.
Lemma prob_rng : forall A (H : A = ieee) x, prob H x -> rng H x.
Proof. intros A H x [H1 H2]. pose proof pows. pose proof mn_bounds. split; [exact H1|]. assert (bpow radix2 333 <= bpow radix2 334) by (apply bpow_le; lia). lra. Qed.
Lemma prob_small : forall A (H : A = ieee) x, prob H x -> small H x.
Proof. intros A H x [H1 H2]. pose proof pows. split; [exact H1|lra]. Qed.
Lemma small_rng : forall A (H : A = ieee) x, small H x -> rng H x.
Proof. intros A H x [H1 H2]. pose proof pows. split; [exact H1|]. assert (bpow radix2 333 <= bpow radix2 334) by (apply bpow_le; lia). lra. Qed.
Lemma big_rng : forall A (H : A = ieee) x, big H x -> rng H x.
Proof. intros A H x [H1 H2]. pose proof mn_bounds. assert (0 < bpow radix2 333) by apply bpow_gt_0. split; [exact H1|lra]. Qed.
Lemma isM_big : forall A (H : A = ieee) x, isM H x -> big H x.
Proof. intros A H x [H1 H2]. pose proof mn_bounds. pose proof pows. split; [exact H1|]. rewrite H2. lra. Qed.
Lemma add_mono : forall A (H : A = ieee) x x' y y', rng H x -> rng H x' -> rng H y -> rng H y' -> vl H x <= vl H x' -> vl H y <= vl H y' -> vl H (add64 A x y) <= vl H (add64 A x' y').
Proof. intros A H x x' y y' Hx Hx' Hy Hy' H1 H2. rewrite (proj2 (add_vl Hx Hy)), (proj2 (add_vl Hx' Hy')). apply rnd_mono64. lra. Qed.
Lemma add_below : forall A (H : A = ieee) x y, rng H x -> rng H y -> vl H (add64 A x y) <= vl H x.
Proof. intros A H x y Hx Hy. rewrite (proj2 (add_vl Hx Hy)). apply rnd_le; [|apply fmt_vl]. destruct Hy as [_ Hy]. lra. Qed.
Lemma add_below_r : forall A (H : A = ieee) x y, rng H x -> rng H y -> vl H (add64 A x y) <= vl H y.
Proof. intros A H x y Hx Hy. rewrite (proj2 (add_vl Hx Hy)). apply rnd_le; [|apply fmt_vl]. destruct Hx as [_ Hx]. lra. Qed.
Lemma small_prob : forall A (H : A = ieee) x y, small H x -> prob H y -> small H (add64 A x y).
Proof.
  intros A H x y Hx Hy. pose proof (small_rng Hx) as Rx. pose proof (prob_rng Hy) as Ry. destruct (add_vl Rx Ry) as [F V]. split; [exact F|]. pose proof (add_below Rx Ry) as B. destruct Hx as [_ Hx], Hy as [_ Hy]. split; [|lra].
  rewrite V. rewrite <- (@absorb (- bpow radix2 62) (-64) 62); [apply rnd_mono64; lra|apply pow_fmt; lia|lra|change (62 - 54)%Z with 8%Z; pose proof pows; lra|lia].
Qed.
Lemma big_small : forall A (H : A = ieee) x y, big H x -> small H y -> big H (add64 A x y) /\ vl H (add64 A x y) = vl H x.
Proof.
  intros A H x y Hx Hy. pose proof (small_rng Hy) as Ry. pose proof (big_rng Hx) as Rx. destruct (add_vl Rx Ry) as [F V]. assert (V2 : vl H (add64 A x y) = vl H x).
  { rewrite V. pose proof mn_bounds. pose proof pows. destruct Hx as [_ Hx], Hy as [_ Hy]. apply (@absorb _ _ 333); [apply fmt_vl|lra|change (333 - 54)%Z with 279%Z; lra|lia]. }
  split; [|exact V2]. split; [exact F|]. rewrite V2. apply Hx.
Qed.
Lemma small_isM : forall A (H : A = ieee) x y, small H x -> isM H y -> isM H (add64 A x y).
Proof.
  intros A H x y Hx Hy. pose proof (small_rng Hx) as Rx. pose proof (big_rng (isM_big Hy)) as Ry. destruct (add_vl Rx Ry) as [F V]. split; [exact F|]. rewrite V. destruct Hy as [_ ->], Hx as [_ Hx].
  rewrite Rplus_comm. pose proof mn_bounds. pose proof pows. apply (@absorb _ _ 333); [apply mn_fmt|lra|change (333 - 54)%Z with 279%Z; lra|lia].
Qed.
Lemma big_isM : forall A (H : A = ieee) x y, big H x -> isM H y -> big H (add64 A x y).
Proof.
  intros A H x y Hx Hy. pose proof (big_rng Hx) as Rx. pose proof (big_rng (isM_big Hy)) as Ry. destruct (add_vl Rx Ry) as [F V]. split; [exact F|]. pose proof (add_below Rx Ry) as B. destruct Hx as [_ Hx], Hy as [_ Hy].
  split; [|lra]. rewrite V, Hy. pose proof mn_bounds. pose proof pows. rewrite <- (@absorb (- bpow radix2 600) mn 600); [apply rnd_mono64; lra|apply pow_fmt; lia|lra|change (600 - 54)%Z with 546%Z; lra|lia].
Qed.
Lemma isM_lit : forall A (H : A = ieee), isM H (lit64 A (-8081665415464805) 281).
Proof.
  intros A H. subst A. unfold isM, fn, vl, cast. cbn [lit64 ieee]. split; [vm_compute; reflexivity|].
  pose proof (binary_normalize_correct 53 1024 prec64 max64 mode_NE (-8081665415464805) 281 false) as Hc. cbv zeta in Hc. fold (lit_64 (-8081665415464805) 281) in Hc.
  change (F2R (Float radix2 (-8081665415464805) 281)) with mn in Hc. change (round_mode mode_NE) with ZnearestE in Hc. rewrite round_generic in Hc by (try apply valid_rnd_N; apply mn_fmt).
  rewrite Rlt_bool_true in Hc; [apply Hc|]. pose proof mn_bounds. assert (0 < bpow radix2 333) by apply bpow_gt_0. rewrite Rabs_left1 by lra. assert (bpow radix2 334 < bpow radix2 1024) by (apply bpow_lt; lia). lra.
Qed.
Lemma fn_fin : forall A (H : A = ieee) x, fn H x -> fin64 x.
Proof.
  intros A H. subst A. intros x Hx. unfold fn, cast in Hx. cbn iota in Hx. unfold fin64. cbn [eqb64 sub64 lit64 ieee]. pose proof (Bminus_correct 53 1024 prec64 max64 mode_NE x x Hx Hx) as Hc. cbv zeta in Hc.
  rewrite Rminus_diag_eq, round_0 in Hc by (try apply valid_rnd_N; try reflexivity; typeclasses eauto).
  rewrite Rabs_R0, Rlt_bool_true in Hc by apply bpow_gt_0. destruct Hc as (Hc & Hf & _).
  assert (F0 : is_finite (lit_64 0 0) = true) by reflexivity. rewrite (Beqb_correct _ _ _ _ Hf F0). apply Req_bool_true. rewrite Hc. reflexivity.
Qed.
Lemma big_lt_small : forall A (H : A = ieee) x y, small H x -> big H y -> vl H y < vl H x.
Proof. intros A H x y [_ H1] [_ H2]. pose proof mn_bounds. assert (bpow radix2 62 < bpow radix2 333) by (apply bpow_lt; lia). lra. Qed.
