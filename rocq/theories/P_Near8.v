(** The frequency SuggestFreq proposes, with rounding (C109). *)
From Verif Require Import S_Exact S_Near2 Ieee P_Ieee P_Sum P_Idf P_Near2 P_Near3 P_Near6 P_Near7 P_Rank2 P_Exact P_Dag P_Dag2 P_Dag3 P_Hist P_Seg2 P_Dict P_Hmm P_Utf8b P_Laws64 P_Split.
From Coq Require Import ZArith Reals Lra Lia List.
From Flocq Require Import Core Relative IEEE754.BinarySingleNaN.
Import ListNotations.
Set Implicit Arguments. Unset Strict Implicit.
Local Open Scope R_scope.

(** ** Operations on [real64] *)
Lemma mul_real : forall A (H : A = ieee) a b x y, real64 H a = Some x -> real64 H b = Some y -> Rabs (x * y) <= 2 ^ 60 -> real64 H (mul64 A a b) = Some (rnd64 (x * y)).
Proof.
  intros A H. subst A. unfold real64. cbn [eq_rect]. intros a b x y Ha Hb Hn. destruct (is_finite a) eqn:Fa; [|discriminate Ha]. destruct (is_finite b) eqn:Fb; [|discriminate Hb]. injection Ha as <-. injection Hb as <-.
  destruct (@mul_val a b Fa Fb Hn) as [M1 M2]. rewrite M2, M1. reflexivity.
Qed.
Lemma div_real : forall A (H : A = ieee) a b x y, real64 H a = Some x -> real64 H b = Some y -> y <> 0 -> Rabs (x / y) <= 2 ^ 60 -> real64 H (div64 A a b) = Some (rnd64 (x / y)).
Proof.
  intros A H. subst A. unfold real64. cbn [eq_rect]. intros a b x y Ha Hb Hy Hn. destruct (is_finite a) eqn:Fa; [|discriminate Ha]. destruct (is_finite b) eqn:Fb; [|discriminate Hb]. injection Ha as <-. injection Hb as <-.
  destruct (@div_val a b Fa Hy Hn) as [M1 M2]. rewrite M2, M1. reflexivity.
Qed.
Lemma add_real : forall A (H : A = ieee) a b x y, real64 H a = Some x -> real64 H b = Some y -> Rabs (x + y) <= 2 ^ 60 -> real64 H (add64 A a b) = Some (rnd64 (x + y)).
Proof.
  intros A H. subst A. unfold real64. cbn [eq_rect]. intros a b x y Ha Hb Hn. destruct (is_finite a) eqn:Fa; [|discriminate Ha]. destruct (is_finite b) eqn:Fb; [|discriminate Hb]. injection Ha as <-. injection Hb as <-.
  destruct (@add_val a b Fa Fb Hn) as [M1 M2]. rewrite M2, M1. reflexivity.
Qed.
Lemma trunc_real : forall A (H : A = ieee) a x, real64 H a = Some x -> real64 H (trunc64 A a) = Some (IZR (Ztrunc x)).
Proof.
  intros A H. subst A. unfold real64. cbn [eq_rect]. intros a x Ha. destruct (is_finite a) eqn:Fa; [|discriminate Ha]. injection Ha as <-.
  destruct (@Bnearbyint_correct 53 1024 max64 mode_ZR a) as (M1 & M2 & _). cbn [trunc64 ieee]. rewrite M2, Fa, M1. f_equal.
  unfold round, F2R, scaled_mantissa, cexp, FIX_exp. cbn [round_mode Fnum Fexp Z.opp bpow]. rewrite !Rmult_1_r. reflexivity.
Qed.
Lemma lt_real : forall A (H : A = ieee) a b x y, real64 H a = Some x -> real64 H b = Some y -> (ltb64 A a b = true <-> x < y).
Proof.
  intros A H. subst A. unfold real64. cbn [eq_rect]. intros a b x y Ha Hb. destruct (is_finite a) eqn:Fa; [|discriminate Ha]. destruct (is_finite b) eqn:Fb; [|discriminate Hb]. injection Ha as <-. injection Hb as <-.
  cbn [ltb64 ieee]. rewrite Bltb_correct by assumption. split; [intro K; destruct (Rlt_bool_spec (B2R a) (B2R b)); [assumption|discriminate K]|apply Rlt_bool_true].
Qed.
Lemma fmt_real : forall A (H : A = ieee) a x, real64 H a = Some x -> generic_format radix2 (SpecFloat.fexp 53 1024) x.
Proof. intros A H. subst A. unfold real64. cbn [eq_rect]. intros a x Ha. destruct (is_finite a) eqn:Fa; [|discriminate Ha]. injection Ha as <-. apply generic_format_B2R. Qed.

Lemma bp : forall k, bpow radix2 (- Z.of_nat k) = / 2 ^ k.
Proof. intro k. rewrite bpow_opp, bpow_powerRZ, <- pow_powerRZ. reflexivity. Qed.

(** ** The product *)
Notation prodR t := (fold_right (fun a r => a / t * r) 1).
Lemma prod_range : forall t l, 1 < t -> Forall (fun a => 0 <= a <= t) l -> 0 <= prodR t l <= 1.
Proof.
  intros t l Ht K. induction K as [|a l Ha K IH]; cbn [fold_right]; [lra|]. assert (Q : 0 <= a / t <= 1).
  { split; [unfold Rdiv; apply Rmult_le_pos; [lra|apply Rlt_le, Rinv_0_lt_compat; lra]|]. apply Rmult_le_reg_r with t; [lra|]. unfold Rdiv. rewrite Rmult_assoc, Rinv_l by lra. lra. }
  nra.
Qed.
Lemma half_pow : forall k, INR k <= 2 ^ 40 -> / 2 <= (1 - u64) ^ k.
Proof.
  intros k Hk. pose proof u_le as U. apply Rle_trans with (2 := @bernoulli u64 k ltac:(lra)). change u64 with (/ 9007199254740992). lra.
Qed.

Section P.
  Variable A : arith.
  Variable H : A = ieee.
  Variables (T : f64 A) (t : R).
  Hypothesis HT : real64 H T = Some t.
  Hypothesis Ht : 1 < t <= 2 ^ 40.
  Lemma p40 : 2 ^ 40 = 1099511627776. Proof. lra. Qed.
  Lemma p60' : 2 ^ 60 = 1152921504606846976. Proof. lra. Qed.
  Lemma q_range : forall x, 0 <= x <= t -> 0 <= x / t <= 1.
  Proof. intros x Hx. split; [unfold Rdiv; apply Rmult_le_pos; [lra|apply Rlt_le, Rinv_0_lt_compat; lra]|]. apply Rmult_le_reg_r with t; [lra|]. unfold Rdiv. rewrite Rmult_assoc, Rinv_l by lra. lra. Qed.
  (** One division. *)
  Lemma div_step : forall g y, real64 H g = Some y -> 0 <= y <= t -> exists z, real64 H (div64 A g T) = Some z /\ 0 <= z <= 1 /\
    (forall k x, cl k y x -> / 2 ^ 90 <= y -> cl (S k) z (x / t)).
  Proof.
    intros g y Hg Hy. pose proof (q_range Hy) as Q. exists (rnd64 (y / t)). split; [apply (div_real Hg HT); [lra|rewrite Rabs_pos_eq by lra; rewrite p60'; lra]|].
    split; [split; [apply rnd_ge; [lra|apply fmt0]|apply rnd_le; [lra|apply (@int_format 1); lia]]|]. intros k x Hc Hb.
    apply cl_rnd.
    - right. assert (B : / 2 ^ 130 <= y / t).
      { apply Rle_trans with (/ 2 ^ 90 * / 2 ^ 40); [rewrite <- Rinv_mult; rewrite <- pow_add; apply Rle_refl|]. unfold Rdiv. apply Rmult_le_compat; [apply Rlt_le, Rinv_0_lt_compat, pow_lt; lra|apply Rlt_le, Rinv_0_lt_compat, pow_lt; lra|exact Hb|]. apply Rinv_le_contravar; lra. }
      split; [apply Rle_trans with (2 := B); apply Rle_trans with (bpow radix2 (-130)); [apply bpow_le; lia|apply Req_le, (bp 130)]|]. apply Rle_trans with 1; [lra|]. change 1 with (bpow radix2 0). apply bpow_le. lia.
    - destruct Hc as [C1 C2]. assert (I : 0 < / t) by (apply Rinv_0_lt_compat; lra). unfold cl, Rdiv. rewrite <- !Rmult_assoc. split; apply Rmult_le_compat_r; lra.
  Qed.
  (** One product. *)
  Lemma mul_step : forall q f v a, real64 H q = Some v -> 0 <= v <= 1 -> real64 H f = Some a -> (a = 0 \/ 1 <= a <= t) -> exists y, real64 H (mul64 A q f) = Some y /\ 0 <= y <= t /\
    (1 <= a -> / 2 ^ 80 <= v -> / 2 ^ 90 <= y /\ forall k x, 0 <= x -> cl k v x -> cl (S k) y (x * a)).
  Proof.
    intros q f v a Hq Hv Hf Ha. assert (A0 : 0 <= a <= t) by (destruct Ha as [-> |Ha]; lra). assert (B : 0 <= v * a <= a) by nra. exists (rnd64 (v * a)). split; [apply (mul_real Hq Hf); rewrite Rabs_pos_eq by lra; rewrite p60'; rewrite p40 in *; lra|].
    split; [split; [apply rnd_ge; [lra|apply fmt0]|apply Rle_trans with a; [apply rnd_le; [lra|exact (fmt_real Hf)]|lra]]|]. intros A1 Hb.
    assert (L : bpow radix2 (-80) <= v * a). { apply Rle_trans with (/ 2 ^ 80); [apply Req_le, (bp 80)|]. assert (0 < / 2 ^ 80) by (apply Rinv_0_lt_compat, pow_lt; lra). nra. }
    split; [apply Rle_trans with (bpow radix2 (-80)); [apply Rle_trans with (bpow radix2 (-90)); [apply Req_le, eq_sym, (bp 90)|apply bpow_le; lia]|]; apply rnd_ge; [exact L|apply fmt_pow; lia]|].
    intros k x Hx Hc. apply cl_rnd.
    - apply fit. split; [apply Rle_trans with (2 := L); apply bpow_le; lia|]. rewrite p60'. rewrite p40 in *. lra.
    - replace k with (k + 0)%nat by lia. apply cl_mul; [exact Hx|lra|exact Hc|apply cl_refl; lra].
  Qed.
End P.

Section Sug.
  Variable E : env.
  Variable H : ar E = ieee.
  Variable d : dict E.
  Variable t : R.
  Hypothesis HT : real64 H (d_total d) = Some t.
  Hypothesis Ht : 1 < t <= 2 ^ 40.
  Hypothesis HF : forall w f, stored d w f -> exists a, real64 H f = Some a /\ (a = 0 \/ 1 <= a <= t).
  Notation readsw := (fun w a => exists f, reported d (lit64 E 1 0) w f /\ real64 H f = Some a).

  Lemma stored_one : forall w f g, stored d w f -> stored d w g -> f = g.
  Proof. intros w f g (v & k & H1 & H2 & H3) (v' & k' & H1' & H2' & H3'). congruence. Qed.
  Lemma reported_one : forall w f g, reported d (lit64 E 1 0) w f -> reported d (lit64 E 1 0) w g -> f = g.
  Proof.
    intros w f g [F|[(F1 & (x & h & F2) & F3)|(F1 & F2)]] [G|[(G1 & (x' & h' & G2) & G3)|(G1 & G2)]]; try congruence.
    - exact (stored_one F G).
    - destruct (G1 f F).
    - destruct (G1 [] f). rewrite app_nil_r. exact F.
    - destruct (F1 g G).
    - destruct (G1 x h F2).
    - destruct (F1 [] g). rewrite app_nil_r. exact G.
    - destruct (F1 x' h' G2).
  Qed.
  Lemma prod_float : forall ws q r, product d (d_total d) q ws r -> forall l, Forall2 readsw ws l -> forall v, real64 H q = Some v -> 0 <= v <= 1 ->
    exists z, real64 H r = Some z /\ 0 <= z <= 1 /\
      forall k x, 0 <= x <= 1 -> cl k v x -> / 2 ^ 41 <= x * prodR t l -> INR (k + 2 * length l) <= 2 ^ 40 -> cl (k + 2 * length l) z (x * prodR t l).
  Proof.
    assert (Hp : forall ws l, Forall2 readsw ws l -> Forall (fun a => 0 <= a <= t) l).
    { intros ws l K. induction K as [|w a ws l (f & F1 & F2) K IH]; constructor; [|exact IH]. destruct (lit_real H) as [Z0 Z1]. destruct F1 as [F1|[(_ & _ & ->)|(_ & ->)]].
      - destruct (HF F1) as (b & B1 & B2). assert (a = b) by congruence. subst b. destruct B2 as [-> |B2]; lra.
      - assert (a = 0) by congruence. lra.
      - assert (a = 1) by congruence. lra. }
    intros ws q r P. induction P as [q|q w f ws r K P IH|q w ws r K P IH]; intros l Hl v Hv Hr.
    - inversion Hl; subst. exists v. split; [exact Hv|]. split; [exact Hr|]. intros k x Hx Hc _ _. cbn [fold_right length]. rewrite Rmult_1_r. replace (k + 2 * 0)%nat with k by lia. exact Hc.
    - inversion Hl as [|? a ? l' (g & G1 & G2) Hl']; subst. assert (g = f). { apply (reported_one G1). destruct K as [K|K]; [left|right; left]; exact K. } subst g.
      assert (Ha : a = 0 \/ 1 <= a <= t). { destruct K as [K|(_ & _ & ->)]; [destruct (HF K) as (b & B1 & B2); assert (a = b) by congruence; subst b; exact B2|]. destruct (lit_real H) as [Z0 _]. left. congruence. }
      destruct (mul_step Ht Hv Hr G2 Ha) as (y & Y1 & Y2 & Y3). destruct (div_step HT Ht Y1 Y2) as (z & Z1 & Z2 & Z3). destruct (IH l' Hl' z Z1 Z2) as (o & O1 & O2 & O3). exists o. split; [exact O1|]. split; [exact O2|].
      intros k x Hx Hc Hb Hk. cbn [fold_right length] in *. pose proof (prod_range (proj1 Ht) (Hp _ _ Hl')) as P1. assert (Hat : 0 <= a / t <= 1) by (apply q_range; [exact Ht|destruct Ha as [-> |Ha]; lra]).
      assert (P41 : 0 < / 2 ^ 41) by (apply Rinv_0_lt_compat, pow_lt; lra).
      destruct Ha as [-> |Ha]; [exfalso; unfold Rdiv in Hb; rewrite !Rmult_0_l, Rmult_0_r in Hb; lra|].
      assert (X1 : x * (a / t) * prodR t l' <= x * (a / t)). { assert (0 <= x * (a / t)) by (apply Rmult_le_pos; lra). nra. }
      assert (X2 : x * (a / t) <= x) by nra. rewrite <- Rmult_assoc in Hb.
      assert (V : / 2 ^ 80 <= v). { destruct Hc as [C1 _]. pose proof (@half_pow k) as HP. assert (INR k <= 2 ^ 40) as Kk by (apply Rle_trans with (2 := Hk); apply le_INR; lia). specialize (HP Kk).
        apply Rle_trans with (2 := C1). apply Rle_trans with (/ 2 * x); [|apply Rmult_le_compat_r; lra]. apply Rle_trans with (/ 2 * / 2 ^ 41); [lra|lra]. }
      destruct (Y3 (proj1 Ha) V) as [Y4 Y5]. specialize (Z3 (S k) (x * a) (Y5 k x (proj1 Hx) Hc) Y4). replace (x * a / t) with (x * (a / t)) in Z3 by (unfold Rdiv; ring).
      rewrite <- Rmult_assoc. replace (k + 2 * S (length l'))%nat with (S (S k) + 2 * length l')%nat by lia. apply O3; [split; nra|exact Z3|exact Hb|]. apply Rle_trans with (2 := Hk). apply le_INR. lia.
    - inversion Hl as [|? a ? l' (g & G1 & G2) Hl']; subst. assert (g = lit64 E 1 0) by (apply (reported_one G1); right; right; auto). subst g. assert (a = 1) by (destruct (lit_real H) as [_ Z1]; congruence). subst a.
      destruct (@div_step _ H _ _ HT Ht q v Hv ltac:(lra)) as (z & Z1 & Z2 & Z3). destruct (IH l' Hl' z Z1 Z2) as (o & O1 & O2 & O3). exists o. split; [exact O1|]. split; [exact O2|].
      intros k x Hx Hc Hb Hk. cbn [fold_right length] in *. pose proof (prod_range (proj1 Ht) (Hp _ _ Hl')) as P1. assert (Hat : 0 <= 1 / t <= 1) by (apply q_range; [exact Ht|lra]).
      assert (P41 : 0 < / 2 ^ 41) by (apply Rinv_0_lt_compat, pow_lt; lra).
      assert (X1 : x * (1 / t) * prodR t l' <= x * (1 / t)). { assert (0 <= x * (1 / t)) by (apply Rmult_le_pos; lra). nra. }
      assert (X2 : x * (1 / t) <= x) by nra. rewrite <- Rmult_assoc in Hb.
      assert (V : / 2 ^ 90 <= v). { destruct Hc as [C1 _]. pose proof (@half_pow k) as HP. assert (INR k <= 2 ^ 40) as Kk by (apply Rle_trans with (2 := Hk); apply le_INR; lia). specialize (HP Kk).
        apply Rle_trans with (2 := C1). apply Rle_trans with (/ 2 * x); [|apply Rmult_le_compat_r; lra]. apply Rle_trans with (/ 2 * / 2 ^ 41); [lra|lra]. }
      specialize (Z3 k x Hc V). replace (x / t) with (x * (1 / t)) in Z3 by (unfold Rdiv; ring).
      assert (Z3' : cl (S (S k)) z (x * (1 / t))) by (apply (@cl_le (S k)); [lia|apply Rmult_le_pos; lra|exact Z3]).
      rewrite <- Rmult_assoc. replace (k + 2 * S (length l'))%nat with (S (S k) + 2 * length l')%nat by lia. apply O3; [split; nra|exact Z3'|exact Hb|]. apply Rle_trans with (2 := Hk). apply le_INR. lia.
  Qed.

  (** The frequency for one word. *)
  Lemma sug_real : forall ws l q g, product d (d_total d) (lit64 E 1 0) ws q -> Forall2 readsw ws l -> (exists b, real64 H g = Some b) -> INR (2 * length l) <= 2 ^ 39 ->
    let x := add64 E (trunc64 E (mul64 E q (d_total d))) (lit64 E 1 0) in
    exists a, real64 H (if ltb64 E x g then g else x) = Some a /\ 1 <= a /\ prodR t l * t * (1 - INR (2 * length l + 2) * u64) <= a /\ (a <= t + 1 \/ real64 H g = Some a).
  Proof.
    intros ws l q g P Hl (b & Hb) Hn x. destruct (lit_real H) as [_ Z1]. destruct (prod_float P Hl Z1 ltac:(lra)) as (z & Q1 & Q2 & Q3).
    assert (B : 0 <= z * t <= t) by nra.
    pose proof (mul_real Q1 HT) as M. rewrite Rabs_pos_eq in M by lra. specialize (M ltac:(rewrite p60'; rewrite p40 in *; lra)).
    set (m := rnd64 (z * t)) in *. assert (Bm : 0 <= m <= t) by (split; [apply rnd_ge; [lra|apply fmt0]|apply rnd_le; [lra|exact (fmt_real HT)]]).
    pose proof (trunc_real M) as Tr. assert (Tf : IZR (Ztrunc m) <= m < IZR (Ztrunc m) + 1). { rewrite Ztrunc_floor by lra. split; [apply Zfloor_lb|apply Zfloor_ub]. }
    assert (T0 : 0 <= IZR (Ztrunc m)). { rewrite Ztrunc_floor by lra. apply (IZR_le 0). apply Zfloor_lub. lra. }
    pose proof (add_real Tr Z1) as Ad. rewrite Rabs_pos_eq in Ad by lra. specialize (Ad ltac:(rewrite p60'; rewrite p40 in *; lra)). fold x in Ad.
    replace (IZR (Ztrunc m) + 1) with (IZR (Ztrunc m + 1)) in * by (rewrite plus_IZR; ring).
    assert (Rx : rnd64 (IZR (Ztrunc m + 1)) = IZR (Ztrunc m + 1)).
    { apply round_generic; [apply valid_rnd_N|]. apply int_format. split; [apply le_IZR; rewrite plus_IZR; lra|]. apply le_IZR. rewrite plus_IZR. change (IZR (2 ^ 53)) with 9007199254740992. rewrite p40 in *. lra. }
    rewrite Rx in Ad.
    assert (G1 : IZR (Ztrunc m + 1) <= t + 1) by (rewrite plus_IZR; lra).
    assert (G : 1 <= IZR (Ztrunc m + 1) /\ prodR t l * t * (1 - INR (2 * length l + 2) * u64) <= IZR (Ztrunc m + 1)).
    { split; [rewrite plus_IZR; lra|]. assert (Hr : Forall (fun a => 0 <= a <= t) l).
      { clear -Hl HF H Ht. induction Hl as [|w a ws l (f & F1 & F2) K IH]; constructor; [|exact IH]. destruct (lit_real H) as [Z0 Z1]. destruct F1 as [F1|[(_ & _ & ->)|(_ & ->)]].
        - destruct (HF F1) as (b & B1 & B2). assert (a = b) by congruence. subst b. destruct B2 as [-> |B2]; lra.
        - assert (a = 0) by congruence. lra.
        - assert (a = 1) by congruence. lra. }
      pose proof (prod_range (proj1 Ht) Hr) as Pr. set (p := prodR t l) in *. set (k := (2 * length l)%nat) in *. pose proof u_le as U.
      assert (N0 : 0 <= INR (k + 2) * u64) by (apply Rmult_le_pos; [apply pos_INR|lra]).
      destruct (Rle_or_lt (p * t) 1) as [L|L].
      { apply Rle_trans with 1; [|rewrite plus_IZR; lra]. assert (0 <= p * t) by (apply Rmult_le_pos; lra). nra. }
      assert (P41 : / 2 ^ 41 <= p). { apply Rmult_le_reg_r with t; [lra|]. apply Rle_trans with (/ 2 ^ 41 * 2 ^ 40); [apply Rmult_le_compat_l; lra|]. lra. }
      assert (N1 : INR (0 + k) <= 2 ^ 40) by (cbn [Nat.add]; lra).
      pose proof (Q3 0%nat 1 ltac:(lra) (@cl_refl 1 ltac:(lra)) ltac:(rewrite Rmult_1_l; exact P41) N1) as C. cbn [Nat.add] in C. rewrite Rmult_1_l in C. fold k p in C.
      assert (Z : 0 < z). { destruct C as [C _]. pose proof (@half_pow k) as HP. specialize (HP ltac:(lra)). assert (0 < / 2 ^ 41) by (apply Rinv_0_lt_compat, pow_lt; lra). nra. }
      assert (Cm : cl (S (k + 0)) m (p * t)).
      { apply cl_rnd; [|apply cl_mul; [lra|lra|exact C|apply cl_refl; lra]]. apply fit. split; [|rewrite p60'; rewrite p40 in *; lra]. destruct C as [C _]. pose proof (@half_pow k) as HP. specialize (HP ltac:(lra)).
        apply Rle_trans with (bpow radix2 (-42)); [apply bpow_le; lia|]. apply Rle_trans with (/ 2 * / 2 ^ 41); [apply Req_le; cbn; lra|]. assert (0 < / 2 ^ 41) by (apply Rinv_0_lt_compat, pow_lt; lra). nra. }
      destruct Cm as [Cm _]. pose proof (@bernoulli u64 (S (k + 0)) ltac:(lra)) as Be. assert (Nk : INR (S (k + 0)) <= INR (k + 2)) by (apply le_INR; lia).
      apply Rle_trans with m; [|lra]. apply Rle_trans with (2 := Cm). rewrite (Rmult_comm (p * t)). apply Rmult_le_compat_r; [lra|]. apply Rle_trans with (2 := Be). apply Rplus_le_compat_l, Ropp_le_contravar, Rmult_le_compat_r; lra. }
    destruct (ltb64 E x g) eqn:El; [|exists (IZR (Ztrunc m + 1)); split; [exact Ad|]; split; [apply G|]; split; [apply G|left; exact G1]].
    exists b. split; [exact Hb|]. apply (lt_real Ad Hb) in El. split; [lra|]. split; [lra|right; exact Hb].
  Qed.
End Sug.
