(** The state path of the HMM cut is nearly most probable in exact arithmetic with the constants of the source. *)
From Verif Require Import M_Env Ieee S_Hmm S_Miss P_Ieee P_Sum P_Hmm P_Laws64 P_MissR P_Miss P_Miss2 P_Emit M_Emit.
From Coq Require Import ZArith Reals Lra Lia List.
From Flocq Require Import Core IEEE754.BinarySingleNaN.
Import ListNotations.
Set Implicit Arguments. Unset Strict Implicit.

Local Open Scope R_scope.
Notation u64 := (bpow radix2 (-53)).
Notation plus64 := (@Bplus 53 1024 prec64 max64 mode_NE).
Notation key64 := (@key 53 1024).

(** The float is the constant c * 10^-17, rounded. *)
Definition rel (x : b64) (c : Z) : Prop :=
  is_finite x = true /\ B2R x <= 0 /\ (1 - u64) * - B2R x <= - (IZR c / 10 ^ 17) <= (1 + u64) * - B2R x.
Lemma nearest_rel : forall n m e, nearest n m e -> (- 2 ^ 53 < m < 0)%Z -> (-1000 < e < 0)%Z -> rel (lit_64 m e) n.
Proof.
  intros n m e (_ & j & Hj & Hm & Hd) H1 H2. destruct (@neg_lit_val m e) as [V1 V2]; [lia|lia|]. unfold rel. split; [exact V2|]. rewrite V1.
  assert (P : 0 < bpow radix2 e) by apply bpow_gt_0. assert (M0 : IZR m <= 0) by (apply (IZR_le _ 0); lia). split; [nra|].
  set (t := (2 ^ j)%Z) in *. assert (Ht : (0 < t)%Z) by (apply Z.pow_pos_nonneg; lia).
  set (p := (2 ^ (- e))%Z) in *. assert (Hp : IZR p = / bpow radix2 e). { unfold p. change 2%Z with (radix_val radix2). rewrite (IZR_Zpower radix2) by lia. apply bpow_opp. }
  assert (Q : (2 * t * Z.abs (m * 10 ^ 17 - n * p) * 2 ^ 52 <= 10 ^ 17 * (- m * t))%Z).
  { apply Z.le_trans with (10 ^ 17 * 2 ^ 52)%Z; [apply Z.mul_le_mono_nonneg_r; lia|]. apply Z.mul_le_mono_nonneg_l; [lia|]. lia. }
  assert (Q2 : (Z.abs (m * 10 ^ 17 - n * p) * 2 ^ 53 <= 10 ^ 17 * - m)%Z).
  { apply Z.mul_le_mono_pos_l with t; [exact Ht|]. replace (t * (Z.abs (m * 10 ^ 17 - n * p) * 2 ^ 53))%Z with (2 * t * Z.abs (m * 10 ^ 17 - n * p) * 2 ^ 52)%Z by (change (2 ^ 53)%Z with (2 * 2 ^ 52)%Z; ring).
    replace (t * (10 ^ 17 * - m))%Z with (10 ^ 17 * (- m * t))%Z by ring. exact Q. }
  apply IZR_le in Q2. rewrite !mult_IZR, abs_IZR, opp_IZR, minus_IZR, !mult_IZR, Hp in Q2. change (IZR (2 ^ 53)) with 9007199254740992 in Q2. change (IZR (10 ^ 17)) with 100000000000000000 in Q2.
  change u64 with (/ 9007199254740992). replace (10 ^ 17) with 100000000000000000 by lra. set (b := bpow radix2 e) in *.
  set (y := IZR n) in *. set (x := IZR m) in *. clearbody x y b. clear -P Q2 M0.
  assert (Q3 : Rabs (x * 100000000000000000 * b - y) * 9007199254740992 <= 100000000000000000 * (- x * b)).
  { replace (x * 100000000000000000 * b - y) with ((x * 100000000000000000 - y * / b) * b) by (field; lra). rewrite Rabs_mult, (Rabs_pos_eq b) by lra. 
    replace (Rabs (x * 100000000000000000 - y * / b) * b * 9007199254740992) with (Rabs (x * 100000000000000000 - y * / b) * 9007199254740992 * b) by ring.
    replace (100000000000000000 * (- x * b)) with (100000000000000000 * - x * b) by ring. apply Rmult_le_compat_r; lra. }
  set (w := x * b) in *. replace (x * 100000000000000000 * b) with (100000000000000000 * w) in Q3 by (unfold w; ring). replace (- x * b) with (- w) in Q3 by (unfold w; ring). clearbody w.
  unfold Rabs in Q3. destruct Rcase_abs; split; lra.
Qed.

Definition zsum (l : list Z) : Z := fold_right Z.add 0%Z l.
Lemma rel_good : forall x c, rel x c -> good (-1) x /\ key64 x = B2R x.
Proof.
  intros x c (H1 & H2 & _). pose proof (proj1 (key_fin H1)) as K. split; [|exact K]. split; [destruct x; try discriminate H1; reflexivity|]. rewrite K. lra.
Qed.
Lemma rel_sum : forall l cs, Forall2 rel l cs -> Forall (good (-1)) l /\
  (1 - u64) * rsum (-1) l <= - (IZR (zsum cs) / 10 ^ 17) <= (1 + u64) * rsum (-1) l.
Proof.
  intros l cs H. induction H as [|x c l cs H1 H2 [IH1 IH2]]; [split; [constructor|]; cbn [rsum fold_right zsum]; lra|].
  destruct (rel_good H1) as [G K]. split; [constructor; assumption|]. cbn [rsum fold_right zsum]. fold (rsum (-1) l). fold (zsum cs). destruct H1 as (_ & _ & B). rewrite K, plus_IZR. lra.
Qed.
Lemma near_sums64 : forall a0 l b0 lq cs csq n, Forall2 rel (a0 :: l) cs -> Forall2 rel (b0 :: lq) csq -> (length l < n)%nat -> (length lq < n)%nat -> INR n * u64 <= / 16 ->
  is_finite (fold_left plus64 l a0) = true -> is_finite (fold_left plus64 lq b0) = true ->
  B2R (fold_left plus64 lq b0) <= B2R (fold_left plus64 l a0) ->
  IZR (zsum csq) * (1 + 4 * (INR n * u64)) <= IZR (zsum cs).
Proof.
  intros a0 l b0 lq cs csq n R1 R2 L1 L2 Hn F1 F2 B. destruct (rel_sum R1) as [G1 S1]. destruct (rel_sum R2) as [G2 S2].
  inversion G1 as [|? ? Za Gl]; subst. inversion G2 as [|? ? Zb Gq]; subst.
  destruct (@sum_bounds 53 1024 prec64 max64 (-1) l a0 (or_intror eq_refl) Za Gl) as (_ & _ & B1).
  destruct (@sum_bounds 53 1024 prec64 max64 (-1) lq b0 (or_intror eq_refl) Zb Gq) as (_ & B2 & _).
  pose proof (key_fin F1) as [K1 E1]. pose proof (key_fin F2) as [K2 _]. change (- (53))%Z with (-53)%Z in *. rewrite K1 in *. rewrite K2 in *.
  specialize (B1 ltac:(lra)). pose proof (rsum_pos G1) as P1. pose proof (rsum_pos G2) as P2. change (-1 * key64 a0 + rsum (-1) l) with (rsum (-1) (a0 :: l)) in *. change (-1 * key64 b0 + rsum (-1) lq) with (rsum (-1) (b0 :: lq)) in *.
  set (v := rsum (-1) (a0 :: l)) in *. set (vq := rsum (-1) (b0 :: lq)) in *.
  set (a := B2R (fold_left plus64 l a0)) in *. set (aq := B2R (fold_left plus64 lq b0)) in *. clearbody a aq v vq.
  set (c := - (IZR (zsum cs) / 10 ^ 17)) in *. set (cq := - (IZR (zsum csq) / 10 ^ 17)) in *.
  assert (Hu : 0 < u64 < 1). { split; [apply bpow_gt_0|]. change 1 with (bpow radix2 0). apply bpow_lt. lia. }
  assert (Q : c <= cq * (1 + 4 * (INR n * u64))).
  { apply (@ratio u64 n (S (length l)) (S (length lq))); [lra|exact Hn|lia|lia|nra|nra|]. cbn [pow].
    set (p := (1 - u64) ^ length l) in *. set (q := (1 + u64) ^ length lq) in *. assert (Hp : 0 <= p) by (apply pow_le; lra). assert (Hq : 0 <= q) by (apply pow_le; lra). clearbody p q.
    set (u := u64) in *. clearbody u.
    assert (T1 : (1 - u) * p * c <= (1 - u) * p * ((1 + u) * v)) by (apply Rmult_le_compat_l; [apply Rmult_le_pos; lra|lra]).
    assert (T2 : (1 - u) * (1 + u) * (p * v) <= (1 - u) * (1 + u) * (q * vq)) by (apply Rmult_le_compat_l; [apply Rmult_le_pos; lra|lra]).
    assert (T3 : (1 + u) * q * ((1 - u) * vq) <= (1 + u) * q * cq) by (apply Rmult_le_compat_l; [apply Rmult_le_pos; lra|lra]).
    apply Rle_trans with (1 := T1). apply Rle_trans with (2 := T3). lra. }
  set (k := 1 + 4 * (INR n * u64)) in *. clearbody k. unfold c, cq in Q. set (T := 10 ^ 17) in *. assert (HT : 0 < T) by (unfold T; lra). clearbody T.
  assert (Q' : IZR (zsum csq) * k / T <= IZR (zsum cs) / T) by (unfold Rdiv in *; lra). apply Rmult_le_reg_r with (/ T); [apply Rinv_0_lt_compat, HT|exact Q'].
Qed.

Lemma near_arith64 : forall A (H : A = ieee) a0 l b0 lq cs csq n, Forall2 (fun x c => rel (cast H x) c) (a0 :: l) cs -> Forall2 (fun x c => rel (cast H x) c) (b0 :: lq) csq ->
  (length l < n)%nat -> (length lq < n)%nat -> INR n * u64 <= / 16 -> fn H (fold_left (add64 A) l a0) -> fn H (fold_left (add64 A) lq b0) ->
  vl H (fold_left (add64 A) lq b0) <= vl H (fold_left (add64 A) l a0) -> IZR (zsum csq) * (1 + 4 * (INR n * u64)) <= IZR (zsum cs).
Proof. intros A H. subst A. unfold fn, vl, cast. cbn [add64 ieee]. intros a0 l b0 lq cs csq n. apply near_sums64. Qed.

Section H.
  Variable E : env.
  Hypothesis HA : ar E = ieee.
  Notation relE := (fun (x : f64 E) c => rel (cast HA x) c).
  Fixpoint steps_terms (em : emits E) (y0 : hst) (obs : list rune) (path : list hst) : list (f64 E) :=
    match obs, path with o :: os, y :: ys => dflt (prob_trans E y0 y) :: dflt (em y o) :: steps_terms em y os ys | _, _ => [] end.
  Lemma steps_fold : forall em obs path acc y0, path_steps em acc y0 obs path = fold_left (add64 E) (steps_terms em y0 obs path) acc.
  Proof. induction obs as [|o os IH]; intros [|y ys] acc y0; try reflexivity. cbn [path_steps steps_terms fold_left]. apply IH. Qed.
  Lemma terms_length : forall em obs path y0, length path = length obs -> length (steps_terms em y0 obs path) = (2 * length obs)%nat.
  Proof. induction obs as [|o os IH]; intros [|y ys] y0 H; try discriminate H; [reflexivity|]. cbn [steps_terms length] in *. rewrite IH by lia. lia. Qed.
  Lemma lit_rel : forall n m e, nearest n m e -> (- 2 ^ 53 < m < 0)%Z -> (-1000 < e < 0)%Z -> relE (lit64 E m e) n.
  Proof.
    intros n m e H1 H2 H3. assert (G : forall A (H : A = ieee), rel (cast H (lit64 A m e)) n); [|apply G]. intros A H. subst A. apply nearest_rel; assumption.
  Qed.
  Lemma start_rel : forall y s, dec_start y = Some s -> relE (prob_start E y) s.
  Proof.
    intros y s H. destruct y; try discriminate H; injection H as <-; apply lit_rel; try lia; (split; [lia|]); first [exists 0%Z; lia|exists 1%Z; lia].
  Qed.
  Lemma trans_rel : forall z y t, dec_trans z y = Some t -> relE (dflt (prob_trans E z y)) t.
  Proof.
    intros z y s H. destruct z, y; try discriminate H; injection H as <-; apply lit_rel; try lia; (split; [lia|]); first [exists 0%Z; lia|exists 1%Z; lia].
  Qed.
  Lemma emit_rel : forall y o e, listed (hmm_rows y) o e -> relE (dflt (def_emit E y o)) (- e)%Z.
  Proof.
    intros y o e H. destruct (hmm_table_ok y) as [T1 T2]. apply (proj1 (find_listed T1 T2)) in H. unfold def_emit, emit_lit. change (emit_find (hmm_table y) o = Some e) in H. rewrite H. cbn [dflt].
    apply emit_find_ok in H. destruct (near_nearest H) as (_ & [(-> & Hc)|(_ & N & Hm & He & _)]); [|apply lit_rel; assumption]. rewrite Hc. cbn [fst snd].
    assert (G : forall A (H : A = ieee), rel (cast H (lit64 A 0 0)) 0); [|apply G]. intros A HA'. subst A. split; [reflexivity|]. cbn. lra.
  Qed.
  Lemma exact_terms : forall obs path y0 n, exact_steps y0 obs path n 0 ->
    length path = length obs /\ legal_path (y0 :: path) /\ known_along (def_emit E) obs path /\ exists cs, Forall2 relE (steps_terms (def_emit E) y0 obs path) cs /\ n = zsum cs.
  Proof.
    intros obs path y0 n H. remember 0%nat as k eqn:Ek. induction H as [y|y0 y o os ys e t n k H1 H2 H3 IH|y0 y o os ys t n k H1 H2 H3 IH]; [|destruct (IH Ek) as (I1 & I2 & I3 & cs & I4 & I5)|discriminate Ek].
    - split; [reflexivity|]. split; [exact I|]. split; [constructor|]. exists []. split; [constructor|reflexivity].
    - split; [cbn [length]; lia|]. split; [split; [destruct y0, y; try discriminate H2; exact I|exact I2]|]. split; [constructor; [apply def_known; exists e; exact H1|exact I3]|].
      exists (t :: (- e)%Z :: cs). split; [constructor; [apply trans_rel, H2|constructor; [apply emit_rel, H1|exact I4]]|]. cbn [zsum fold_right]. fold (zsum cs). lia.
  Qed.
  Lemma terms_exact : forall obs path y0, length path = length obs -> legal_path (y0 :: path) -> known_along (def_emit E) obs path -> exists n, exact_steps y0 obs path n 0.
  Proof.
    induction obs as [|o os IH]; intros [|y ys] y0 Hl Hp Hk; try discriminate Hl; [exists 0%Z; constructor|]. destruct Hp as [Hp1 Hp2]. inversion Hk as [|? ? ? ? K1 K2]; subst.
    destruct (IH ys y (eq_add_S _ _ Hl) Hp2 K2) as (n & Hn). apply def_known in K1 as (e & He). assert (T : exists t, dec_trans y0 y = Some t) by (destruct y0, y; try contradiction; eexists; reflexivity).
    destruct T as (t & Ht). exists (n + t - e)%Z. apply ex_known; assumption.
  Qed.
  Definition terms (obs : list rune) (path : list hst) : f64 E * list (f64 E) :=
    match obs, path with
    | o :: os, y :: ys => (dflt (def_emit E y o), prob_start E y :: steps_terms (def_emit E) y os ys)
    | _, _ => (lit64 E 0 0, [])
    end.
  Lemma prob_terms : forall obs path, path_prob (def_emit E) obs path = fold_left (add64 E) (snd (terms obs path)) (fst (terms obs path)).
  Proof. intros [|o os] [|y ys]; try reflexivity. cbn [path_prob terms fst snd fold_left]. apply steps_fold. Qed.
  Lemma exact_rel : forall obs path n, exact_prob obs path n 0 -> obs <> [] /\ length path = length obs /\ legal_path path /\ starts path /\ known_along (def_emit E) obs path /\
    (length (snd (terms obs path)) < 2 * length obs)%nat /\ exists cs, Forall2 relE (fst (terms obs path) :: snd (terms obs path)) cs /\ n = zsum cs.
  Proof.
    intros [|o os] [|y ys] n H; try contradiction H. destruct H as (s & e & m & Q1 & Q2 & Q3 & Q4). destruct (exact_terms Q3) as (X1 & X2 & X3 & cs & X4 & X5).
    split; [discriminate|]. split; [cbn [length]; lia|]. split; [exact X2|]. split; [destruct y; try discriminate Q1; exact I|]. split; [constructor; [apply def_known; exists e; exact Q2|exact X3]|].
    split; [cbn [terms snd length]; rewrite terms_length by exact X1; lia|]. exists ((- e)%Z :: s :: cs). split; [cbn [terms fst snd]; constructor; [apply emit_rel, Q2|constructor; [apply start_rel, Q1|exact X4]]|].
    cbn [zsum fold_right]. fold (zsum cs). lia.
  Qed.
  Lemma rel_exact : forall obs path, obs <> [] -> length path = length obs -> legal_path path -> starts path -> known_along (def_emit E) obs path -> exists n, exact_prob obs path n 0.
  Proof.
    intros [|o os] [|y ys] Hne Hl Hp Hs Hk; try discriminate Hl; [congruence|]. inversion Hk as [|? ? ? ? K1 K2]; subst. destruct (@terms_exact os ys y (eq_add_S _ _ Hl) Hp K2) as (m & Hm).
    apply def_known in K1 as (e & He). assert (T : exists s, dec_start y = Some s) by (destruct y; try contradiction; eexists; reflexivity). destruct T as (s & Ht).
    exists (m + s - e)%Z. exists s, e, m. auto.
  Qed.
  Lemma c103 : forall obs q n, (Z.of_nat (length obs) <= 2 ^ 48)%Z -> last_state q = Some HE \/ last_state q = Some HS -> exact_prob obs q n 0 ->
    exists p path n0, viterbi (def_emit E) obs all_states = Ok (p, path) /\ exact_prob obs path n0 0 /\ (n * (2 ^ 50 + Z.of_nat (length obs)) <= n0 * 2 ^ 50)%Z.
  Proof.
    intros obs q n Hn Hl Hq. destruct (exact_rel Hq) as (Hne & Hlen & Hp & Hs & Hk & Lq & cq & Rq & Eq).
    destruct (@c99_path E HA (def_emit E) (def_probs HA) obs q Hne Hlen Hp Hl Hs Hk) as (p & path & V & Ps & Pk).
    destruct (@c31 E (def_emit E) obs Hne) as (p' & path' & H1 & H2 & H3 & H4 & H5). rewrite V in H1. injection H1 as <- <-.
    destruct (rel_exact Hne H2 H3 Ps Pk) as (n0 & Hn0). exists p, path, n0. split; [exact V|]. split; [exact Hn0|].
    destruct (exact_rel Hn0) as (_ & _ & _ & _ & _ & L0 & c0 & R0 & E0).
    assert (B : le64 (path_prob (def_emit E) obs q) p).
    { apply (@c32 E (def_emit E)) with (path := path); auto; [rewrite HA; exact ieee_laws64|]. apply fin_no_nan; auto. intros y o v Hv. destruct (em_prob HA (def_probs HA) Hv) as [F _]. apply fn_fin with HA. exact F. }
    destruct (path_cases HA (def_probs HA) Hne Hlen Hp) as (_ & _ & S1). specialize (S1 Hs Hk). destruct (path_cases HA (def_probs HA) Hne H2 H3) as (_ & _ & S2). specialize (S2 Ps Pk).
    rewrite H5 in B. apply (le_vl (proj1 S1) (proj1 S2)) in B. rewrite !prob_terms in B. destruct S1 as [S1 _]. destruct S2 as [S2 _]. rewrite prob_terms in S1, S2.
    set (N := length obs) in *. assert (HN : INR (2 * N) * u64 <= / 16).
    { rewrite mult_INR, INR_IZR_INZ, (INR_IZR_INZ N). apply IZR_le in Hn. change (IZR (2 ^ 48)) with 281474976710656 in Hn. change u64 with (/ 9007199254740992). change (Z.of_nat 2) with 2%Z. lra. }
    pose proof (near_arith64 (n := (2 * N)%nat) R0 Rq L0 Lq HN S2 S1 B) as Q. rewrite <- Eq, <- E0 in Q. rewrite mult_INR, INR_IZR_INZ, (INR_IZR_INZ N) in Q. change (Z.of_nat 2) with 2%Z in Q. change u64 with (/ 9007199254740992) in Q.
    apply le_IZR. rewrite !mult_IZR, plus_IZR. change (IZR (2 ^ 50)) with 1125899906842624. lra.
  Qed.
End H.
