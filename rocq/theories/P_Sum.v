(** The error of a sum of floats of one sign. *)
From Verif Require Import P_Ieee.
From Coq Require Import ZArith Reals Lra Lia List.
From Flocq Require Import Core IEEE754.BinarySingleNaN Plus_error Relative.
Import ListNotations.
Set Implicit Arguments. Unset Strict Implicit.
Local Open Scope R_scope.

Section F.
  Variables prec emax : Z.
  Hypothesis Hp : FLX.Prec_gt_0 prec.
  Hypothesis Hm : Prec_lt_emax prec emax.
  Notation bf := (binary_float prec emax).
  Notation plus := (@Bplus prec emax Hp Hm mode_NE).
  Notation emx := (bpow radix2 emax).
  Notation u := (bpow radix2 (- prec)).
  Notation key := (@key prec emax).

  Lemma u_pos : 0 < u <= / 2.
  Proof.
    split; [apply bpow_gt_0|]. change (/ 2) with (bpow radix2 (-1)). apply bpow_le. unfold FLX.Prec_gt_0 in Hp. lia.
  Qed.
  Lemma rnd_rel : forall x y, generic_format radix2 (SpecFloat.fexp prec emax) x -> generic_format radix2 (SpecFloat.fexp prec emax) y ->
    exists e, Rabs e <= u /\ rnd prec emax (x + y) = (x + y) * (1 + e).
  Proof.
    intros x y Hx Hy. destruct (@FLT_plus_error_N_ex radix2 (3 - emax - prec) prec Hp (fun x => negb (Z.even x)) x y Hx Hy) as (e & H1 & H2). exists e. split; [|exact H2].
    assert (Hu : u_ro radix2 prec = u). { unfold u_ro. replace (- prec + 1)%Z with (1 + - prec)%Z by lia. rewrite bpow_plus. change (bpow radix2 1) with 2. field. }
    rewrite Hu in H1. pose proof u_pos. apply Rle_trans with (1 := H1). apply Rmult_le_reg_r with (1 + u); [lra|]. unfold Rdiv. rewrite Rmult_assoc, Rinv_l by lra. nra.
  Qed.
  Definition good (s : R) (x : bf) : Prop := is_nan x = false /\ 0 <= s * key x.
  Lemma plus_rel : forall s x y, s = 1 \/ s = -1 -> good s x -> good s y ->
    good s (plus x y) /\ s * key (plus x y) <= (1 + u) * (s * key x + s * key y) /\ Rmin emx ((1 - u) * (s * key x + s * key y)) <= s * key (plus x y).
  Proof.
    intros s x y Hs [Nx Kx] [Ny Ky]. pose proof u_pos as Hu. assert (He : 0 < emx) by apply bpow_gt_0.
    destruct (is_fin_dec Nx) as [Fx|Ix].
    - destruct (is_fin_dec Ny) as [Fy|Iy].
      + destruct (@plus_fin prec emax Hp Hm x y Fx Fy) as [N K]. destruct (rnd_rel (generic_format_B2R prec emax x) (generic_format_B2R prec emax y)) as (e & E1 & E2).
        rewrite E2 in K. rewrite <- (proj1 (key_fin Fx)), <- (proj1 (key_fin Fy)) in K. apply Rabs_le_inv in E1.
        set (z := s * key x + s * key y) in *. assert (Hz : (key x + key y) * (1 + e) = s * (z * (1 + e))). { unfold z. destruct Hs as [-> | ->]; ring. }
        rewrite Hz in K. assert (Hc : s * key (plus x y) = Rmin emx (z * (1 + e))).
        { rewrite K. unfold clamp. assert (Hz0 : 0 <= z * (1 + e)) by (apply Rmult_le_pos; [unfold z|]; lra).
          destruct Hs as [-> | ->]; unfold Rmax, Rmin; repeat destruct Rle_dec; lra. }
        assert (Hz0 : 0 <= z) by (unfold z; lra). split; [split; [exact N|]|].
        * rewrite Hc. apply Rmin_glb; [lra|]. apply Rmult_le_pos; lra.
        * rewrite Hc. split; [apply Rle_trans with (1 := Rmin_r _ _); nra|]. apply Rle_min_compat_l. nra.
      + assert (Hi : plus x y = y). { destruct Iy as [-> | ->]; destruct x; try discriminate; reflexivity. }
        assert (Hk : s * key y = emx). { destruct Iy as [-> | ->]; cbn [P_Ieee.key] in *; destruct Hs as [-> | ->]; lra. }
        rewrite Hi, Hk. split; [split; [exact Ny|lra]|]. split; [nra|apply Rmin_l].
    - assert (Hk : s * key x = emx). { destruct Ix as [-> | ->]; cbn [P_Ieee.key] in *; destruct Hs as [-> | ->]; lra. }
      assert (Hi : plus x y = x).
      { destruct Ix as [-> | ->]; destruct y as [sy|sy| |sy m e B]; try discriminate; try reflexivity; destruct sy; try reflexivity; exfalso; cbn [P_Ieee.key] in *; destruct Hs as [-> | ->]; lra. }
      rewrite Hi, Hk. split; [split; [exact Nx|lra]|]. split; [nra|apply Rmin_l].
  Qed.

  Definition rsum (s : R) (l : list bf) : R := fold_right (fun x r => s * key x + r) 0 l.
  Lemma rsum_pos : forall s l, Forall (good s) l -> 0 <= rsum s l.
  Proof. intros s l H. induction H as [|x l [_ H1] H2 IH]; cbn [rsum fold_right]; [lra|]. fold (rsum s l). lra. Qed.
  Lemma inf_plus : forall s x y, s = 1 \/ s = -1 -> is_nan x = false -> emx <= s * key x -> good s y -> plus x y = x.
  Proof.
    intros s x y Hs Nx Kx [Ny Ky]. assert (He : 0 < emx) by apply bpow_gt_0. destruct (is_fin_dec Nx) as [Fx|Ix].
    - pose proof (proj2 (key_fin Fx)) as H. exfalso. destruct Hs as [-> | ->]; lra.
    - destruct Ix as [-> | ->]; destruct y as [sy|sy| |sy m e B]; try discriminate; try reflexivity; destruct sy; try reflexivity; exfalso; cbn [P_Ieee.key] in *; destruct Hs as [-> | ->]; lra.
  Qed.
  Lemma inf_sum : forall s l x, s = 1 \/ s = -1 -> is_nan x = false -> emx <= s * key x -> Forall (good s) l -> fold_left plus l x = x.
  Proof.
    intros s l x Hs Nx Kx Hl. induction Hl as [|y l Hy Hl IH]; [reflexivity|]. cbn [fold_left]. rewrite (inf_plus Hs Nx Kx Hy). exact IH.
  Qed.
  Lemma sum_bounds : forall s l a, s = 1 \/ s = -1 -> good s a -> Forall (good s) l ->
    good s (fold_left plus l a) /\
    s * key (fold_left plus l a) <= (1 + u) ^ length l * (s * key a + rsum s l) /\
    (s * key (fold_left plus l a) < emx -> (1 - u) ^ length l * (s * key a + rsum s l) <= s * key (fold_left plus l a)).
  Proof.
    intros s l. induction l as [|x l IH]; intros a Hs Ha Hl; cbn [fold_left length pow rsum fold_right].
    - split; [exact Ha|]. rewrite Rplus_0_r. split; intros; lra.
    - fold (rsum s l). inversion Hl as [|? ? Hx Hl']; subst. destruct (plus_rel Hs Ha Hx) as (G & B1 & B2). destruct (IH (plus a x) Hs G Hl') as (I1 & I2 & I3). split; [exact I1|].
      pose proof (rsum_pos Hl') as Hr. pose proof u_pos as Hu. destruct Ha as [Na Ha], Hx as [Nx Hx], G as [_ G].
      assert (P1 : 0 < (1 + u) ^ length l) by (apply pow_lt; lra). assert (P2 : 0 < (1 - u) ^ length l) by (apply pow_lt; lra). split.
      + apply Rle_trans with (1 := I2). rewrite (Rmult_comm (1 + u)), Rmult_assoc. apply Rmult_le_compat_l; [lra|]. nra.
      + intro Hlt. specialize (I3 Hlt). apply Rle_trans with (2 := I3). rewrite (Rmult_comm (1 - u)), Rmult_assoc. apply Rmult_le_compat_l; [lra|].
        assert (Hfin : s * key (plus a x) < emx).
        { apply Rnot_le_lt. intro Hge. rewrite (inf_sum Hs (proj1 (proj1 (plus_rel Hs (conj Na Ha) (conj Nx Hx)))) Hge Hl') in Hlt. lra. }
        unfold Rmin in B2. destruct Rle_dec; [lra|]. nra.
  Qed.
  (** The same, added from the right. *)
  Lemma sum_bounds_r : forall s l a, s = 1 \/ s = -1 -> good s a -> Forall (good s) l ->
    good s (fold_right plus a l) /\
    s * key (fold_right plus a l) <= (1 + u) ^ length l * (s * key a + rsum s l) /\
    (s * key (fold_right plus a l) < emx -> (1 - u) ^ length l * (s * key a + rsum s l) <= s * key (fold_right plus a l)).
  Proof.
    intros s l a Hs Ha Hl. induction Hl as [|x l Hx Hl (I1 & I2 & I3)]; cbn [fold_right length pow rsum].
    - split; [exact Ha|]. rewrite Rplus_0_r. split; intros; lra.
    - fold (rsum s l). destruct (plus_rel Hs Hx I1) as (G & B1 & B2). split; [exact G|]. pose proof (rsum_pos Hl) as Hr. pose proof u_pos as Hu. destruct Ha as [Na Ha]. pose proof (proj2 Hx) as Kx. pose proof (proj2 I1) as K1.
      assert (P1 : 1 <= (1 + u) ^ length l) by (apply pow_R1_Rle; lra). assert (P2 : 0 < (1 - u) ^ length l) by (apply pow_lt; lra).
      assert (P3 : (1 - u) ^ length l <= 1) by (rewrite <- (pow1 (length l)) at 2; apply pow_incr; lra). set (r := fold_right plus a l) in *. set (z := s * key a + rsum s l) in *. assert (Hz : 0 <= z) by (unfold z; lra).
      replace (s * key a + (s * key x + rsum s l)) with (s * key x + z) by (unfold z; ring). set (p := (1 + u) ^ length l) in *. set (q := (1 - u) ^ length l) in *. clearbody p q z. split.
      + apply Rle_trans with (1 := B1). rewrite Rmult_assoc. apply Rmult_le_compat_l; [lra|]. assert (s * key x <= p * (s * key x)) by nra. lra.
      + intro Hlt. assert (Hfin : s * key r < emx).
        { apply Rnot_le_lt. intro Hge. rewrite (proj2 (@key_plus_comm prec emax Hp Hm x r)) in Hlt. rewrite (inf_plus Hs (proj1 I1) Hge Hx) in Hlt. lra. }
        specialize (I3 Hfin). unfold Rmin in B2. destruct Rle_dec; [lra|]. apply Rle_trans with (2 := B2). rewrite Rmult_assoc. apply Rmult_le_compat_l; [lra|]. assert (q * (s * key x) <= s * key x) by nra. lra.
  Qed.
  Lemma sum_finite : forall s l, s = 1 \/ s = -1 -> Forall (good s) l -> rsum s l < emx -> Forall (fun x => is_finite x = true) l.
  Proof.
    intros s l Hs H. induction H as [|x l Hx Hl IH]; intro B; [constructor|]. cbn [rsum fold_right] in B. fold (rsum s l) in B. pose proof (rsum_pos Hl) as P. destruct Hx as [N K].
    constructor; [|apply IH; lra]. assert (He : 0 < emx) by apply bpow_gt_0. destruct (is_fin_dec N) as [F|[F|F]]; [exact F|subst x; cbn [P_Ieee.key] in *; exfalso; destruct Hs as [-> | ->]; lra ..].
  Qed.
End F.

Lemma pow_above : forall x n, 0 <= x -> 1 <= (1 + x) ^ n.
Proof. intros x n H. apply pow_R1_Rle. lra. Qed.
Lemma bernoulli : forall x n, 0 <= x <= 1 -> 1 - INR n * x <= (1 - x) ^ n.
Proof.
  intros x n H. induction n as [|n IH]; [cbn; lra|]. rewrite S_INR. cbn [pow]. assert (0 <= INR n) as H0 by apply pos_INR. set (p := (1 - x) ^ n) in *. clearbody p. set (k := INR n) in *. clearbody k.
  assert (H1 : (1 - x) * (1 - k * x) <= (1 - x) * p) by (apply Rmult_le_compat_l; lra). assert (H2 : 0 <= k * (x * x)) by (apply Rmult_le_pos; [exact H0|apply Rmult_le_pos; lra]). apply Rle_trans with (2 := H1).
  replace ((1 - x) * (1 - k * x)) with (1 - (k + 1) * x + k * (x * x)) by ring. lra.
Qed.
Lemma pow_inv : forall x n, 0 <= x <= 1 -> (1 + x) ^ n * (1 - x) ^ n <= 1.
Proof.
  intros x n H. rewrite <- Rpow_mult_distr. apply Rle_trans with (1 ^ n); [apply pow_incr; nra|rewrite pow1; lra].
Qed.
Lemma pow_up : forall x n m, 0 <= x -> (n <= m)%nat -> (1 + x) ^ n <= (1 + x) ^ m.
Proof. intros x n m H1 H2. apply Rle_pow; [lra|exact H2]. Qed.
Lemma pow_down : forall x n m, 0 <= x <= 1 -> (n <= m)%nat -> (1 - x) ^ m <= (1 - x) ^ n.
Proof.
  intros x n m Hx H. induction H as [|m H IH]; [lra|]. cbn [pow]. assert (0 <= (1 - x) ^ m) by (apply pow_le; lra). nra.
Qed.
Lemma ratio : forall x n m k a b, 0 <= x -> INR n * x <= / 16 -> (m <= n)%nat -> (k <= n)%nat -> 0 <= a -> 0 <= b ->
  (1 - x) ^ m * a <= (1 + x) ^ k * b -> a <= b * (1 + 4 * (INR n * x)).
Proof.
  intros x n m k a b Hx Hn Hm Hk Ha Hb H. destruct n as [|n']; [assert (m = 0%nat) by lia; assert (k = 0%nat) by lia; subst; cbn in *; lra|]. set (n := S n') in *.
  assert (Hn1 : 1 <= INR n) by (unfold n; rewrite S_INR; pose proof (pos_INR n'); lra).
  assert (Hx1 : x <= 1) by nra. set (y := INR n * x) in *. assert (Hy : 0 <= y) by (apply Rmult_le_pos; lra).
  assert (B : 1 - y <= (1 - x) ^ n) by (apply bernoulli; lra). pose proof (pow_inv n (conj Hx Hx1)) as P.
  assert (C1 : (1 - x) ^ n <= (1 - x) ^ m) by (apply pow_down; lra || lia). assert (C2 : (1 + x) ^ k <= (1 + x) ^ n) by (apply pow_up; lra || lia).
  set (p := (1 - x) ^ n) in *. set (q := (1 + x) ^ n) in *. assert (Hq : 1 <= q) by (apply pow_above; lra).
  assert (H2 : p * a <= q * b) by (apply Rle_trans with ((1 - x) ^ m * a); [apply Rmult_le_compat_r; lra|]; apply Rle_trans with (1 := H); apply Rmult_le_compat_r; lra).
  assert (Hp : 15 / 16 <= p) by lra. assert (H3 : p * p * a <= b). { assert (p * (p * a) <= p * (q * b)) by (apply Rmult_le_compat_l; lra). assert ((q * p) * b <= 1 * b) by (apply Rmult_le_compat_r; lra). lra. }
  assert (H4 : (1 - y) * (1 - y) * a <= b). { apply Rle_trans with (2 := H3). apply Rmult_le_compat_r; [lra|]. apply Rmult_le_compat; lra. }
  assert (H5 : 1 <= (1 - y) * (1 - y) * (1 + 4 * y)) by nra.
  assert (H6 : a <= (1 - y) * (1 - y) * (1 + 4 * y) * a) by nra. assert (H7 : (1 - y) * (1 - y) * a * (1 + 4 * y) <= b * (1 + 4 * y)) by (apply Rmult_le_compat_r; lra). lra.
Qed.
