(** TextRank: the scores are positive numbers. *)
From Verif Require Import S_Rank Ieee P_Ieee P_Idf P_Idf2 P_Rank.
From Coq Require Import Reals Lra Lia.
From Flocq Require Import Core Relative IEEE754.BinarySingleNaN.
Set Implicit Arguments. Unset Strict Implicit.

Notation fmt := (generic_format radix2 (SpecFloat.fexp 53 1024)).
Lemma scaled_format : forall n e, (0 <= n <= 2 ^ 53)%Z -> (-1074 <= e)%Z -> fmt (IZR n * bpow radix2 e).
Proof.
  intros n e H He. destruct (Z.eq_dec n (2 ^ 53)) as [->|Hne].
  - replace (IZR (2 ^ 53)) with (bpow radix2 53) by reflexivity. rewrite <- bpow_plus. apply generic_format_bpow. unfold SpecFloat.fexp, SpecFloat.emin. lia.
  - change (fmt (F2R (Float radix2 n e))). apply generic_format_F2R. intro Hn. cbn [Fnum Fexp] in *. unfold cexp, SpecFloat.fexp, SpecFloat.emin. apply Z.max_lub; [|lia].
    assert (mag radix2 (F2R (Float radix2 n e)) <= 53 + e)%Z; [|lia]. apply mag_le_bpow; [apply F2R_neq_0; exact Hn|].
    unfold F2R. cbn [Fnum Fexp]. rewrite Rabs_pos_eq by (apply Rmult_le_pos; [apply (IZR_le 0); lia|apply bpow_ge_0]). rewrite bpow_plus. apply Rmult_lt_compat_r; [apply bpow_gt_0|].
    replace (bpow radix2 53) with (IZR (2 ^ 53)) by reflexivity. apply IZR_lt. lia.
Qed.
Lemma lit_val : forall n e, (0 <= n <= 2 ^ 53)%Z -> (-1074 <= e <= 971)%Z -> (IZR n * bpow radix2 e < bpow radix2 1024)%R -> B2R (lit_64 n e) = (IZR n * bpow radix2 e)%R /\ is_finite (lit_64 n e) = true.
Proof.
  intros n e H He Hlt. pose proof (binary_normalize_correct 53 1024 prec64 max64 mode_NE n e false) as Hc. cbv zeta in Hc. fold (lit_64 n e) in Hc.
  change (F2R (Float radix2 n e)) with (IZR n * bpow radix2 e)%R in Hc. change (round_mode mode_NE) with ZnearestE in Hc.
  rewrite round_generic in Hc by (try apply valid_rnd_N; apply scaled_format; lia). rewrite Rlt_bool_true in Hc.
  - destruct Hc as (H1 & H2 & _). auto.
  - rewrite Rabs_pos_eq by (apply Rmult_le_pos; [apply (IZR_le 0); lia|apply bpow_ge_0]). exact Hlt.
Qed.
Notation ok x := (is_finite (x : b64) = true).
Notation val x := (B2R (x : b64)).
Lemma big1023 : (2 ^ 60 <= bpow radix2 1023)%R.
Proof. replace (2 ^ 60)%R with (bpow radix2 60) by (cbn; lra). apply bpow_le. lia. Qed.
Lemma fin_small : forall r, (Rabs r <= 2 ^ 60)%R -> (Rabs (rnd64 r) < bpow radix2 1024)%R.
Proof. intros r H. apply small_ok. pose proof big1023. lra. Qed.
Lemma add_val : forall x y, ok x -> ok y -> (Rabs (val x + val y) <= 2 ^ 60)%R -> val (add64 ieee x y) = rnd64 (val x + val y) /\ ok (add64 ieee x y).
Proof.
  intros x y Hx Hy H. pose proof (Bplus_correct 53 1024 prec64 max64 mode_NE x y Hx Hy) as Hc. cbv zeta in Hc. change (round_mode mode_NE) with ZnearestE in Hc. rewrite Rlt_bool_true in Hc by (apply fin_small, H).
  destruct Hc as (H1 & H2 & _). auto.
Qed.
Lemma sub_val : forall x y, ok x -> ok y -> (Rabs (val x - val y) <= 2 ^ 60)%R -> val (sub64 ieee x y) = rnd64 (val x - val y) /\ ok (sub64 ieee x y).
Proof.
  intros x y Hx Hy H. pose proof (Bminus_correct 53 1024 prec64 max64 mode_NE x y Hx Hy) as Hc. cbv zeta in Hc. change (round_mode mode_NE) with ZnearestE in Hc. rewrite Rlt_bool_true in Hc by (apply fin_small, H).
  destruct Hc as (H1 & H2 & _). auto.
Qed.
Lemma mul_val : forall x y, ok x -> ok y -> (Rabs (val x * val y) <= 2 ^ 60)%R -> val (mul64 ieee x y) = rnd64 (val x * val y) /\ ok (mul64 ieee x y).
Proof.
  intros x y Hx Hy H. pose proof (Bmult_correct 53 1024 prec64 max64 mode_NE x y) as Hc. cbv zeta in Hc. change (round_mode mode_NE) with ZnearestE in Hc. rewrite Rlt_bool_true in Hc by (apply fin_small, H).
  destruct Hc as (H1 & H2 & _). split; [exact H1|]. cbn [mul64 ieee]. rewrite H2, Hx, Hy. reflexivity.
Qed.
Lemma div_val : forall x y, ok x -> val y <> 0%R -> (Rabs (val x / val y) <= 2 ^ 60)%R -> val (div64 ieee x y) = rnd64 (val x / val y) /\ ok (div64 ieee x y).
Proof.
  intros x y Hx Hy H. pose proof (Bdiv_correct 53 1024 prec64 max64 mode_NE x y Hy) as Hc. cbv zeta in Hc. change (round_mode mode_NE) with ZnearestE in Hc. rewrite Rlt_bool_true in Hc by (apply fin_small, H).
  destruct Hc as (H1 & H2 & _). split; [exact H1|]. cbn [div64 ieee]. rewrite H2. exact Hx.
Qed.
Lemma rnd_le : forall r b, (r <= b)%R -> fmt b -> (rnd64 r <= b)%R.
Proof. intros r b H Hb. apply round_le_generic; [apply fexp_correct; reflexivity|apply valid_rnd_N|exact Hb|exact H]. Qed.
Lemma rnd_ge : forall r b, (b <= r)%R -> fmt b -> (b <= rnd64 r)%R.
Proof. intros r b H Hb. apply round_ge_generic; [apply fexp_correct; reflexivity|apply valid_rnd_N|exact Hb|exact H]. Qed.
Lemma rnd_mono64 : forall a b, (a <= b)%R -> (rnd64 a <= rnd64 b)%R.
Proof. intros a b H. apply round_le; [apply fexp_correct; reflexivity|apply valid_rnd_N|exact H]. Qed.
Lemma fmt0 : fmt 0.
Proof. apply generic_format_0. Qed.
Lemma rnd_rel : forall r, (bpow radix2 (-60) <= r)%R -> (rnd64 r <= r * (1 + bpow radix2 (-53)))%R.
Proof.
  intros r H. pose proof (bpow_gt_0 radix2 (-60)) as P.
  pose proof (@relative_error_N_FLT radix2 (-1074) 53 eq_refl (fun x => negb (Z.even x)) r) as K.
  assert (bpow radix2 (-1074 + 53 - 1) <= Rabs r)%R as K'. { rewrite Rabs_pos_eq by lra. apply Rle_trans with (2 := H). apply bpow_le. lia. }
  specialize (K K'). change (FLT_exp (-1074) 53) with (SpecFloat.fexp 53 1024) in K. rewrite (Rabs_pos_eq r) in K by lra.
  replace (/ 2 * bpow radix2 (- (53) + 1))%R with (bpow radix2 (-53)) in K by (change (- (53) + 1)%Z with (-52)%Z; replace (bpow radix2 (-52)) with (bpow radix2 1 * bpow radix2 (-53))%R by (rewrite <- bpow_plus; reflexivity); cbn [bpow Z.pow_pos]; change (Z.pow_pos radix2 1) with 2%Z; lra).
  apply Rabs_le_inv in K. lra.
Qed.

Lemma u53 : (0 < bpow radix2 (-53) <= 1 / 1024)%R.
Proof. split; [apply bpow_gt_0|]. replace (1 / 1024)%R with (bpow radix2 (-10)) by (cbn; lra). apply bpow_le. lia. Qed.
Lemma pow60 : (2 ^ 60 = IZR (2 ^ 60))%R.
Proof. rewrite (pow_IZR 2 60). reflexivity. Qed.
Lemma term_ok : forall c D v, (1 <= c <= D)%Z -> (D <= 2 ^ 50)%Z -> ok v -> (0 <= val v <= 31 / 16 * IZR D)%R ->
  let t := mul64 ieee (div64 ieee (lit_64 c 0) (lit_64 D 0)) v in ok t /\ (0 <= val t <= 2 * IZR c)%R.
Proof.
  intros c D v Hc HD Hv Hb t. destruct (@lit_int c) as (C1 & C2 & _); [lia|]. destruct (@lit_int D) as (D1 & D2 & _); [lia|].
  assert (Hd : (1 <= IZR D)%R) by (apply (IZR_le 1); lia). assert (Hc1 : (1 <= IZR c)%R) by (apply (IZR_le 1); lia). assert (Hcd : (IZR c <= IZR D)%R) by (apply IZR_le; lia).
  assert (Hd2 : (IZR D <= 2 ^ 50)%R) by (rewrite (pow_IZR 2 50); apply IZR_le; exact HD).
  set (k := (IZR c / IZR D)%R). assert (Hk : (k * IZR D = IZR c)%R) by (unfold k; field; lra).
  assert (Hk1 : (0 < k <= 1)%R) by (split; [unfold k; apply Rdiv_lt_0_compat; lra|apply Rmult_le_reg_r with (IZR D); lra]).
  assert (Hk2 : (bpow radix2 (-60) <= k)%R).
  { apply Rle_trans with (bpow radix2 (-50)); [apply bpow_le; lia|]. apply Rmult_le_reg_r with (IZR D); [lra|]. rewrite Hk.
    apply Rle_trans with (bpow radix2 (-50) * bpow radix2 50)%R; [apply Rmult_le_compat_l; [apply bpow_ge_0|]; replace (bpow radix2 50) with (2 ^ 50)%R by (rewrite (pow_IZR 2 50); reflexivity); exact Hd2|]. rewrite <- bpow_plus. cbn. lra. }
  assert (P60 : (2 ^ 50 * 1024 = 2 ^ 60)%R) by (replace 1024%R with (2 ^ 10)%R by lra; rewrite <- pow_add; reflexivity). assert (P50 : (1 <= 2 ^ 50)%R) by (apply pow_R1_Rle; lra).
  destruct (@div_val (lit_64 c 0) (lit_64 D 0) C2) as (Q1 & Q2); rewrite ?D1, ?C1; [lra| fold k; rewrite Rabs_pos_eq by lra; lra|]. rewrite C1, D1 in Q1. fold k in Q1.
  assert (Hr : (0 <= val (div64 ieee (lit_64 c 0) (lit_64 D 0)) <= k * (1 + bpow radix2 (-53)))%R) by (rewrite Q1; split; [apply rnd_ge; [lra|apply fmt0]|apply rnd_rel; exact Hk2]).
  set (r := val (div64 ieee (lit_64 c 0) (lit_64 D 0))) in *. pose proof u53 as U.
  assert (Hrv : (0 <= r * val v <= 2 * IZR c)%R).
  { split; [apply Rmult_le_pos; lra|]. apply Rle_trans with (k * (1 + bpow radix2 (-53)) * (31 / 16 * IZR D))%R; [apply Rmult_le_compat; lra|].
    replace (k * (1 + bpow radix2 (-53)) * (31 / 16 * IZR D))%R with (31 / 16 * (1 + bpow radix2 (-53)) * (k * IZR D))%R by ring. rewrite Hk. apply Rmult_le_compat_r; lra. }
  destruct (@mul_val (div64 ieee (lit_64 c 0) (lit_64 D 0)) v Q2 Hv) as (T1 & T2); [fold r; rewrite Rabs_pos_eq by lra; lra|]. fold r in T1. fold t in T1, T2.
  split; [exact T2|]. rewrite T1. split; [apply rnd_ge; [lra|apply fmt0]|]. apply rnd_le; [lra|]. rewrite <- mult_IZR. apply int_format. lia.
Qed.
Lemma sum_step : forall s t W c, (0 <= W)%Z -> (0 <= c)%Z -> (W + c <= 2 ^ 50)%Z -> ok s -> ok t -> (0 <= val s <= 2 * IZR W)%R -> (0 <= val t <= 2 * IZR c)%R ->
  ok (add64 ieee s t) /\ (0 <= val (add64 ieee s t) <= 2 * IZR (W + c))%R.
Proof.
  intros s t W c HW Hc HWc Hs Ht Bs Bt. rewrite plus_IZR. assert (Hw : (IZR W + IZR c <= 2 ^ 50)%R) by (rewrite (pow_IZR 2 50), <- plus_IZR; apply IZR_le; exact HWc).
  assert (P60 : (2 ^ 50 * 1024 = 2 ^ 60)%R) by (replace 1024%R with (2 ^ 10)%R by lra; rewrite <- pow_add; reflexivity). assert (P50 : (1 <= 2 ^ 50)%R) by (apply pow_R1_Rle; lra).
  destruct (@add_val s t Hs Ht) as (A1 & A2); [rewrite Rabs_pos_eq; lra|]. split; [exact A2|]. rewrite A1. split; [apply rnd_ge; [lra|apply fmt0]|]. apply rnd_le; [lra|]. rewrite <- plus_IZR, <- mult_IZR. apply int_format. lia.
Qed.
Definition l15 := lit_64 5404319552844595 (-55).
Definition l85 := lit_64 7656119366529843 (-53).
Lemma small_pow : forall a b, (a < b)%Z -> (bpow radix2 a < bpow radix2 b)%R.
Proof. intros. apply bpow_lt. assumption. Qed.
Lemma l15_val : ok l15 /\ fmt (val l15) /\ (14 / 100 <= val l15 <= 16 / 100)%R.
Proof.
  assert (V : (IZR 5404319552844595 * bpow radix2 (-55) <= 1)%R) by (cbn; lra).
  destruct (@lit_val 5404319552844595 (-55)) as (H1 & H2); [lia|lia|apply Rle_lt_trans with (1 := V); change 1%R with (bpow radix2 0); apply bpow_lt; lia|].
  fold l15 in H1, H2. split; [exact H2|]. rewrite H1. split; [apply scaled_format; lia|]. cbn. lra.
Qed.
Lemma l85_val : ok l85 /\ (0 <= val l85 <= 86 / 100)%R.
Proof.
  assert (V : (IZR 7656119366529843 * bpow radix2 (-53) <= 1)%R) by (cbn; lra).
  destruct (@lit_val 7656119366529843 (-53)) as (H1 & H2); [lia|lia|apply Rle_lt_trans with (1 := V); change 1%R with (bpow radix2 0); apply bpow_lt; lia|].
  fold l85 in H1, H2. split; [exact H2|]. rewrite H1. cbn. lra.
Qed.
Lemma final_ok : forall s dg, (1 <= dg)%Z -> (dg <= 2 ^ 48)%Z -> ok s -> (0 <= val s <= 2 * IZR dg)%R ->
  let x := add64 ieee l15 (mul64 ieee l85 s) in ok x /\ (val l15 <= val x <= 31 / 16 * IZR dg)%R.
Proof.
  intros s dg Hd Hd2 Hs Bs x. destruct l15_val as (A1 & A2 & A3). destruct l85_val as (B1 & B2).
  assert (P60 : (2 ^ 48 * 4096 = 2 ^ 60)%R) by (replace 4096%R with (2 ^ 12)%R by lra; rewrite <- pow_add; reflexivity). assert (P50 : (1 <= 2 ^ 48)%R) by (apply pow_R1_Rle; lra).
  assert (D1 : (1 <= IZR dg)%R) by (apply (IZR_le 1); lia). assert (D2 : (IZR dg <= 2 ^ 48)%R) by (rewrite (pow_IZR 2 48); apply IZR_le; exact Hd2).
  assert (Hm : (0 <= val l85 * val s <= 7 / 4 * IZR dg)%R). { split; [apply Rmult_le_pos; lra|]. apply Rle_trans with (86 / 100 * (2 * IZR dg))%R; [apply Rmult_le_compat; lra|lra]. }
  destruct (@mul_val l85 s B1 Hs) as (M1 & M2); [rewrite Rabs_pos_eq; lra|]. set (m := mul64 ieee l85 s) in *.
  assert (Hm' : (0 <= val m <= 7 / 4 * IZR dg)%R).
  { rewrite M1. split; [apply rnd_ge; [lra|apply fmt0]|]. apply rnd_le; [lra|]. replace (7 / 4 * IZR dg)%R with (IZR (7 * dg) * bpow radix2 (-2))%R by (rewrite mult_IZR; cbn; lra). apply scaled_format; lia. }
  destruct (@add_val l15 m A1 M2) as (X1 & X2); [rewrite Rabs_pos_eq; lra|]. fold x in X1, X2. split; [exact X2|]. rewrite X1. split; [apply rnd_ge; [lra|exact A2]|].
  apply rnd_le; [lra|]. replace (31 / 16 * IZR dg)%R with (IZR (31 * dg) * bpow radix2 (-4))%R by (rewrite mult_IZR; cbn; lra). apply scaled_format; lia.
Qed.
(** One value. *)
Lemma value_ok : forall (D : bytes -> nat) (v : bytes -> b64) q dg, (forall m c, In (m, c) q -> 1 <= c <= D m /\ (Z.of_nat (D m) <= 2 ^ 50)%Z /\ ok (v m) /\ (0 <= val (v m) <= 31 / 16 * IZR (Z.of_nat (D m)))%R) ->
  list_sum (map snd q) = dg -> 1 <= dg -> (Z.of_nat dg <= 2 ^ 48)%Z ->
  let x := add64 ieee l15 (mul64 ieee l85 (fold_left (fun s e => add64 ieee s (mul64 ieee (div64 ieee (snd e) (lit_64 (Z.of_nat (D (fst e))) 0)) (v (fst e))))
             (map (fun mw => (fst mw, lit_64 (Z.of_nat (snd mw)) 0)) q) (lit_64 0 0))) in
  ok x /\ (val l15 <= val x <= 31 / 16 * IZR (Z.of_nat dg))%R.
Proof.
  intros D v q dg Hq Hs Hd1 Hd2 x. set (s0 := fold_left _ _ _) in x.
  assert (ok s0 /\ (0 <= val s0 <= 2 * IZR (Z.of_nat dg))%R) as [S1 S2]; [|apply final_ok; [lia|exact Hd2|exact S1|exact S2]]. clear x. unfold s0.
  enough (forall s W, ok s -> (0 <= val s <= 2 * IZR (Z.of_nat W))%R -> (Z.of_nat (W + list_sum (map snd q)) <= 2 ^ 50)%Z ->
      let y := fold_left (fun s e => add64 ieee s (mul64 ieee (div64 ieee (snd e) (lit_64 (Z.of_nat (D (fst e))) 0)) (v (fst e)))) (map (fun mw => (fst mw, lit_64 (Z.of_nat (snd mw)) 0)) q) s in
      ok y /\ (0 <= val y <= 2 * IZR (Z.of_nat (W + list_sum (map snd q))))%R) as K.
    { destruct (@lit_int 0) as (L1 & L2 & _); [lia|]. rewrite <- Hs. apply (K (lit_64 0 0) 0 L2); [rewrite L1; cbn; lra|]. rewrite Hs. cbn. lia. }
    clear Hs Hd1 Hd2 s0 dg. induction q as [|[m c] q IH]; intros s W S1 S2 HW; cbn [map fold_left fst snd]; [cbn [map list_sum fold_right] in *; rewrite Nat.add_0_r; auto|].
    cbn [map list_sum fold_right snd] in *. change (fold_right Init.Nat.add 0) with list_sum in *. destruct (Hq m c (or_introl eq_refl)) as (Q1 & Q2 & Q3 & Q4).
    destruct (@term_ok (Z.of_nat c) (Z.of_nat (D m)) (v m)) as (T1 & T2); [lia|exact Q2|exact Q3|exact Q4|].
    destruct (@sum_step s (mul64 ieee (div64 ieee (lit_64 (Z.of_nat c) 0) (lit_64 (Z.of_nat (D m)) 0)) (v m)) (Z.of_nat W) (Z.of_nat c)) as (U1 & U2); [lia|lia|lia|exact S1|exact T1|exact S2|exact T2|].
    rewrite Nat.add_assoc. apply IH; [intros; apply Hq; right; assumption|exact U1|rewrite Nat2Z.inj_add; exact U2|rewrite <- Nat.add_assoc; exact HW].
Qed.

(** ** Order, smallest and largest numbers *)
Lemma ltb_fin : forall x y : b64, ok x -> ok y -> ltb64 ieee x y = Rlt_bool (val x) (val y).
Proof.
  intros x y Hx Hy. cbn [ltb64 ieee]. assert (Nx : is_nan x = false) by (destruct x; try discriminate; reflexivity). assert (Ny : is_nan y = false) by (destruct y; try discriminate; reflexivity).
  rewrite (ltb_key Nx Ny). rewrite (proj1 (key_fin Hx)), (proj1 (key_fin Hy)). reflexivity.
Qed.
Lemma ltb_true : forall x y : b64, ok x -> ok y -> ltb64 ieee x y = true <-> (val x < val y)%R.
Proof. intros x y Hx Hy. rewrite (ltb_fin Hx Hy). destruct (Rlt_bool_spec (val x) (val y)); split; intro; try lra; try discriminate; reflexivity. Qed.
Lemma ltb_false : forall x y : b64, ok x -> ok y -> ltb64 ieee x y = false <-> (val y <= val x)%R.
Proof. intros x y Hx Hy. rewrite (ltb_fin Hx Hy). destruct (Rlt_bool_spec (val x) (val y)); split; intro; try lra; try discriminate; reflexivity. Qed.
Definition range (x : b64) : Prop := ok x /\ (val l15 <= val x <= 2 ^ 49)%R.
Lemma max_lit : ok (lit_64 9007199254740991 971) /\ (2 ^ 60 <= val (lit_64 9007199254740991 971))%R.
Proof.
  destruct (@lit_val 9007199254740991 971) as (H1 & H2); [lia|lia| |].
  - replace (bpow radix2 1024) with (bpow radix2 53 * bpow radix2 971)%R by (rewrite <- bpow_plus; reflexivity). apply Rmult_lt_compat_r; [apply bpow_gt_0|]. replace (bpow radix2 53) with (IZR (2 ^ 53)) by reflexivity. apply IZR_lt. lia.
  - split; [exact H2|]. rewrite H1. apply Rle_trans with (1 * bpow radix2 971)%R; [rewrite Rmult_1_l; replace (2 ^ 60)%R with (bpow radix2 60) by (rewrite (pow_IZR 2 60); reflexivity); apply bpow_le; lia|]. apply Rmult_le_compat_r; [apply bpow_ge_0|]. apply IZR_le. lia.
Qed.
Lemma min_lit : ok (lit_64 1 (-1074)) /\ (0 < val (lit_64 1 (-1074)) <= 1 / 1024)%R.
Proof.
  destruct (@lit_val 1 (-1074)) as (H1 & H2); [lia|lia|rewrite Rmult_1_l; apply bpow_lt; lia|]. split; [exact H2|]. rewrite H1, Rmult_1_l. split; [apply bpow_gt_0|]. replace (1 / 1024)%R with (bpow radix2 (-10)) by (cbn; lra). apply bpow_le. lia.
Qed.

(** ** Weights *)
Definition low_of (lo : b64) : b64 := div64 ieee lo (lit_64 10 0).
Definition weight (lo hi w : b64) : b64 := div64 ieee (sub64 ieee w (low_of lo)) (sub64 ieee hi (low_of lo)).
Lemma fmt_pow : forall e, (-1000 <= e)%Z -> fmt (bpow radix2 e).
Proof. intros e H. apply generic_format_bpow. unfold SpecFloat.fexp, SpecFloat.emin. lia. Qed.
Lemma low_ok : forall lo, range lo -> ok (low_of lo) /\ (1 / 128 <= val (low_of lo) <= val lo / 9)%R.
Proof.
  intros lo [H1 H2]. pose proof l15_val as (_ & _ & L). destruct (@lit_int 10) as (T1 & T2 & _); [lia|]. assert (P : (2 ^ 49 <= 2 ^ 60)%R) by (apply Rle_pow; [lra|lia]).
  destruct (@div_val lo (lit_64 10 0) H1) as (D1 & D2); rewrite ?T1; [lra|rewrite Rabs_pos_eq; lra|]. rewrite T1 in D1. split; [exact D2|]. unfold low_of. rewrite D1. split.
  - apply rnd_ge; [lra|]. replace (1 / 128)%R with (bpow radix2 (-7)) by (cbn; lra). apply fmt_pow. lia.
  - apply Rle_trans with (val lo / 10 * (1 + bpow radix2 (-53)))%R; [apply rnd_rel; apply Rle_trans with (bpow radix2 (-10)); [apply bpow_le; lia|]; replace (bpow radix2 (-10)) with (1 / 1024)%R by (cbn; lra); lra|].
    pose proof u53 as [U1 U2]. apply Rle_trans with (val lo / 10 * (1 + 1 / 1024))%R; [apply Rmult_le_compat_l; lra|lra].
Qed.
Lemma num_ok : forall lo w, range lo -> range w -> (val lo <= val w)%R -> let a := sub64 ieee w (low_of lo) in ok a /\ val a = rnd64 (val w - val (low_of lo)) /\ (1 / 16 <= val a <= 2 ^ 49)%R.
Proof.
  intros lo w Hlo [H1 H2] Hle a. destruct (low_ok Hlo) as (L1 & L2). destruct Hlo as [Lo1 Lo2]. pose proof l15_val as (_ & _ & L). assert (P : (2 ^ 49 <= 2 ^ 60)%R) by (apply Rle_pow; [lra|lia]).
  destruct (@sub_val w (low_of lo) H1 L1) as (S1 & S2); [rewrite Rabs_pos_eq; lra|]. fold a in S1, S2. split; [exact S2|]. split; [exact S1|]. rewrite S1. split.
  - apply rnd_ge; [lra|]. replace (1 / 16)%R with (bpow radix2 (-4)) by (cbn; lra). apply fmt_pow. lia.
  - apply rnd_le; [lra|]. replace (2 ^ 49)%R with (bpow radix2 49) by (rewrite (pow_IZR 2 49); reflexivity). apply fmt_pow. lia.
Qed.
Lemma den_neg : forall lo, range lo -> let b := sub64 ieee (lit_64 1 (-1074)) (low_of lo) in ok b /\ (- 2 ^ 49 <= val b <= - (1 / 256))%R.
Proof.
  intros lo Hlo b. destruct (low_ok Hlo) as (L1 & L2). destruct Hlo as [Lo1 Lo2]. pose proof min_lit as (M1 & M2). assert (P : (2 ^ 49 <= 2 ^ 60)%R) by (apply Rle_pow; [lra|lia]). assert (P' : (1 <= 2 ^ 49)%R) by (apply pow_R1_Rle; lra).
  destruct (@sub_val (lit_64 1 (-1074)) (low_of lo) M1 L1) as (S1 & S2); [rewrite Rabs_left1; lra|]. fold b in S1, S2. split; [exact S2|]. rewrite S1. split.
  - apply rnd_ge; [lra|]. replace (2 ^ 49)%R with (bpow radix2 49) by (rewrite (pow_IZR 2 49); reflexivity). apply generic_format_opp, fmt_pow. lia.
  - apply rnd_le; [lra|]. replace (1 / 256)%R with (bpow radix2 (-8)) by (cbn; lra). apply generic_format_opp, fmt_pow. lia.
Qed.
Lemma pow49 : (2 ^ 49 = bpow radix2 49)%R.
Proof. rewrite (pow_IZR 2 49). reflexivity. Qed.
(** The denominator is positive: *)
Lemma weight_pos : forall lo hi w, range lo -> range hi -> range w -> (val lo <= val hi)%R -> (val lo <= val w)%R ->
  ok (weight lo hi w) /\ (0 < val (weight lo hi w))%R /\ ((val w <= val hi)%R -> (val (weight lo hi w) <= 1)%R) /\ (val w = val hi -> val (weight lo hi w) = 1%R) /\
  forall w', range w' -> (val w <= val w')%R -> (val (weight lo hi w) <= val (weight lo hi w'))%R.
Proof.
  assert (Q : forall a b : b64, ok a -> ok b -> (1 / 16 <= val a <= 2 ^ 49)%R -> (1 / 16 <= val b <= 2 ^ 49)%R -> val (div64 ieee a b) = rnd64 (val a / val b) /\ ok (div64 ieee a b) /\ (bpow radix2 (-53) <= val a / val b)%R).
  { intros a b Ha Hb Ba Bb. assert (P : (2 ^ 49 * 16 <= 2 ^ 60)%R) by (replace 16%R with (2 ^ 4)%R by lra; rewrite <- pow_add; apply Rle_pow; [lra|lia]).
    assert (B : (bpow radix2 (-53) <= val a / val b <= 2 ^ 49 * 16)%R).
    { split; (apply Rmult_le_reg_r with (val b); [lra|]; unfold Rdiv; rewrite Rmult_assoc, Rinv_l, Rmult_1_r by lra).
      - apply Rle_trans with (bpow radix2 (-53) * 2 ^ 49)%R; [apply Rmult_le_compat_l; [apply bpow_ge_0|lra]|]. rewrite pow49, <- bpow_plus. replace (bpow radix2 (-53 + 49)) with (1 / 16)%R by (cbn; lra). lra.
      - apply Rle_trans with (2 ^ 49 * 16 * (1 / 16))%R; [lra|]. apply Rmult_le_compat_l; [|lra]. assert (0 < 2 ^ 49)%R by (apply pow_lt; lra). lra. }
    pose proof (bpow_gt_0 radix2 (-53)). destruct (@div_val a b Ha) as (D1 & D2); [lra|rewrite Rabs_pos_eq; lra|]. split; [exact D1|]. split; [exact D2|]. lra. }
  intros lo hi w Hlo Hhi Hw H1 H2. unfold weight. destruct (num_ok Hlo Hhi H1) as (B1 & B2 & B3). destruct (num_ok Hlo Hw H2) as (A1 & A2 & A3). set (b := sub64 ieee hi (low_of lo)) in *. set (a := sub64 ieee w (low_of lo)) in *.
  destruct (Q a b A1 B1 A3 B3) as (Q1 & Q2 & Q3). split; [exact Q2|]. rewrite Q1. split; [|split; [|split]].
  - apply Rlt_le_trans with (bpow radix2 (-53)); [apply bpow_gt_0|]. apply rnd_ge; [exact Q3|apply fmt_pow; lia].
  - intro H. apply rnd_le; [|apply (@int_format 1); lia]. assert (val a <= val b)%R by (rewrite A2, B2; apply rnd_mono64; lra).
    apply Rmult_le_reg_r with (val b); [lra|]. unfold Rdiv. rewrite Rmult_assoc, Rinv_l by lra. lra.
  - intro H. assert (val a = val b) as -> by (rewrite A2, B2, H; reflexivity). unfold Rdiv. rewrite Rinv_r by lra. apply round_generic; [apply valid_rnd_N|apply (@int_format 1); lia].
  - intros w' Hw' H. destruct (num_ok Hlo Hw' (Rle_trans _ _ _ H2 H)) as (A1' & A2' & A3'). set (a' := sub64 ieee w' (low_of lo)) in *. destruct (Q a' b A1' B1 A3' B3) as (-> & _ & _). apply rnd_mono64.
    apply Rmult_le_compat_r; [apply Rlt_le, Rinv_0_lt_compat; lra|]. rewrite A2, A2'. apply rnd_mono64. lra.
Qed.
(** The denominator is negative: *)
Lemma weight_neg : forall lo w, range lo -> range w -> (val lo <= val w)%R -> let hi := lit_64 1 (-1074) in
  ok (weight lo hi w) /\ (val (weight lo hi w) < 0)%R /\ forall w', range w' -> (val w <= val w')%R -> (val (weight lo hi w') <= val (weight lo hi w))%R.
Proof.
  assert (Q : forall a b : b64, ok a -> ok b -> (1 / 16 <= val a <= 2 ^ 49)%R -> (- 2 ^ 49 <= val b <= - (1 / 256))%R -> val (div64 ieee a b) = rnd64 (val a / val b) /\ ok (div64 ieee a b) /\ (val a / val b <= - bpow radix2 (-53))%R).
  { intros a b Ha Hb Ba Bb. assert (P : (2 ^ 49 * 256 <= 2 ^ 60)%R) by (replace 256%R with (2 ^ 8)%R by lra; rewrite <- pow_add; apply Rle_pow; [lra|lia]).
    assert (B : (bpow radix2 (-53) <= val a / - val b <= 2 ^ 49 * 256)%R).
    { split; (apply Rmult_le_reg_r with (- val b)%R; [lra|]; unfold Rdiv; rewrite Rmult_assoc, Rinv_l, Rmult_1_r by lra).
      - apply Rle_trans with (bpow radix2 (-53) * 2 ^ 49)%R; [apply Rmult_le_compat_l; [apply bpow_ge_0|lra]|]. rewrite pow49, <- bpow_plus. replace (bpow radix2 (-53 + 49)) with (1 / 16)%R by (cbn; lra). lra.
      - apply Rle_trans with (2 ^ 49 * 256 * (1 / 256))%R; [lra|]. apply Rmult_le_compat_l; [|lra]. assert (0 < 2 ^ 49)%R by (apply pow_lt; lra). lra. }
    replace (val a / - val b)%R with (- (val a / val b))%R in B by (field; lra).
    pose proof (bpow_gt_0 radix2 (-53)). destruct (@div_val a b Ha) as (D1 & D2); [lra|rewrite Rabs_left1; lra|]. split; [exact D1|]. split; [exact D2|]. lra. }
  intros lo w Hlo Hw H2 hi. unfold weight. destruct (den_neg Hlo) as (B1 & B3). destruct (num_ok Hlo Hw H2) as (A1 & A2 & A3). fold hi in B1, B3. set (b := sub64 ieee hi (low_of lo)) in *. set (a := sub64 ieee w (low_of lo)) in *.
  destruct (Q a b A1 B1 A3 B3) as (Q1 & Q2 & Q3). split; [exact Q2|]. rewrite Q1. split.
  - apply Rle_lt_trans with (- bpow radix2 (-53))%R; [|pose proof (bpow_gt_0 radix2 (-53)); lra]. apply rnd_le; [exact Q3|apply generic_format_opp, fmt_pow; lia].
  - intros w' Hw' H. destruct (num_ok Hlo Hw' (Rle_trans _ _ _ H2 H)) as (A1' & A2' & A3'). set (a' := sub64 ieee w' (low_of lo)) in *. destruct (Q a' b A1' B1 A3' B3) as (-> & _ & _). apply rnd_mono64.
    assert (val a <= val a')%R by (rewrite A2, A2'; apply rnd_mono64; lra). assert (/ val b < 0)%R by (apply Rinv_lt_0_compat; lra). unfold Rdiv. nra.
Qed.
