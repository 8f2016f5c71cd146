(** TextRank ranks nearly by exact scores (C108). *)
From Verif Require Import S_Near6 Ieee P_Ieee P_Sum P_Near2 P_Near5 P_Near6 P_Idf P_Idf2 P_Trim P_Rank P_Rank2 P_Rank3 P_Rank4.
From Coq Require Import ZArith Reals Lra Lia List Wf_nat.
From Flocq Require Import Core Relative IEEE754.BinarySingleNaN.
Import ListNotations.
Set Implicit Arguments. Unset Strict Implicit.
Local Open Scope R_scope.

(** ** Relative errors *)
Definition cl (T : nat) (v x : R) : Prop := (1 - u64) ^ T * x <= v <= (1 + u64) ^ T * x.
Lemma u_le : 0 < u64 <= / 16.
Proof. split; [apply bpow_gt_0|]. change u64 with (/ 9007199254740992). lra. Qed.
Lemma pd_pos : forall T, 0 < (1 - u64) ^ T.
Proof. intro T. apply pow_lt. pose proof u_le. lra. Qed.
Lemma pu_pos : forall T, 0 < (1 + u64) ^ T.
Proof. intro T. apply pow_lt. pose proof u_le. lra. Qed.
Lemma cl_le : forall T T' v x, (T <= T')%nat -> 0 <= x -> cl T v x -> cl T' v x.
Proof.
  intros T T' v x HT Hx [H1 H2]. pose proof u_le as U. split.
  - apply Rle_trans with (2 := H1). apply Rmult_le_compat_r; [exact Hx|]. apply pow_down; [lra|exact HT].
  - apply Rle_trans with (1 := H2). apply Rmult_le_compat_r; [exact Hx|]. apply pow_up; [lra|exact HT].
Qed.
Lemma cl_add : forall T v x w y, cl T v x -> cl T w y -> cl T (v + w) (x + y).
Proof. intros T v x w y [H1 H2] [H3 H4]. split; rewrite Rmult_plus_distr_l; lra. Qed.
Lemma cl_mul : forall T T' v x w y, 0 <= x -> 0 <= y -> cl T v x -> cl T' w y -> cl (T + T') (v * w) (x * y).
Proof.
  intros T T' v x w y Hx Hy [H1 H2] [H3 H4]. pose proof (pd_pos T). pose proof (pd_pos T'). pose proof (pu_pos T). pose proof (pu_pos T'). unfold cl. rewrite !pow_add.
  assert (0 <= (1 - u64) ^ T * x) by (apply Rmult_le_pos; lra). assert (0 <= (1 - u64) ^ T' * y) by (apply Rmult_le_pos; lra). split.
  - replace ((1 - u64) ^ T * (1 - u64) ^ T' * (x * y)) with (((1 - u64) ^ T * x) * ((1 - u64) ^ T' * y)) by ring. apply Rmult_le_compat; lra.
  - replace ((1 + u64) ^ T * (1 + u64) ^ T' * (x * y)) with (((1 + u64) ^ T * x) * ((1 + u64) ^ T' * y)) by ring. apply Rmult_le_compat; lra.
Qed.
Lemma cl_rnd : forall T v x, v = 0 \/ bpow radix2 (-1000) <= v <= bpow radix2 1000 -> cl T v x -> cl (S T) (rnd64 v) x.
Proof.
  intros T v x Hv [H1 H2]. destruct (rnd64_rel Hv) as [[R1 R2] _]. pose proof u_le as U. unfold cl. cbn [pow]. split.
  - apply Rle_trans with (2 := R1). rewrite Rmult_assoc. apply Rmult_le_compat_l; lra.
  - apply Rle_trans with (1 := R2). rewrite Rmult_assoc. apply Rmult_le_compat_l; lra.
Qed.
Lemma cl_refl : forall x, 0 <= x -> cl 0 x x.
Proof. intros x H. unfold cl. cbn [pow]. lra. Qed.
Lemma cl0 : forall T, cl T 0 0.
Proof. intro T. unfold cl. rewrite !Rmult_0_r. lra. Qed.
Lemma b_ge : forall a b, (a <= b)%Z -> bpow radix2 a <= bpow radix2 b.
Proof. intros. apply bpow_le. assumption. Qed.
Lemma p60 : 2 ^ 60 = bpow radix2 60.
Proof. rewrite (pow_IZR 2 60). reflexivity. Qed.
Lemma fit : forall v, bpow radix2 (-200) <= v <= 2 ^ 60 -> v = 0 \/ bpow radix2 (-1000) <= v <= bpow radix2 1000.
Proof. intros v [H1 H2]. right. split; [apply Rle_trans with (2 := H1); apply b_ge; lia|]. apply Rle_trans with (1 := H2). rewrite p60. apply b_ge. lia. Qed.

(** ** One value *)
Lemma term_rel : forall c D (v : b64) T y, (1 <= c <= D)%Z -> (D <= 2 ^ 50)%Z -> ok v -> bpow radix2 (-60) <= val v <= 31 / 16 * IZR D -> 0 <= y -> cl T (val v) y ->
  let t := mul64 ieee (div64 ieee (lit_64 c 0) (lit_64 D 0)) v in cl (T + 2) (val t) (IZR c / IZR D * y) /\ bpow radix2 (-150) <= val t.
Proof.
  intros c D v T y Hc HD Hv Hb Hy Ht t. destruct (@lit_int c) as (C1 & C2 & _); [lia|]. destruct (@lit_int D) as (D1 & D2 & _); [lia|].
  assert (P0 : 0 < bpow radix2 (-60)) by apply bpow_gt_0.
  destruct (@term_ok c D v Hc HD Hv) as (_ & _); [lra|]. assert (Hd : 1 <= IZR D) by (apply (IZR_le 1); lia). assert (Hc1 : 1 <= IZR c) by (apply (IZR_le 1); lia). assert (Hcd : IZR c <= IZR D) by (apply IZR_le; lia).
  assert (Hd2 : IZR D <= bpow radix2 50) by (change (bpow radix2 50) with (IZR (2 ^ 50)); apply IZR_le; exact HD).
  set (k := IZR c / IZR D). assert (Hk : k * IZR D = IZR c) by (unfold k; field; lra).
  assert (Hk1 : 0 < k <= 1) by (split; [unfold k; apply Rdiv_lt_0_compat; lra|apply Rmult_le_reg_r with (IZR D); lra]).
  assert (Hk2 : bpow radix2 (-50) <= k).
  { apply Rmult_le_reg_r with (IZR D); [lra|]. rewrite Hk. apply Rle_trans with (bpow radix2 (-50) * bpow radix2 50); [apply Rmult_le_compat_l; [apply bpow_ge_0|exact Hd2]|]. rewrite <- bpow_plus. cbn. lra. }
  assert (P60 : 2 ^ 60 = 1024 * bpow radix2 50) by (rewrite p60; change 60%Z with (10 + 50)%Z; rewrite bpow_plus; reflexivity). assert (P50 : 1 <= bpow radix2 50) by (change 1 with (bpow radix2 0); apply b_ge; lia).
  destruct (@div_val (lit_64 c 0) (lit_64 D 0) C2) as (Q1 & Q2); rewrite ?D1, ?C1; [lra|fold k; rewrite Rabs_pos_eq by lra; lra|]. rewrite C1, D1 in Q1. fold k in Q1. set (r := div64 ieee (lit_64 c 0) (lit_64 D 0)) in *.
  assert (Cr : cl 1 (val r) k). { rewrite Q1. apply cl_rnd; [apply fit; split; [apply Rle_trans with (2 := Hk2); apply b_ge; lia|lra]|apply cl_refl; lra]. }
  assert (Hr : bpow radix2 (-50) <= val r <= 1) by (rewrite Q1; split; [apply rnd_ge; [exact Hk2|apply fmt_pow; lia]|apply rnd_le; [lra|apply (@int_format 1); lia]]).
  assert (P5 : 0 < bpow radix2 (-50)) by apply bpow_gt_0.
  assert (Hrv : bpow radix2 (-110) <= val r * val v <= 2 ^ 60).
  { split; [change (-110)%Z with (-50 + -60)%Z; rewrite bpow_plus; apply Rmult_le_compat; lra|]. apply Rle_trans with (1 * val v); [apply Rmult_le_compat_r; lra|lra]. }
  assert (P11 : 0 < bpow radix2 (-110)) by apply bpow_gt_0.
  destruct (@mul_val r v Q2 Hv) as (T1 & T2); [rewrite Rabs_pos_eq by lra; lra|]. fold t in T1, T2. rewrite T1. split.
  - replace (T + 2)%nat with (S (1 + T)) by lia. apply cl_rnd; [apply fit; split; [apply Rle_trans with (2 := proj1 Hrv); apply b_ge; lia|lra]|]. apply cl_mul; [lra|exact Hy|exact Cr|exact Ht].
  - apply rnd_ge; [apply Rle_trans with (2 := proj1 Hrv); apply b_ge; lia|apply fmt_pow; lia].
Qed.
Lemma l85_cl : cl 1 (val l85) (85 / 100).
Proof.
  assert (V : IZR 7656119366529843 * bpow radix2 (-53) <= 1) by (cbn; lra).
  destruct (@lit_val 7656119366529843 (-53)) as (H1 & _); [lia|lia|apply Rle_lt_trans with (1 := V); change 1 with (bpow radix2 0); apply bpow_lt; lia|]. fold l85 in H1. rewrite H1. unfold cl. change u64 with (/ 9007199254740992). cbn [pow]. lra.
Qed.
Lemma l15_cl : cl 1 (val l15) (15 / 100).
Proof.
  assert (V : IZR 5404319552844595 * bpow radix2 (-55) <= 1) by (cbn; lra).
  destruct (@lit_val 5404319552844595 (-55)) as (H1 & _); [lia|lia|apply Rle_lt_trans with (1 := V); change 1 with (bpow radix2 0); apply bpow_lt; lia|]. fold l15 in H1. rewrite H1. unfold cl. change u64 with (/ 9007199254740992). change (bpow radix2 (-55)) with (/ 36028797018963968). cbn [pow]. lra.
Qed.
Lemma value_rel : forall (D : bytes -> nat) (v : bytes -> b64) (Y : bytes -> R) q dg T, (forall m c, In (m, c) q -> (1 <= c <= D m)%nat /\ (Z.of_nat (D m) <= 2 ^ 50)%Z /\ ok (v m) /\ bpow radix2 (-60) <= val (v m) <= 31 / 16 * IZR (Z.of_nat (D m)) /\ 0 <= Y m /\ cl T (val (v m)) (Y m)) ->
  list_sum (map snd q) = dg -> (1 <= dg)%nat -> (Z.of_nat dg <= 2 ^ 48)%Z ->
  let x := add64 ieee l15 (mul64 ieee l85 (fold_left (fun s e => add64 ieee s (mul64 ieee (div64 ieee (snd e) (lit_64 (Z.of_nat (D (fst e))) 0)) (v (fst e))))
             (map (fun mw => (fst mw, lit_64 (Z.of_nat (snd mw)) 0)) q) (lit_64 0 0))) in
  cl (T + length q + 5) (val x) (15 / 100 + 85 / 100 * fold_right Rplus 0 (map (fun mc => INR (snd mc) * (Y (fst mc) / INR (D (fst mc)))) q)).
Proof.
  intros D v Y q dg T Hq Hs Hd1 Hd2 x. set (s0 := fold_left _ _ _) in x. set (z := fold_right Rplus 0 _).
  assert (HY : forall m c, In (m, c) q -> 0 <= INR c * (Y m / INR (D m))).
  { intros m c H. destruct (Hq m c H) as (Q1 & _ & _ & _ & Q5 & _). apply Rmult_le_pos; [apply pos_INR|]. unfold Rdiv. apply Rmult_le_pos; [exact Q5|]. apply Rlt_le, Rinv_0_lt_compat. change 0 with (INR 0). apply lt_INR. lia. }
  assert (Z0 : 0 <= z).
  { unfold z. clear -HY. induction q as [|[m c] q IH]; cbn [map fold_right fst snd]; [lra|]. pose proof (HY m c (or_introl eq_refl)). assert (0 <= fold_right Rplus 0 (map (fun mc => INR (snd mc) * (Y (fst mc) / INR (D (fst mc)))) q)) by (apply IH; intros; apply HY; right; assumption). lra. }
  assert (K : ok s0 /\ 0 <= val s0 <= 2 * IZR (Z.of_nat dg) /\ cl (T + 2 + length q) (val s0) z /\ (val s0 = 0 \/ bpow radix2 (-150) <= val s0)).
  { unfold s0, z.
    enough (forall s W z0 n, ok s -> 0 <= val s <= 2 * IZR (Z.of_nat W) -> (val s = 0 \/ bpow radix2 (-150) <= val s) -> 0 <= z0 -> cl (T + 2 + n) (val s) z0 -> (Z.of_nat (W + list_sum (map snd q)) <= 2 ^ 50)%Z ->
      let y := fold_left (fun s e => add64 ieee s (mul64 ieee (div64 ieee (snd e) (lit_64 (Z.of_nat (D (fst e))) 0)) (v (fst e)))) (map (fun mw => (fst mw, lit_64 (Z.of_nat (snd mw)) 0)) q) s in
      ok y /\ 0 <= val y <= 2 * IZR (Z.of_nat (W + list_sum (map snd q))) /\ cl (T + 2 + n + length q) (val y) (z0 + fold_right Rplus 0 (map (fun mc => INR (snd mc) * (Y (fst mc) / INR (D (fst mc)))) q)) /\ (val y = 0 \/ bpow radix2 (-150) <= val y)) as K.
    { destruct (@lit_int 0) as (L1 & L2 & _); [lia|]. destruct (K (lit_64 0 0) 0%nat 0 0%nat L2) as (K1 & K2 & K3 & K4); try (rewrite L1); try lra; try (left; reflexivity); [cbn; lra|apply cl0|rewrite Hs; cbn; lia|]. cbv zeta in *. rewrite Hs in K2. rewrite Rplus_0_l, Nat.add_0_r in K3. auto. }
    clear Hs Hd1 Hd2 s0 dg x Z0 z. induction q as [|[m c] q IH]; intros s W z0 n S1 S2 S3 Z1 C1 HW; cbn [map fold_left fst snd fold_right length].
    - cbn [map list_sum fold_right] in *. rewrite !Nat.add_0_r, Rplus_0_r. auto.
    - cbn [map list_sum fold_right snd] in *. change (fold_right Init.Nat.add 0%nat) with list_sum in *. destruct (Hq m c (or_introl eq_refl)) as (Q1 & Q2 & Q3 & Q4 & Q5 & Q6). pose proof (HY m c (or_introl eq_refl)) as Hy.
      assert (P6 : 0 < bpow radix2 (-60)) by apply bpow_gt_0. destruct (@term_ok (Z.of_nat c) (Z.of_nat (D m)) (v m)) as (T1 & T2); [lia|exact Q2|exact Q3|lra|].
      destruct (@term_rel (Z.of_nat c) (Z.of_nat (D m)) (v m) T (Y m)) as (R1 & R2); [lia|exact Q2|exact Q3|exact Q4|exact Q5|exact Q6|].
      set (t := mul64 ieee (div64 ieee (lit_64 (Z.of_nat c) 0) (lit_64 (Z.of_nat (D m)) 0)) (v m)) in *.
      destruct (@sum_step s t (Z.of_nat W) (Z.of_nat c)) as (U1 & U2); [lia|lia|lia|exact S1|exact T1|exact S2|exact T2|].
      assert (B50 : IZR (Z.of_nat W) + IZR (Z.of_nat c) <= bpow radix2 50) by (rewrite <- plus_IZR; change (bpow radix2 50) with (IZR (2 ^ 50)); apply IZR_le; lia).
      assert (P60 : 2 ^ 60 = 1024 * bpow radix2 50) by (rewrite p60; change 60%Z with (10 + 50)%Z; rewrite bpow_plus; reflexivity). assert (P50 : 0 < bpow radix2 50) by apply bpow_gt_0.
      assert (Hle : bpow radix2 (-200) <= bpow radix2 (-150)) by (apply b_ge; lia).
      destruct (@add_val s t S1 T1) as (A1 & A2); [rewrite Rabs_pos_eq; lra|].
      replace (IZR (Z.of_nat c) / IZR (Z.of_nat (D m)) * Y m) with (INR c * (Y m / INR (D m))) in R1 by (rewrite !INR_IZR_INZ; unfold Rdiv; ring).
      assert (CC : cl (T + 2 + S n) (val (add64 ieee s t)) (z0 + INR c * (Y m / INR (D m)))).
      { rewrite A1. replace (T + 2 + S n)%nat with (S (T + 2 + n)) by lia. apply cl_rnd; [apply fit; lra|]. apply cl_add; [exact C1|]. apply (@cl_le (T + 2)); [lia|exact Hy|exact R1]. }
      destruct (IH (fun m c H => Hq m c (or_intror H)) (fun m c H => HY m c (or_intror H)) (add64 ieee s t) (W + c)%nat (z0 + INR c * (Y m / INR (D m))) (S n) A2) as (I1 & I2 & I3 & I4).
      + rewrite Nat2Z.inj_add. exact U2.
      + right. rewrite A1. apply rnd_ge; [lra|apply fmt_pow; lia].
      + lra.
      + exact CC.
      + rewrite <- Nat.add_assoc. exact HW.
      + rewrite Nat.add_assoc. cbv zeta. split; [exact I1|]. split; [exact I2|]. split; [|exact I4]. replace (T + 2 + n + S (length q))%nat with (T + 2 + S n + length q)%nat by lia. rewrite <- Rplus_assoc. exact I3. }
  destruct K as (K1 & K2 & K3 & K4). clearbody s0 z. destruct l15_val as (A1 & A2 & A3). destruct l85_val as (B1 & B2).
  assert (D2 : IZR (Z.of_nat dg) <= bpow radix2 48) by (change (bpow radix2 48) with (IZR (2 ^ 48)); apply IZR_le; exact Hd2).
  assert (P60 : 2 ^ 60 = 4096 * bpow radix2 48) by (rewrite p60; change 60%Z with (12 + 48)%Z; rewrite bpow_plus; reflexivity). assert (P48 : 1 <= bpow radix2 48) by (change 1 with (bpow radix2 0); apply b_ge; lia).
  assert (B3 : / 2 <= val l85) by (pose proof l85_cl as [L _]; change u64 with (/ 9007199254740992) in L; cbn [pow] in L; lra).
  assert (Hm : 0 <= val l85 * val s0 <= 2 * bpow radix2 48). { split; [apply Rmult_le_pos; lra|]. apply Rle_trans with (1 * (2 * IZR (Z.of_nat dg))); [apply Rmult_le_compat; lra|lra]. }
  destruct (@mul_val l85 s0 B1 K1) as (M1 & M2); [rewrite Rabs_pos_eq; lra|]. set (mm := mul64 ieee l85 s0) in *.
  assert (Hm' : 0 <= val mm <= 2 * bpow radix2 48).
  { rewrite M1. split; [apply rnd_ge; [lra|apply fmt0]|]. apply rnd_le; [lra|]. change 2 with (bpow radix2 1). rewrite <- bpow_plus. apply fmt_pow. lia. }
  assert (CM : cl (T + length q + 4) (val mm) (85 / 100 * z)).
  { rewrite M1. replace (T + length q + 4)%nat with (S (1 + (T + 2 + length q))) by lia. apply cl_rnd.
    - destruct K4 as [-> |K4]; [left; ring|]. apply fit. split; [|lra]. apply Rle_trans with (bpow radix2 (-1) * bpow radix2 (-150)); [rewrite <- bpow_plus; apply b_ge; lia|]. change (bpow radix2 (-1)) with (/ 2). pose proof (bpow_ge_0 radix2 (-150)). apply Rmult_le_compat; lra.
    - apply cl_mul; [lra|exact Z0|exact l85_cl|exact K3]. }
  destruct (@add_val l15 mm A1 M2) as (X1 & X2); [rewrite Rabs_pos_eq; lra|]. fold x in X1. rewrite X1. replace (T + length q + 5)%nat with (S (T + length q + 4)) by lia. apply cl_rnd.
  - apply fit. assert (bpow radix2 (-200) <= bpow radix2 (-10)) by (apply b_ge; lia). change (bpow radix2 (-10)) with (/ 1024) in *. split; lra.
  - apply cl_add; [|exact CM]. apply (@cl_le 1); [lia|lra|exact l15_cl].
Qed.

(** ** The order of the computation *)
Definition cost (ns : list (bytes * bytes)) (w : bytes) : nat := (degree ns w + 5)%nat.
Definition costs (ns : list (bytes * bytes)) : nat := list_sum (map (cost ns) (words ns)).
Definition before (ns : list (bytes * bytes)) (w : bytes) : nat := list_sum (map (fun v => if ltb_str v w then cost ns v else 0%nat) (words ns)).
Definition TT (ns : list (bytes * bytes)) (x : nat) (w : bytes) : nat := match x with O => 1%nat | S y => (1 + y * costs ns + before ns w + cost ns w)%nat end.
Lemma sum_pt : forall (ws : list bytes) m (f g : bytes -> nat) c, NoDup ws -> In m ws -> (forall v, In v ws -> v <> m -> f v <= g v)%nat -> (f m + c <= g m)%nat -> (list_sum (map f ws) + c <= list_sum (map g ws))%nat.
Proof.
  intros ws m f g c Hd. induction Hd as [|v ws Hv Hd IH]; intros Hm Hf Hc; [destruct Hm|]. cbn [map list_sum fold_right]. change (fold_right Init.Nat.add 0%nat) with list_sum.
  assert (Hle : forall l, (forall v, In v l -> f v <= g v)%nat -> (list_sum (map f l) <= list_sum (map g l))%nat).
  { clear. induction l as [|v l IH]; intro H; [auto|]. cbn [map list_sum fold_right]. change (fold_right Init.Nat.add 0%nat) with list_sum. pose proof (H v (or_introl eq_refl)). specialize (IH (fun u Hu => H u (or_intror Hu))). lia. }
  destruct Hm as [->|Hm].
  - specialize (Hle ws (fun u Hu => Hf u (or_intror Hu) (fun e => Hv (eq_ind u (fun z => In z ws) Hu m e)))). lia.
  - assert (v <> m) by (intros ->; exact (Hv Hm)). pose proof (Hf v (or_introl eq_refl) H). specialize (IH Hm (fun u Hu => Hf u (or_intror Hu)) Hc). lia.
Qed.
Lemma in_words : forall ns w, In w (words ns) <-> In w (members ns).
Proof. intros. apply nodup_In. Qed.
Lemma child : forall ns x w m, In m (members ns) -> (TT ns (if ltb_str m w then S x else x) m + cost ns w <= TT ns (S x) w)%nat.
Proof.
  intros ns x w m Hm. apply in_words in Hm. pose proof (NoDup_nodup (list_eq_dec Byte.byte_eq_dec) (members ns)) as Hd. fold (words ns) in Hd. destruct (ltb_str m w) eqn:E; cbn [TT].
  - enough (before ns m + cost ns m <= before ns w)%nat by lia. unfold before. apply (@sum_pt _ m); [exact Hd|exact Hm| |].
    + intros v _ _. destruct (ltb_str v m) eqn:E1; [|lia]. rewrite (str_trans E1 E). lia.
    + rewrite str_irr, E. lia.
  - assert (B : (before ns m + cost ns m <= costs ns)%nat). { unfold before, costs. apply (@sum_pt _ m); [exact Hd|exact Hm| |]; [|rewrite str_irr; lia]. intros v _ _. destruct (ltb_str v m); lia. }
    destruct x as [|x]; cbn [TT]; lia.
Qed.
Lemma TT_bound : forall ns x w, In w (members ns) -> (TT ns x w <= 1 + x * costs ns)%nat.
Proof.
  intros ns x w Hm. apply in_words in Hm. pose proof (NoDup_nodup (list_eq_dec Byte.byte_eq_dec) (members ns)) as Hd. fold (words ns) in Hd. destruct x as [|x]; cbn [TT]; [lia|].
  assert (B : (before ns w + cost ns w <= costs ns)%nat). { unfold before, costs. apply (@sum_pt _ w); [exact Hd|exact Hm| |]; [|rewrite str_irr; lia]. intros v _ _. destruct (ltb_str v w); lia. }
  lia.
Qed.
Lemma members_len : forall ns, length (members ns) = (2 * length ns)%nat.
Proof. induction ns as [|p ns IH]; [reflexivity|]. unfold members in *. cbn [flat_map app length]. rewrite IH. lia. Qed.
Lemma tally_sum : forall ws l, NoDup ws -> (list_sum (map (fun w => tally w l) ws) <= length l)%nat.
Proof.
  intros ws l Hd. induction l as [|v l IH]; cbn [tally length].
  - clear. induction ws as [|w ws IH]; [auto|]. cbn [map list_sum fold_right tally]. exact IH.
  - enough (list_sum (map (fun w => ((if beqb w v then 1 else 0) + tally w l)%nat) ws) <= 1 + list_sum (map (fun w => tally w l) ws))%nat by lia.
    clear IH. induction Hd as [|w ws Hw Hd IH]; [cbn; lia|]. cbn [map list_sum fold_right]. change (fold_right Init.Nat.add 0%nat) with list_sum. destruct (beqb w v) eqn:E; [|lia]. apply beqb_eq in E. subst v.
    assert (list_sum (map (fun w0 => ((if beqb w0 w then 1 else 0) + tally w0 l)%nat) ws) = list_sum (map (fun w0 => tally w0 l) ws)); [|lia].
    f_equal. apply map_ext_in. intros u Hu. destruct (beqb u w) eqn:E; [apply beqb_eq in E; subst; destruct (Hw Hu)|reflexivity].
Qed.
Lemma costs_le : forall ns, (costs ns <= 12 * length ns)%nat.
Proof.
  intro ns. pose proof (NoDup_nodup (list_eq_dec Byte.byte_eq_dec) (members ns)) as Hd. fold (words ns) in Hd. pose proof (tally_sum (members ns) Hd) as H1. rewrite members_len in H1.
  assert (H2 : (length (words ns) <= 2 * length ns)%nat). { rewrite <- members_len. apply NoDup_incl_length; [exact Hd|]. intros w Hw. apply in_words, Hw. }
  assert (H3 : costs ns = (list_sum (map (fun w => tally w (members ns)) (words ns)) + 5 * length (words ns))%nat); [|lia].
  unfold costs, cost, degree. clear. induction (words ns) as [|w l IH]; [reflexivity|]. cbn [map list_sum fold_right length] in *. change (fold_right Init.Nat.add 0%nat) with list_sum in *. lia.
Qed.

(** ** Exact scores exist *)
Definition xpart (ns : list (bytes * bytes)) (w : bytes) (f : bytes -> R) : R :=
  fold_right Rplus 0 (map (fun p => (if beqb (fst p) w then f (snd p) else 0) + (if beqb (snd p) w then f (fst p) else 0)) ns).
Lemma xpart_ext : forall ns w f g, (forall v, In v (members ns) -> f v = g v) -> xpart ns w f = xpart ns w g.
Proof.
  intros ns w f g H. unfold xpart. f_equal. apply map_ext_in. intros [a b] Hp. cbn [fst snd]. rewrite (H a), (H b); [reflexivity| |]; apply members_in; exists a, b; auto.
Qed.
Fixpoint xg (ns : list (bytes * bytes)) (k : nat) (x : nat) (w : bytes) : R :=
  match k with O => 0 | S k =>
    match x with O => 1 / INR (length (words ns)) | S y => 15 / 100 + 85 / 100 * xpart ns w (fun v => xg ns k (if ltb_str v w then S y else y) v / INR (degree ns v)) end end.
Lemma xg_more : forall ns k x w, In w (members ns) -> (TT ns x w <= k)%nat -> xg ns k x w = xg ns (TT ns x w) x w.
Proof.
  intros ns. assert (K : forall k x w, In w (members ns) -> (TT ns x w <= k)%nat -> xg ns (S k) x w = xg ns k x w).
  { induction k as [|k IH]; intros x w Hw Hk; [destruct x; cbn [TT] in Hk; lia|]. destruct x as [|y]; [reflexivity|]. cbn [xg]. f_equal. f_equal. apply xpart_ext. intros v Hv. f_equal. apply (IH _ v Hv). pose proof (child y w Hv). unfold cost in *. lia. }
  induction k as [|k IH]; intros x w Hw Hk; [destruct x; cbn [TT] in Hk; lia|]. apply Nat.le_lteq in Hk as [Hk| ->]; [|reflexivity]. rewrite K by (auto; lia). apply IH; [exact Hw|lia].
Qed.
Lemma exact_exist : forall ns, exact_scores ns (fun x w => xg ns (TT ns x w) x w).
Proof.
  intros ns w Hw. split; [reflexivity|]. intros x part. change (xg ns (TT ns (S x) w) (S x) w = 15 / 100 + 85 / 100 * xpart ns w part). destruct (TT ns (S x) w) as [|k] eqn:Ek; [discriminate Ek|]. cbn [xg]. f_equal. f_equal. apply xpart_ext. intros v Hv. unfold part. f_equal.
  apply xg_more; [exact Hv|]. pose proof (child x w Hv). unfold cost in *. lia.
Qed.
Lemma exact_unique : forall ns X Y, exact_scores ns X -> exact_scores ns Y -> forall x w, In w (members ns) -> X x w = Y x w.
Proof.
  intros ns X Y HX HY x w Hw. remember (TT ns x w) as n eqn:En. revert x w Hw En. induction n as [n IH] using lt_wf_ind. intros x w Hw ->. destruct (HX w Hw) as [X0 X1]. destruct (HY w Hw) as [Y0 Y1].
  destruct x as [|x]; [congruence|]. rewrite X1, Y1. f_equal. f_equal. match goal with |- fold_right _ _ (map ?a _) = fold_right _ _ (map ?b _) => change (xpart ns w (fun v => X (if ltb_str v w then S x else x) v / INR (degree ns v)) = xpart ns w (fun v => Y (if ltb_str v w then S x else x) v / INR (degree ns v))) end.
  apply xpart_ext. intros v Hv. f_equal. eapply IH; [|exact Hv|reflexivity]. pose proof (child x w Hv). unfold cost in *. lia.
Qed.

(** ** Scores and exact scores *)
Lemma fr_app : forall l l', fold_right Rplus 0 (l ++ l') = fold_right Rplus 0 l + fold_right Rplus 0 l'.
Proof. induction l as [|a l IH]; intro l'; cbn [app fold_right]; [ring|]. rewrite IH. ring. Qed.
Lemma pair_rsum : forall (h : bytes * bytes -> R) ns keys, NoDup keys -> (forall k, In k ns -> In k keys) ->
  fold_right Rplus 0 (map (fun k => INR (pair_tally k ns) * h k) keys) = fold_right Rplus 0 (map h ns).
Proof.
  intros h ns keys Hd. induction ns as [|v ns IH]; intro H.
  - cbn [map fold_right pair_tally INR]. clear. induction keys as [|k keys IH]; [reflexivity|]. cbn [map fold_right]. rewrite IH. ring.
  - cbn [map fold_right]. rewrite <- IH by (intros k Hk; apply H; right; exact Hk). assert (Hv : In v keys) by (apply H; left; reflexivity). clear IH H. revert Hv.
    induction Hd as [|k keys Hk Hd IH]; intros []; cbn [map fold_right]; rewrite pair_tally_cons, plus_INR.
    + subst k. rewrite pair_eqb_refl. replace (map (fun k => INR (pair_tally k (v :: ns)) * h k) keys) with (map (fun k => INR (pair_tally k ns) * h k) keys); [cbn [INR]; ring|].
      apply map_ext_in. intros k Hk'. rewrite pair_tally_cons. destruct (pair_eqb k v) eqn:E; [apply pair_eqb_eq in E; subst; destruct (Hk Hk')|reflexivity].
    + rewrite (IH H). destruct (pair_eqb k v) eqn:E; [apply pair_eqb_eq in E; subst; destruct (Hk H)|]. cbn [INR]. ring.
Qed.
Lemma nbs_rsum : forall (E : env) ns (l : cmap E) w f, counts ns l -> fold_right Rplus 0 (map (fun mc => INR (snd mc) * f (fst mc)) (nbs ns l w)) = xpart ns w f.
Proof.
  intros E ns l w f (H1 & H2 & _). unfold xpart. rewrite <- (@pair_rsum _ ns (map fst l) H1 (fun k => proj2 (H2 k))). clear H1 H2. unfold nbs. induction l as [|[k x] l IH]; [reflexivity|]. cbn [flat_map map fst snd fold_right].
  rewrite map_app, fr_app, IH. f_equal. destruct (beqb (fst k) w), (beqb (snd k) w); cbn [app map fold_right fst snd]; ring.
Qed.
Lemma len_sum : forall (q : list (bytes * nat)), (forall m c, In (m, c) q -> 1 <= c)%nat -> (length q <= list_sum (map snd q))%nat.
Proof.
  induction q as [|[m c] q IH]; intro H; [auto|]. cbn [length map list_sum fold_right snd]. change (fold_right Init.Nat.add 0%nat) with list_sum. pose proof (H m c (or_introl eq_refl)). specialize (IH (fun m c K => H m c (or_intror K))). lia.
Qed.
Lemma ss_map : forall A B (f : A -> B) (R : A -> A -> Prop) (Q : B -> B -> Prop) l, StronglySorted R l -> (forall t u, In t l -> In u l -> R t u -> Q (f t) (f u)) -> StronglySorted Q (map f l).
Proof.
  intros A B f R Q l H. induction H as [|t l Hs IH F]; intro K; [constructor|]. cbn [map]. constructor; [apply IH; intros; apply K; [right; assumption|right; assumption|assumption]|].
  rewrite Forall_forall in *. intros w Hw. apply in_map_iff in Hw as (u & <- & Hu). apply K; [left; reflexivity|right; exact Hu|exact (F u Hu)].
Qed.
Lemma near_quot : forall a a' B, 1 / 16 <= a <= 2 ^ 49 -> 1 / 16 <= a' <= 2 ^ 49 -> 1 / 256 <= B <= 2 ^ 49 -> rnd64 (rnd64 a' / B) <= rnd64 (rnd64 a / B) -> a' <= a * (1 + 8 * u64).
Proof.
  intros a a' B Ha Ha' HB H. assert (P49 : 2 ^ 49 = bpow radix2 49) by apply pow49. assert (I : 0 < / B) by (apply Rinv_0_lt_compat; lra).
  assert (K : forall z, 1 / 16 <= z <= 2 ^ 49 -> cl 2 (rnd64 (rnd64 z / B)) (z / B)).
  { intros z Hz. assert (E4 : 1 / 16 = bpow radix2 (-4)) by (cbn; lra). assert (C1 : cl 1 (rnd64 z) z). { apply cl_rnd; [right; split; [apply Rle_trans with (bpow radix2 (-4)); [apply b_ge; lia|lra]|apply Rle_trans with (bpow radix2 49); [lra|apply b_ge; lia]]|apply cl_refl; lra]. }
    assert (R : 1 / 16 <= rnd64 z <= 2 ^ 49) by (split; [rewrite E4; apply rnd_ge; [lra|apply fmt_pow; lia]|rewrite P49; apply rnd_le; [lra|apply fmt_pow; lia]]).
    apply cl_rnd.
    - right. split; (apply Rmult_le_reg_r with B; [lra|]; unfold Rdiv; rewrite Rmult_assoc, Rinv_l, Rmult_1_r by lra).
      + apply Rle_trans with (bpow radix2 (-1000) * bpow radix2 49); [apply Rmult_le_compat_l; [apply bpow_ge_0|lra]|]. rewrite <- bpow_plus. apply Rle_trans with (bpow radix2 (-4)); [apply b_ge; lia|lra].
      + apply Rle_trans with (bpow radix2 1000 * bpow radix2 (-8)); [rewrite <- bpow_plus; apply Rle_trans with (bpow radix2 49); [lra|apply b_ge; lia]|]. apply Rmult_le_compat_l; [apply bpow_ge_0|]. change (bpow radix2 (-8)) with (/ 256). lra.
    - destruct C1 as [C1 C2]. unfold cl, Rdiv. rewrite <- !Rmult_assoc. split; apply Rmult_le_compat_r; lra. }
  destruct (K a Ha) as [_ K1]. destruct (K a' Ha') as [K2 _]. pose proof u_le as U.
  replace (8 * u64) with (4 * (INR 2 * u64)) by (cbn [INR]; ring). apply (@ratio u64 2 2 2); [lra|change u64 with (/ 9007199254740992); cbn [INR]; lra|lia|lia|lra|lra|].
  apply Rmult_le_reg_r with (/ B); [exact I|]. unfold Rdiv in *. lra.
Qed.
Section Fl.
  Variables (u1 u2 u3 u4 u5 : rune -> bool) (u6 : rune -> rune) (u7 u8 : rune -> bool) (u9 : bytes -> option (rune -> bool)) (u10 u11 : b64 -> b64) (u12 : bytes -> b64 * bool) (u13 u14 : bool).
  Notation E := (@Build_env ieee u1 u2 u3 u4 u5 u6 u7 u8 u9 u10 u11 u12 u13 u14).
  Lemma scores_rel : forall ns (l : cmap E) sc X, (Z.of_nat (2 * length ns) <= 2 ^ 48)%Z -> counts ns l -> scores ns l (length (words ns)) sc -> exact_scores ns X ->
    forall x w, In w (members ns) -> ok (sc x w) /\ bpow radix2 (-60) <= val (sc x w) <= 31 / 16 * IZR (Z.of_nat (degree ns w)) /\ 0 <= X x w /\ cl (TT ns x w) (val (sc x w)) (X x w).
  Proof.
    intros ns l sc X Hbig Hc Hsc HX x w Hw. remember (TT ns x w) as n eqn:En. revert x w Hw En. induction n as [n IH] using lt_wf_ind. intros x w Hw ->. destruct (Hsc w Hw) as [S0 S1]. destruct (HX w Hw) as [X0 X1].
    pose proof (degree_pos Hw) as Hdeg. pose proof (degree_le ns w) as Hdeg2. assert (D1 : 1 <= IZR (Z.of_nat (degree ns w))) by (apply (IZR_le 1); lia).
    destruct x as [|x].
    - rewrite S0, X0. clear S0 X0 S1 X1 IH. set (N := length (words ns)) in *.
      assert (HN : (1 <= N <= 2 * length ns)%nat).
      { split; [apply in_words in Hw; unfold N; destruct (words ns); [destruct Hw|cbn; lia]|]. rewrite <- members_len. apply NoDup_incl_length; [apply NoDup_nodup|]. intros v Hv. apply in_words, Hv. }
      destruct (@lit_int 1) as (A1 & A2 & _); [lia|]. destruct (@lit_int (Z.of_nat N)) as (B1 & B2 & _); [lia|].
      assert (G1 : 1 <= IZR (Z.of_nat N)) by (apply (IZR_le 1); lia). assert (G2 : IZR (Z.of_nat N) <= bpow radix2 48) by (change (bpow radix2 48) with (IZR (2 ^ 48)); apply IZR_le; lia).
      assert (Q : bpow radix2 (-48) <= 1 / IZR (Z.of_nat N) <= 1).
      { split; (apply Rmult_le_reg_r with (IZR (Z.of_nat N)); [lra|]; unfold Rdiv; rewrite Rmult_assoc, Rinv_l, Rmult_1_l by lra); [|lra]. apply Rle_trans with (bpow radix2 (-48) * bpow radix2 48); [apply Rmult_le_compat_l; [apply bpow_ge_0|lra]|]. rewrite <- bpow_plus. cbn. lra. }
      assert (P0 : 0 < bpow radix2 (-48)) by apply bpow_gt_0. assert (P60 : 1 <= 2 ^ 60) by (apply pow_R1_Rle; lra).
      destruct (@div_val (lit_64 1 0) (lit_64 (Z.of_nat N) 0) A2) as (Q1 & Q2); rewrite ?A1, ?B1; [lra|rewrite Rabs_pos_eq; lra|]. rewrite A1, B1 in Q1.
      change (div64 E (lit64 E (Z.of_nat 1) 0) (lit64 E (Z.of_nat N) 0)) with (div64 ieee (lit_64 1 0) (lit_64 (Z.of_nat N) 0)). rewrite Q1, INR_IZR_INZ.
      split; [exact Q2|]. split; [split|split].
      + apply rnd_ge; [apply Rle_trans with (2 := proj1 Q); apply b_ge; lia|apply fmt_pow; lia].
      + apply Rle_trans with 1; [apply rnd_le; [lra|apply (@int_format 1); lia]|lra].
      + lra.
      + cbn [TT]. apply cl_rnd; [apply fit; split; [apply Rle_trans with (2 := proj1 Q); apply b_ge; lia|lra]|apply cl_refl; lra].
    - rewrite (S1 x). set (v := fun m => sc (if ltb_str m w then S x else x) m). set (Y := fun m => X (if ltb_str m w then S x else x) m).
      assert (CH : forall m, In m (members ns) -> ok (v m) /\ bpow radix2 (-60) <= val (v m) <= 31 / 16 * IZR (Z.of_nat (degree ns m)) /\ 0 <= Y m /\ cl (TT ns (S x) w - cost ns w) (val (v m)) (Y m)).
      { intros m Hm. pose proof (child x w Hm) as Hch. destruct (IH (TT ns (if ltb_str m w then S x else x) m) ltac:(unfold cost in *; lia) _ m Hm eq_refl) as (I1 & I2 & I3 & I4).
        split; [exact I1|]. split; [exact I2|]. split; [exact I3|]. apply (@cl_le (TT ns (if ltb_str m w then S x else x) m)); [lia|exact I3|exact I4]. }
      rewrite (nbs_neighbours w Hc). change (lit64 E (Z.of_nat 0) 0) with (lit_64 0 0).
      assert (Hq : forall m c, In (m, c) (nbs ns l w) -> (1 <= c <= degree ns m)%nat /\ (Z.of_nat (degree ns m) <= 2 ^ 50)%Z /\ ok (v m) /\ bpow radix2 (-60) <= val (v m) <= 31 / 16 * IZR (Z.of_nat (degree ns m)) /\ 0 <= Y m /\ cl (TT ns (S x) w - cost ns w) (val (v m)) (Y m)).
      { intros m c Hin. destruct (nbs_in Hc Hin) as (N1 & N2 & N3 & N4). destruct (CH m N3) as (I1 & I2 & I3 & I4). pose proof (degree_le ns m). repeat split; try lia; try exact I1; try exact I3; try apply I2; apply I4. }
      assert (P6 : 0 < bpow radix2 (-60)) by apply bpow_gt_0.
      destruct (@value_ok (degree ns) v (nbs ns l w) (degree ns w)) as (V1 & V2); [intros m c Hin; destruct (Hq m c Hin) as (q1 & q2 & q3 & q4 & _); repeat split; try lia; try exact q3; lra|apply nbs_sum; exact Hc|exact Hdeg|lia|].
      pose proof (@value_rel (degree ns) v Y (nbs ns l w) (degree ns w) _ Hq (nbs_sum w Hc) Hdeg ltac:(lia)) as VR.
      assert (XV : X (S x) w = 15 / 100 + 85 / 100 * fold_right Rplus 0 (map (fun mc => INR (snd mc) * (Y (fst mc) / INR (degree ns (fst mc)))) (nbs ns l w))).
      { rewrite (X1 x), (@nbs_rsum E ns l w (fun m => Y m / INR (degree ns m)) Hc). reflexivity. }
      assert (Xpos : 0 <= X (S x) w).
      { rewrite XV. assert (0 <= fold_right Rplus 0 (map (fun mc => INR (snd mc) * (Y (fst mc) / INR (degree ns (fst mc)))) (nbs ns l w))); [|lra]. clear -Hq. induction (nbs ns l w) as [|[m c] q IH]; cbn [map fold_right fst snd]; [lra|]. specialize (IH (fun m c K => Hq m c (or_intror K))).
        destruct (Hq m c (or_introl eq_refl)) as (q1 & _ & _ & _ & q5 & _). assert (0 <= INR c * (Y m / INR (degree ns m))); [|lra]. apply Rmult_le_pos; [apply pos_INR|]. apply Rmult_le_pos; [exact q5|]. apply Rlt_le, Rinv_0_lt_compat. apply (lt_INR 0). lia. }
      pose proof l15_val as (_ & _ & L). assert (P60 : bpow radix2 (-60) <= bpow radix2 (-10)) by (apply b_ge; lia). change (bpow radix2 (-10)) with (/ 1024) in P60.
      split; [exact V1|]. split; [split; [apply Rle_trans with (2 := proj1 V2); lra|apply V2]|]. split; [exact Xpos|]. rewrite <- XV in VR.
      apply (@cl_le (TT ns (S x) w - cost ns w + length (nbs ns l w) + 5)); [|exact Xpos|exact VR].
      pose proof (@len_sum (nbs ns l w) (fun m c K => proj1 (nbs_in Hc K))) as Hls. rewrite (nbs_sum w Hc) in Hls. unfold cost. cbn [TT]. unfold cost in *. lia.
  Qed.
  Lemma quot_pos : forall a b : b64, ok a -> ok b -> 1 / 16 <= val a <= 2 ^ 49 -> 1 / 256 <= Rabs (val b) <= 2 ^ 49 -> val (div64 ieee a b) = rnd64 (val a / val b).
  Proof.
    intros a b Ha Hb Ba Bb. assert (P : 2 ^ 60 = 2 ^ 49 * 2048) by (replace 2048 with (2 ^ 11) by lra; rewrite <- pow_add; reflexivity). assert (B0 : val b <> 0) by (intro K; rewrite K, Rabs_R0 in Bb; lra). assert (P9 : 0 < 2 ^ 49) by (apply pow_lt; lra).
    apply (@div_val a b Ha B0). unfold Rdiv. rewrite Rabs_mult, Rabs_inv, (Rabs_pos_eq (val a)) by lra. apply Rmult_le_reg_r with (Rabs (val b)); [lra|]. rewrite Rmult_assoc, Rinv_l by lra. apply Rle_trans with (2 ^ 60 * (1 / 256)); [lra|]. apply Rmult_le_compat_l; lra.
  Qed.
  Lemma weight_order : forall lo hi w w', range lo -> range w -> range w' -> val lo <= val w -> val lo <= val w' ->
    (range hi /\ val lo <= val hi -> val (weight lo hi w') <= val (weight lo hi w) -> val w' <= val w * (1 + 8 * u64)) /\
    (hi = lit_64 1 (-1074) -> val (weight lo hi w') <= val (weight lo hi w) -> val w <= val w' * (1 + 8 * u64)).
  Proof.
    intros lo hi w w' Hlo Hw Hw' L L'. destruct (num_ok Hlo Hw L) as (A1 & A2 & A3). destruct (num_ok Hlo Hw' L') as (B1 & B2 & B3). destruct (low_ok Hlo) as (_ & Lw). pose proof l15_val as (_ & _ & L15). pose proof u_le as U.
    assert (Ra : forall z, range z -> val lo <= val z -> 1 / 16 <= val z - val (low_of lo) <= 2 ^ 49) by (intros z (Z1 & Z2 & Z3) Z4; destruct Hlo as (_ & Y2 & _); split; lra).
    assert (Fin : forall z z', range z -> range z' -> val z' - val (low_of lo) <= (val z - val (low_of lo)) * (1 + 8 * u64) -> val z' <= val z * (1 + 8 * u64)).
    { intros z z' _ _ K. assert (0 <= val (low_of lo) * (8 * u64)) by (apply Rmult_le_pos; lra). lra. }
    unfold weight. split.
    - intros [Hhi Lh] K. destruct (num_ok Hlo Hhi Lh) as (D1 & D2 & D3). apply Fin; [exact Hw|exact Hw'|]. rewrite !quot_pos in K; try assumption; try (rewrite Rabs_pos_eq; lra). rewrite A2, B2 in K. apply (@near_quot _ _ (val (sub64 ieee hi (low_of lo)))); [apply Ra; assumption|apply Ra; assumption|lra|exact K].
    - intros -> K. destruct (den_neg Hlo) as (D1 & D3). apply Fin; [exact Hw'|exact Hw|]. rewrite !quot_pos in K; try assumption; try (rewrite Rabs_left1; lra). rewrite A2, B2 in K. set (b := val (sub64 ieee (lit_64 1 (-1074)) (low_of lo))) in *.
      assert (Op : forall z, rnd64 (z / b) = - rnd64 (z / - b)). { intro z. rewrite <- round_NE_opp. f_equal. field. lra. }
      rewrite !Op in K. apply (@near_quot _ _ (- b)); [apply Ra; assumption|apply Ra; assumption|lra|lra].
  Qed.
  Lemma above_val : forall (t u : wseg E), ok (snd t) -> ok (snd u) -> above t u -> val (snd u) <= val (snd t).
  Proof.
    intros t u Ht Hu [K|[K _]]; [apply (ltb_true Hu Ht) in K; lra|]. change (Beqb (snd u : b64) (snd t : b64) = true) in K. rewrite Beqb_correct in K by assumption. destruct (Req_bool_spec (val (snd u)) (val (snd t))); [lra|discriminate K].
  Qed.
  Lemma exact_near : forall ns X n T (a b : R) w w', exact_scores ns X -> (1 <= n)%nat -> INR n <= 2 ^ 40 -> 0 <= X 10%nat w -> 0 <= X 10%nat w' -> (T <= 1 + 480 * n)%nat -> cl T a (X 10%nat w) -> cl T b (X 10%nat w') -> b <= a * (1 + 8 * u64) -> X 10%nat w' <= X 10%nat w * (1 + INR n / 2 ^ 42).
  Proof.
    intros ns X n T a b w w' _ Hn Hn2 Hx Hx' HT [_ Ca] [Cb _] H. pose proof u_le as U. pose proof (pos_INR n) as Pn. assert (E489 : INR (489 * n) = 489 * INR n) by (rewrite mult_INR; f_equal; rewrite INR_IZR_INZ; reflexivity).
    apply Rle_trans with (X 10%nat w * (1 + 4 * (INR (489 * n) * u64))).
    - apply (@ratio u64 (489 * n) T (8 + T)); [lra|rewrite E489; change u64 with (/ 9007199254740992); lra|lia|lia|exact Hx'|exact Hx|]. apply Rle_trans with (1 := Cb). apply Rle_trans with (1 := H). rewrite pow_add, (Rmult_comm a), Rmult_assoc.
      assert (P8 : 1 + 8 * u64 <= (1 + u64) ^ 8) by (change u64 with (/ 9007199254740992); lra). pose proof (pu_pos T). assert (0 <= (1 + u64) ^ T * X 10%nat w) by (apply Rmult_le_pos; lra).
      apply Rle_trans with ((1 + 8 * u64) * ((1 + u64) ^ T * X 10%nat w)); [apply Rmult_le_compat_l; lra|apply Rmult_le_compat_r; lra].
    - apply Rmult_le_compat_l; [exact Hx|]. rewrite E489. change u64 with (/ 9007199254740992). lra.
  Qed.
  Lemma c108 : forall srt oc o1 o2 (d : dict E) tb od text topK allow ps X,
    sorts srt -> (forall m, Permutation m (oc m)) -> same_keys_in_any_order o1 -> same_keys_in_any_order o2 ->
    pos_cut d tb od text true = Ok ps -> (Z.of_nat (length ps) <= 2 ^ 40)%Z -> exact_scores (nears allow ps) X ->
    let near a b := X 10%nat b <= X 10%nat a * (1 + INR (length ps) / 2 ^ 42) in
    exists all, text_rank_pos srt oc o1 o2 d tb od text topK allow = Ok (if (0 <? topK)%Z then firstn (Z.to_nat topK) all else all) /\
      NoDup (map fst all) /\ (forall w, In w (map fst all) <-> ranked allow ps w) /\
      ((forall t, In t all -> ltb64 E (lit64 E 0 0) (snd t) = true) /\ StronglySorted near (map fst all) \/
       (forall t, In t all -> ltb64 E (snd t) (lit64 E 0 0) = true) /\ StronglySorted (fun a b => near b a) (map fst all)).
  Proof.
    intros srt oc o1 o2 d tb od text topK allow ps X Hs Hoc Ho1 Ho2 Hps Hb HX near. assert (Hb' : (Z.of_nat (length ps) <= 2 ^ 45)%Z) by lia.
    destruct (rank_ok (srt := srt) (oc := oc) (o1 := o1) (o2 := o2) allow Hs Hoc Ho1 Ho2 Hb') as (sc & lo & hi & ws & _ & Hw & _ & Hr & Hrange & _). cbv zeta in Hr.
    eexists. split; [unfold text_rank_pos; rewrite Hps; cbn [bind]; f_equal; apply cut_top|]. match type of Hr with ranking _ ?l _ _ _ _ ?a => set (all := a) in *; clearbody all; set (ll := l) in *; clearbody ll end.
    pose proof Hr as (Hc & Hsc & Hperm & Hle & Hla & Hp & Hsort & _). split; [|split].
    { eapply Permutation_NoDup; [exact Hp|]. apply NoDup_nodup. }
    { intro w. rewrite ranked_in. unfold words in Hp. rewrite <- (nodup_In (list_eq_dec Byte.byte_eq_dec) (members (nears allow ps)) w). split; apply Permutation_in; [symmetry|]; exact Hp. }
    assert (SS : forall R : bytes -> bytes -> Prop, (forall t u, In t all -> In u all -> above t u -> R (fst t) (fst u)) -> StronglySorted R (map fst all)).
    { intros R. apply ss_map. exact Hsort. }
    destruct all as [|t0 all0]; [left; split; [intros t []|constructor]|]. set (all := t0 :: all0) in *. assert (Ht0 : In t0 all) by (left; reflexivity). clearbody all.
    destruct (ranking_range Hr Hrange Ht0) as (Vne & _ & _). specialize (Hle Vne). destruct (late_range Hrange Vne Hle Hla) as (Hlo & Alt).
    assert (Mem : forall t, In t all -> In (fst t) (members (nears allow ps))). { intros t Ht. apply in_words. eapply Permutation_in; [symmetry; exact Hp|]. apply in_map, Ht. }
    assert (Hns : (2 * length (nears allow ps) <= 8 * length ps)%nat) by (pose proof (nears_len allow ps); lia).
    assert (HB : (Z.of_nat (2 * length (nears allow ps)) <= 2 ^ 48)%Z) by lia.
    assert (Hn : (1 <= length ps)%nat). { pose proof (Mem t0 Ht0) as K. destruct (length ps) eqn:El; [|lia]. pose proof (members_len (nears allow ps)) as M. destruct (members (nears allow ps)); [destruct K|cbn [length] in M; lia]. }
    assert (Hn2 : INR (length ps) <= 2 ^ 40). { rewrite INR_IZR_INZ, (pow_IZR 2 40). apply IZR_le. exact Hb. }
    assert (F : forall t, In t all -> let s := sc 10%nat (fst t) in snd t = weight lo hi s /\ range s /\ val lo <= val s /\ 0 <= X 10%nat (fst t) /\ cl (1 + 480 * length ps) (val s) (X 10%nat (fst t))).
    { intros t Ht s. destruct (ranking_range Hr Hrange Ht) as (_ & T2 & T3). rewrite Forall_forall in Hrange. pose proof (Hrange _ T2) as Rt. destruct Hle as [_ L2]. pose proof (L2 _ T2) as Lt. apply (ltb_false (proj1 Rt) (proj1 Hlo)) in Lt.
      destruct (scores_rel (l := ll) (sc := sc) (X := X) HB Hc Hsc HX 10 (Mem t Ht)) as (_ & _ & S3 & S4). split; [exact T3|]. split; [exact Rt|]. split; [exact Lt|]. split; [exact S3|].
      apply (@cl_le (TT (nears allow ps) 10 (fst t))); [|exact S3|exact S4]. pose proof (TT_bound 10 (Mem t Ht)). pose proof (costs_le (nears allow ps)). lia. }
    destruct (@lit_int 0) as (Z1 & Z2 & _); [lia|]. destruct Alt as [[Hhi Hlh]|[_ Hhi]]; [left|right]; split.
    - intros t Ht. destruct (F t Ht) as (F1 & F2 & F3 & _). destruct (weight_pos Hlo Hhi F2 Hlh F3) as (W1 & W2 & _). rewrite F1. apply (ltb_true Z2 W1). rewrite Z1. exact W2.
    - apply SS. intros t u Ht Hu Hab. destruct (F t Ht) as (F1 & F2 & F3 & F4 & F5). destruct (F u Hu) as (G1 & G2 & G3 & G4 & G5). destruct (weight_pos Hlo Hhi F2 Hlh F3) as (W1 & _). destruct (weight_pos Hlo Hhi G2 Hlh G3) as (V1 & _).
      rewrite <- F1 in W1. rewrite <- G1 in V1. pose proof (above_val W1 V1 Hab) as K. rewrite F1, G1 in K. pose proof (proj1 (weight_order hi Hlo F2 G2 F3 G3) (conj Hhi Hlh) K) as N.
      exact (@exact_near _ X (length ps) (1 + 480 * length ps) _ _ (fst t) (fst u) HX Hn Hn2 F4 G4 (le_n _) F5 G5 N).
    - intros t Ht. destruct (F t Ht) as (F1 & F2 & F3 & _). destruct (weight_neg Hlo F2 F3) as (W1 & W2 & _). rewrite F1, Hhi. apply (ltb_true W1 Z2). rewrite Z1. exact W2.
    - apply SS. intros t u Ht Hu Hab. destruct (F t Ht) as (F1 & F2 & F3 & F4 & F5). destruct (F u Hu) as (G1 & G2 & G3 & G4 & G5). destruct (weight_neg Hlo F2 F3) as (W1 & _). destruct (weight_neg Hlo G2 G3) as (V1 & _). rewrite <- Hhi in W1, V1.
      rewrite <- F1 in W1. rewrite <- G1 in V1. pose proof (above_val W1 V1 Hab) as K. rewrite F1, G1 in K. pose proof (proj2 (weight_order hi Hlo F2 G2 F3 G3) Hhi K) as N.
      exact (@exact_near _ X (length ps) (1 + 480 * length ps) _ _ (fst u) (fst t) HX Hn Hn2 G4 F4 (le_n _) G5 F5 N).
  Qed.
End Fl.
