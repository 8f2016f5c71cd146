(** ExtractTags ranks nearly by exact weights (C107). *)
From Verif Require Import S_Near5 Ieee P_Ieee P_Sum P_Near2 P_Near5 P_Idf P_Idf2.
From Coq Require Import ZArith Reals Lra Lia List.
From Flocq Require Import Core Relative IEEE754.BinarySingleNaN.
Import ListNotations.
Set Implicit Arguments. Unset Strict Implicit.

Local Open Scope R_scope.
Notation rnd64 := (round radix2 (SpecFloat.fexp 53 1024) ZnearestE).
Lemma rnd64_rel : forall x, x = 0 \/ bpow radix2 (-1000) <= x <= bpow radix2 1000 -> (1 - u64) * x <= rnd64 x <= (1 + u64) * x /\ Rabs (rnd64 x) < bpow radix2 1024.
Proof.
  intros x Hx. assert (V : Valid_exp (SpecFloat.fexp 53 1024)) by exact (fexp_correct 53 1024 prec64).
  destruct Hx as [-> |Hx]; [rewrite round_0 by apply valid_rnd_N; rewrite Rabs_R0; split; [lra|apply bpow_gt_0]|]. assert (P : 0 < bpow radix2 (-1000)) by apply bpow_gt_0.
  split.
  - change (SpecFloat.fexp 53 1024) with (FLT_exp (-1074) 53). destruct (@relative_error_N_FLT_ex radix2 (-1074) 53 prec64 (fun x => negb (Z.even x)) x) as (e & E1 & E2).
    { rewrite Rabs_pos_eq by lra. apply Rle_trans with (2 := proj1 Hx). apply bpow_le. lia. }
    rewrite E2. assert (U : / 2 * bpow radix2 (- (53) + 1) = u64) by (change (bpow radix2 (- (53) + 1)) with (/ 4503599627370496); change u64 with (/ 9007199254740992); lra). rewrite U in E1. apply Rabs_le_inv in E1.
    rewrite !(Rmult_comm _ x). split; apply Rmult_le_compat_l; lra.
  - apply Rle_lt_trans with (bpow radix2 1000); [|apply bpow_lt; lia]. apply abs_round_le_generic; [exact V|apply valid_rnd_N|apply generic_format_bpow; unfold SpecFloat.fexp, SpecFloat.emin; lia|]. rewrite Rabs_pos_eq by lra. apply Hx.
Qed.
Lemma weight_rel : forall (x : b64) n N, is_finite x = true -> (B2R x = 0 \/ bpow radix2 (-900) <= B2R x <= bpow radix2 900) -> (1 <= n <= N)%Z -> (N <= 2 ^ 53)%Z ->
  let v := @Bmult 53 1024 prec64 max64 mode_NE x (@Bdiv 53 1024 prec64 max64 mode_NE (lit_64 n 0) (lit_64 N 0)) in
  is_finite v = true /\ (1 - u64) ^ 2 * (B2R x * IZR n / IZR N) <= B2R v <= (1 + u64) ^ 2 * (B2R x * IZR n / IZR N).
Proof.
  intros x n N Fx Hx Hn HN v. destruct (@lit_int n) as (A1 & A2 & _); [lia|]. destruct (@lit_int N) as (B1 & B2 & _); [lia|]. pose proof u64_range as Hu.
  assert (N1 : 1 <= IZR N <= bpow radix2 53) by (split; [apply IZR_le; lia|change (bpow radix2 53) with (IZR (2 ^ 53)); apply IZR_le; lia]). assert (n1 : 1 <= IZR n <= IZR N) by (split; apply IZR_le; lia).
  assert (Q : bpow radix2 (-53) <= IZR n / IZR N <= 1).
  { split.
    - apply Rle_trans with (1 * / IZR N); [|apply Rmult_le_compat_r; [apply Rlt_le, Rinv_0_lt_compat; lra|lra]]. rewrite Rmult_1_l. change (-53)%Z with (- (53))%Z. rewrite bpow_opp. apply Rinv_le; lra.
    - apply (Rmult_le_reg_r (IZR N)); [lra|]. unfold Rdiv. rewrite Rmult_assoc, Rinv_l by lra. lra. }
  set (q := IZR n / IZR N) in *. pose proof (Bdiv_correct 53 1024 prec64 max64 mode_NE (lit_64 n 0) (lit_64 N 0)) as D. rewrite A1, B1 in D. specialize (D ltac:(lra)). change (round_mode mode_NE) with ZnearestE in D.
  assert (Hq : q = 0 \/ bpow radix2 (-1000) <= q <= bpow radix2 1000).
  { right. split; [apply Rle_trans with (bpow radix2 (-53)); [apply bpow_le; lia|lra]|]. apply Rle_trans with (bpow radix2 0); [apply Q|apply bpow_le; lia]. }
  fold q in D. destruct (rnd64_rel Hq) as [R1 R2]. rewrite Rlt_bool_true in D by exact R2. destruct D as (D1 & D2 & _). rewrite A2 in D2.
  unfold v. set (z := @Bdiv 53 1024 prec64 max64 mode_NE (lit_64 n 0) (lit_64 N 0)) in *. clearbody z. rewrite <- D1 in R1. clear v.
  assert (P53 : 0 < bpow radix2 (-53)) by apply bpow_gt_0. assert (Hz : bpow radix2 (-54) <= B2R z <= 2).
  { assert (E54 : bpow radix2 (-53) = 2 * bpow radix2 (-54)) by (change (-53)%Z with (1 + -54)%Z; rewrite bpow_plus; reflexivity). assert (Hu2 : u64 <= / 2) by (change u64 with (/ 9007199254740992); lra). split.
    - apply Rle_trans with (2 := proj1 R1). apply Rle_trans with (/ 2 * q); [lra|apply Rmult_le_compat_r; lra].
    - apply Rle_trans with (1 := proj2 R1). apply Rle_trans with (2 * q); [apply Rmult_le_compat_r; lra|lra]. }
  assert (Hm : B2R x * B2R z = 0 \/ bpow radix2 (-1000) <= B2R x * B2R z <= bpow radix2 1000).
  { destruct Hx as [-> |Hx]; [left; ring|right]. assert (0 < bpow radix2 (-900)) by apply bpow_gt_0. assert (0 < bpow radix2 (-54)) by apply bpow_gt_0. split.
    - apply Rle_trans with (bpow radix2 (-900) * bpow radix2 (-54)); [rewrite <- bpow_plus; apply bpow_le; lia|apply Rmult_le_compat; lra].
    - apply Rle_trans with (bpow radix2 900 * bpow radix2 1); [apply Rmult_le_compat; try lra; change (bpow radix2 1) with 2; lra|rewrite <- bpow_plus; apply bpow_le; lia]. }
  pose proof (Bmult_correct 53 1024 prec64 max64 mode_NE x z) as M. change (round_mode mode_NE) with ZnearestE in M. destruct (rnd64_rel Hm) as [S1 S2]. rewrite Rlt_bool_true in M by exact S2.
  destruct M as (M1 & M2 & _). rewrite Fx, D2 in M2. split; [exact M2|]. rewrite M1. assert (X0 : 0 <= B2R x) by (destruct Hx as [-> |Hx]; [lra|]; pose proof (bpow_ge_0 radix2 (-900)); lra).
  replace (B2R x * IZR n / IZR N) with (B2R x * q) by (unfold q; field; lra). set (a := B2R x) in *. set (b := B2R z) in *. set (r := rnd64 (a * b)) in *. clearbody a b r. set (u := u64) in *. clearbody u.
  assert (T1 : a * ((1 - u) * q) <= a * b) by (apply Rmult_le_compat_l; lra). assert (T2 : a * b <= a * ((1 + u) * q)) by (apply Rmult_le_compat_l; lra).
  assert (T3 : (1 - u) * (a * ((1 - u) * q)) <= (1 - u) * (a * b)) by (apply Rmult_le_compat_l; lra). assert (T4 : (1 + u) * (a * b) <= (1 + u) * (a * ((1 + u) * q))) by (apply Rmult_le_compat_l; lra).
  cbn [pow]. split; [apply Rle_trans with (2 := proj1 S1); lra|apply Rle_trans with (1 := proj2 S1); lra].
Qed.
Lemma near_above : forall A (H : A = ieee) (x y : f64 A) a b n m N, real64 H x = Some a -> real64 H y = Some b -> a = 0 \/ / 2 ^ 900 <= a <= 2 ^ 900 -> b = 0 \/ / 2 ^ 900 <= b <= 2 ^ 900 ->
  (1 <= n <= N)%Z -> (1 <= m <= N)%Z -> (N <= 2 ^ 53)%Z ->
  let wa := mul64 A x (div64 A (lit64 A n 0) (lit64 A N 0)) in let wb := mul64 A y (div64 A (lit64 A m 0) (lit64 A N 0)) in
  ltb64 A wb wa = true \/ eqb64 A wb wa = true -> b * IZR m / IZR N <= a * IZR n / IZR N * (1 + / 2 ^ 50).
Proof.
  intros A H. subst A. intros x y a b n m N Hx Hy Ha Hb Hn Hm HN wa wb K. unfold real64 in *. cbn [eq_rect] in *. destruct (is_finite x) eqn:Fx; [|discriminate Hx]. injection Hx as <-. destruct (is_finite y) eqn:Fy; [|discriminate Hy]. injection Hy as <-.
  assert (E9 : bpow radix2 900 = 2 ^ 900) by (rewrite bpow_powerRZ; reflexivity). assert (E9' : bpow radix2 (-900) = / 2 ^ 900) by (change (-900)%Z with (- (900))%Z; rewrite bpow_opp, E9; reflexivity). rewrite <- E9, <- E9' in *.
  destruct (weight_rel Fx Ha Hn HN) as [Wa Ra]. destruct (weight_rel Fy Hb Hm HN) as [Wb Rb]. cbn [mul64 div64 lit64 ltb64 eqb64 ieee] in *. fold wa in Wa, Ra. fold wb in Wb, Rb.
  assert (L : B2R wb <= B2R wa).
  { destruct K as [K|K]; [rewrite Bltb_correct in K by assumption; destruct (Rlt_bool_spec (B2R wb) (B2R wa)); [lra|discriminate K]|rewrite Beqb_correct in K by assumption; destruct (Req_bool_spec (B2R wb) (B2R wa)); [lra|discriminate K]]. }
  assert (P9 : 0 < bpow radix2 (-900)) by apply bpow_gt_0. assert (N1 : 1 <= IZR N) by (apply IZR_le; lia). assert (n1 : 1 <= IZR n) by (apply IZR_le; lia). assert (m1 : 1 <= IZR m) by (apply IZR_le; lia).
  assert (I : 0 <= / IZR N) by (apply Rlt_le, Rinv_0_lt_compat; lra). pose proof u64_range as Hu.
  replace (/ 2 ^ 50) with (4 * (INR 2 * u64)) by (change u64 with (/ 9007199254740992); cbn [INR]; lra).
  apply (@ratio u64 2 2 2); [lra|change u64 with (/ 9007199254740992); cbn [INR]; lra|lia|lia| | |lra]; unfold Rdiv; repeat apply Rmult_le_pos; lra.
Qed.
Lemma real_num : forall A (H : A = ieee) (x : f64 A) a, real64 H x = Some a -> num64 x.
Proof.
  intros A H. subst A. intros x a Hx. unfold real64 in Hx. cbn [eq_rect] in Hx. destruct (is_finite x) eqn:F; [|discriminate Hx]. unfold num64. cbn [eqb64 ieee]. rewrite Beqb_correct by assumption. apply Req_bool_true. reflexivity.
Qed.
Lemma tag_near : forall (E : env) (H : ar E = ieee) (i : idf E) k a b ra rb, sane_idf H i k -> (Z.of_nat (length k) <= 2 ^ 53)%Z -> In (fst a) k -> In (fst b) k -> tag_is i k a -> tag_is i k b -> above a b ->
  exact_weight H i k (fst a) ra -> exact_weight H i k (fst b) rb -> rb <= ra * (1 + / 2 ^ 50).
Proof.
  intros E H i k a b ra rb Hs HN Ia Ib (xa & Xa & Wa) (xb & Xb & Wb) Hab (ya & va & Ya & Va & ->) (yb & vb & Yb & Vb & ->).
  assert (U : forall w x y, idf_is i w x -> idf_is i w y -> x = y). { intros w x y (d1 & f1 & p1 & b1 & P1 & P2 & P3) (d2 & f2 & p2 & b2 & Q1 & Q2 & Q3). assert (d2 = d1) as -> by congruence. rewrite P2 in Q2. injection Q2 as -> -> ->. congruence. }
  assert (ya = xa) by (eapply U; eassumption). assert (yb = xb) by (eapply U; eassumption). subst ya yb.
  destruct (Hs _ _ Ia Xa) as (va' & Va' & Ra). destruct (Hs _ _ Ib Xb) as (vb' & Vb' & Rb). assert (va' = va) by congruence. assert (vb' = vb) by congruence. subst va' vb'.
  pose proof (tally_in Ia) as T1. pose proof (tally_le (fst a) k) as T2. pose proof (tally_in Ib) as T3. pose proof (tally_le (fst b) k) as T4.
  rewrite !INR_IZR_INZ. apply (@near_above (ar E) H xa xb va vb); auto; try lia. rewrite <- Wa, <- Wb. destruct Hab as [K|[K _]]; auto.
Qed.
Lemma weight_val : forall (E : env) (H : ar E = ieee) (i : idf E) k t, sane_idf H i k -> (Z.of_nat (length k) <= 2 ^ 53)%Z -> In (fst t) k -> tag_is i k t ->
  exists v r, real64 H (snd t) = Some v /\ exact_weight H i k (fst t) r /\ Rabs (v - r) <= r / 2 ^ 51.
Proof.
  intros E H i k [w y] Hs HN Iw (x & Hx & Hv). cbn [fst snd] in *. destruct (Hs _ _ Iw Hx) as (a & Ha & Ra). pose proof (tally_in Iw) as T1. pose proof (tally_le w k) as T2.
  assert (G : exists v, real64 H y = Some v /\ Rabs (v - a * INR (tally w k) / INR (length k)) <= a * INR (tally w k) / INR (length k) / 2 ^ 51); [|destruct G as (v & G1 & G2); exists v, (a * INR (tally w k) / INR (length k)); repeat split; auto; exists x, a; auto].
  rewrite Hv, !INR_IZR_INZ. set (n := Z.of_nat (tally w k)) in *. set (N := Z.of_nat (length k)) in *. assert (Hn : (1 <= n <= N)%Z) by lia. clearbody n N. clear Hx Hv Hs. revert x Ha y. generalize dependent (ar E). intros A H. subst A. intros x Ha _.
  unfold real64 in *. cbn [eq_rect mul64 div64 lit64 ieee] in *. destruct (is_finite x) eqn:Fx; [|discriminate Ha]. injection Ha as <-.
  assert (E9 : bpow radix2 900 = 2 ^ 900) by (rewrite bpow_powerRZ; reflexivity). assert (E9' : bpow radix2 (-900) = / 2 ^ 900) by (change (-900)%Z with (- (900))%Z; rewrite bpow_opp, E9; reflexivity). rewrite <- E9', <- E9 in Ra.
  destruct (weight_rel Fx Ra Hn HN) as [Wa Rr]. rewrite Wa. eexists. split; [reflexivity|].
  assert (P9 : 0 < bpow radix2 (-900)) by apply bpow_gt_0. assert (N1 : 1 <= IZR N) by (apply IZR_le; lia). assert (n1 : 1 <= IZR n) by (apply IZR_le; lia). assert (I : 0 <= / IZR N) by (apply Rlt_le, Rinv_0_lt_compat; lra).
  assert (R0 : 0 <= B2R x * IZR n / IZR N) by (unfold Rdiv; repeat apply Rmult_le_pos; lra). set (r := B2R x * IZR n / IZR N) in *. clearbody r. apply Rabs_le. change u64 with (/ 9007199254740992) in Rr. cbn [pow] in *. lra.
Qed.
Lemma filter_len : forall A (f : A -> bool) l, (length (filter f l) <= length l)%nat.
Proof. intros A f. induction l as [|x l IH]; [reflexivity|]. cbn [filter length]. destruct (f x); cbn [length]; lia. Qed.
Lemma c107 : forall (E : env) (H : ar E = ieee) c0 (di : dict E) (i : idf E) srt o1 o2 d c em l text topK ws,
  reachable c0 di -> s_dict (i_seg i) = Some di -> sorts srt -> same_keys_in_any_order o1 -> same_keys_in_any_order o2 ->
  cut d c em text (Some true) = Ok ws -> (Z.of_nat (length ws) <= 2 ^ 53)%Z -> (0 <= topK)%Z ->
  let k := S_Idf.kept E l ws in let near a b := forall ra rb, exact_weight H i k a ra -> exact_weight H i k b rb -> rb <= ra * (1 + / 2 ^ 50) in
  sane_idf H i k ->
  exists out, extract_tags srt o1 o2 d c em (Some l) (Some i) text topK = Ok out /\
    (forall t, In t out -> exists v r, real64 H (snd t) = Some v /\ exact_weight H i k (fst t) r /\ Rabs (v - r) <= r / 2 ^ 51) /\
    StronglySorted near (map fst out) /\ forall w a, In w k -> ~ In w (map fst out) -> In a (map fst out) -> near a w.
Proof.
  intros E H c0 di i srt o1 o2 d c em l text topK ws Hr Hi Hs H1 H2 Hc Hb HK k near Hi2. destruct (extract_ok H Hr Hi l Hs H1 H2 Hc Hb HK) as (out & O1 & O2 & O3 & O4 & O5). fold k in O3, O4, O5. exists out. split; [exact O1|].
  assert (Hk : (Z.of_nat (length k) <= 2 ^ 53)%Z) by (unfold k, S_Idf.kept; pose proof (filter_len (fun w => (2 <=? length (runes_of w))%nat && negb (in_list w l)) (map (trim_space E) ws)) as Q; rewrite map_length in Q; lia).
  destruct O5 as [S1 S2]. { intros t x It Hx. destruct (Hi2 _ _ It Hx) as (a & Ha & _). exact (real_num Ha). }
  split; [|split].
  - intros t It. destruct (O4 t It) as [I1 I2]. exact (weight_val Hi2 Hk I1 I2).
  - clear O1 O2 O3 S2. induction S1 as [|a out S1 IH F]; [constructor|]. cbn [map]. constructor; [apply IH; intros t It; apply O4; right; exact It|]. rewrite Forall_forall in *. intros w Hw. apply in_map_iff in Hw. destruct Hw as (b & <- & Ib).
    destruct (O4 a (or_introl eq_refl)) as [A1 A2]. destruct (O4 b (or_intror Ib)) as [B1 B2]. intros ra rb. exact (tag_near Hi2 Hk A1 B1 A2 B2 (F _ Ib)).
  - intros w a Iw Hn Ia ra rb Ha Hw. apply in_map_iff in Ia. destruct Ia as (ta & <- & Ia). destruct (O4 ta Ia) as [A1 A2]. pose proof Hw as (x & v & Hx & _ & _).
    set (t := (w, mul64 E x (div64 E (lit64 E (Z.of_nat (tally w k)) 0) (lit64 E (Z.of_nat (length k)) 0)))). assert (Ht : tag_is i k t) by (exists x; split; [exact Hx|reflexivity]).
    assert (Hn' : ~ In t out) by (intros K; apply Hn; apply in_map_iff; exists t; split; [reflexivity|exact K]). exact (@tag_near E H i k ta t ra rb Hi2 Hk A1 Iw A2 Ht (S2 t Iw Ht Hn' ta Ia) Ha Hw).
Qed.
