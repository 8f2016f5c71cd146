(** Proofs about the built-in emission tables. *)
From Verif Require Import S_Pos P_Pos3 P_Hmm P_Laws64 P_Pos2 P_PosTab P_Rank2 Ieee P_Ieee.
From Verif Require Export P_EmitTab S_Emit M_Emit.
From Coq Require Import MSets.MSetPositive Reals Lra Lia.
From Flocq Require Import Core IEEE754.BinarySingleNaN.
Set Implicit Arguments. Unset Strict Implicit.
Local Open Scope Z_scope.

Lemma hex_ok_chars : forall h r, hex_ok h = true -> (In r (hex_chars 24 h []) <-> in_hex h r).
Proof.
  intros h r H. unfold hex_ok in H. apply andb_prop in H as [H1 H2]. apply Z.leb_le in H1. apply Z.ltb_lt in H2. rewrite hex_chars_acc.
  - split; [intros [H|[]]; exact H|auto].
  - split; [exact H1|]. change (16 * Z.of_nat 24) with 384. destruct (Z.eq_dec h 0) as [->|Hne]; [lia|]. apply Z.log2_lt_pow2; lia.
Qed.
Lemma chars_of_ok : forall hs r, forallb hex_ok hs = true -> (In r (chars_of hs) <-> exists h, In h hs /\ in_hex h r).
Proof.
  intros hs r H. rewrite forallb_forall in H. unfold chars_of. rewrite in_flat_map. split; intros (h & H1 & H2); exists h; split; auto; apply (hex_ok_chars r (H h H1)); exact H2.
Qed.
Lemma flat_once : forall A B (f : A -> list B) l a b r, NoDup (flat_map f l) -> In a l -> In b l -> In r (f a) -> In r (f b) -> a = b.
Proof.
  intros A B f. induction l as [|x l IH]; intros a b r Hn Ha Hb Hra Hrb; [destruct Ha|]. cbn [flat_map] in Hn. 
  assert (N : NoDup (flat_map f l)). { clear -Hn. induction (f x) as [|y t IHt]; [exact Hn|]. cbn [app] in Hn. inversion Hn; auto. }
  assert (D : forall y, In y (f x) -> ~ In y (flat_map f l)).
  { clear -Hn. induction (f x) as [|z t IHt]; intros y Hy; [destruct Hy|]. cbn [app] in Hn. inversion Hn as [|? ? H1 H2]; subst. destruct Hy as [->|Hy]; [|apply IHt; auto].
    intro H. apply H1, in_or_app. right. exact H. }
  destruct Ha as [->|Ha], Hb as [->|Hb].
  - reflexivity.
  - exfalso. apply (D r Hra). apply in_flat_map. exists b. auto.
  - exfalso. apply (D r Hrb). apply in_flat_map. exists a. auto.
  - eapply IH; eauto.
Qed.
Lemma find_listed : forall tab, rows_ok tab = true -> NoDup (chars tab) ->
  (forall r n, emit_find tab r = Some n <-> listed tab r n) /\ (forall r n, listed tab r n -> near_ok n = true).
Proof.
  intros tab Hr Hn. unfold rows_ok in Hr. rewrite forallb_forall in Hr.
  assert (Hc : forall n hs r, In (n, hs) tab -> (In r (chars_of hs) <-> exists h, In h hs /\ in_hex h r)).
  { intros n hs r Hin. specialize (Hr _ Hin). apply andb_prop in Hr as [_ Hr]. apply (chars_of_ok r Hr). }
  split.
  - intros r n. unfold emit_find. split.
    + destruct (find _ tab) as [[n' hs]|] eqn:Ef; [|discriminate]. intro H. injection H as <-. apply find_some in Ef as [F1 F2]. cbn [snd fst] in *.
      apply existsb_exists in F2 as (x & F2 & F3). apply Z.eqb_eq in F3. subst x. apply (Hc _ _ _ F1) in F2 as (h & G1 & G2). exists hs, h. auto.
    + intros (hs & h & H1 & H2 & H3). assert (K : In r (chars_of hs)) by (apply (Hc _ _ _ H1); eauto).
      destruct (find _ tab) as [[n' hs']|] eqn:Ef.
      * apply find_some in Ef as [F1 F2]. cbn [snd fst] in *. apply existsb_exists in F2 as (x & F2 & F3). apply Z.eqb_eq in F3. subst x.
        pose proof (@flat_once _ _ (fun row => chars_of (snd row)) tab (n, hs) (n', hs') r Hn H1 F1 K F2) as H. injection H as <- _. reflexivity.
      * exfalso. pose proof (find_none _ _ Ef _ H1) as F. cbn [snd] in F. assert (existsb (Z.eqb r) (chars_of hs) = true); [|congruence]. apply existsb_exists. exists r. split; [exact K|apply Z.eqb_refl].
  - intros r n (hs & h & H1 & _). specialize (Hr _ H1). apply andb_prop in Hr as [Hr _]. exact Hr.
Qed.
Lemma hmm_table_ok : forall y, rows_ok (hmm_table y) = true /\ NoDup (chars (hmm_table y)).
Proof.
  intro y. pose proof hmm_ok as H. rewrite forallb_forall in H. specialize (H y ltac:(destruct y; cbn; auto)). apply andb_prop in H as [H1 H2]. split; [exact H1|]. apply (distinct_ok H2).
Qed.
Lemma pos_table_ok : forall y, rows_ok (pos_table y) = true /\ NoDup (chars (pos_table y)).
Proof.
  intro y. unfold pos_table. destruct (assoc pos_emit_tab y) as [t|] eqn:Ea; [|split; [reflexivity|constructor]]. apply assoc_in in Ea. pose proof pos_ok as H. rewrite forallb_forall in H.
  specialize (H _ Ea). cbn [snd] in H. apply andb_prop in H as [H1 H2]. split; [exact H1|]. apply (distinct_ok H2).
Qed.
Lemma assoc_nodup : forall A (l : list (Z * A)) y t, NoDup (map fst l) -> In (y, t) l -> assoc l y = Some t.
Proof.
  intros A. induction l as [|[k u] l IH]; intros y t Hn Hi; [destruct Hi|]. cbn [map fst] in Hn. inversion Hn as [|? ? N1 N2]; subst. cbn [assoc find fst]. unfold assoc in *. cbn [find fst].
  destruct Hi as [Hi|Hi].
  - injection Hi as -> ->. rewrite Z.eqb_refl. reflexivity.
  - destruct (Z.eqb_spec k y) as [->|Hne]; [|apply IH; assumption]. exfalso. apply N1. apply in_map_iff. exists (y, t). auto.
Qed.
Lemma pos_listed_table : forall y r n, pos_listed y r n <-> listed (pos_table y) r n.
Proof.
  intros y r n. unfold pos_listed, pos_table. split.
  - intros (t & H1 & H2). rewrite (@assoc_nodup _ pos_emit_tab y t (proj1 (distinct_ok pos_keys_ok)) H1). exact H2.
  - destruct (assoc pos_emit_tab y) as [t|] eqn:Ea; [|intros (hs & h & [] & _)]. apply assoc_in in Ea. intro H. exists t. auto.
Qed.

(** ** Values *)
Lemma edges_ok : forall n, near_ok n = true -> 0 <= n <= 1734000000000000000 /\ forall b, In b edges -> n <= b - 100 \/ b <= n.
Proof.
  intros n H. unfold near_ok in H. apply andb_prop in H as [H H3]. apply andb_prop in H as [H1 H2]. apply Z.leb_le in H1, H2. split; [lia|].
  intros b Hb. apply orb_prop in H3 as [H3|H3].
  - apply Z.ltb_lt in H3. change 32767 with (Z.ones 15) in H3. rewrite Z.land_ones in H3 by lia. change (2 ^ 15) with 32768 in H3.
    pose proof (Z.div_mod n 32768 ltac:(lia)) as D. pose proof (Z.mod_pos_bound n 32768 ltac:(lia)) as D2. cbn [In edges] in Hb. lia.
  - rewrite forallb_forall in H3. specialize (H3 _ Hb). apply orb_prop in H3 as [H3|H3]; apply Z.leb_le in H3; auto.
Qed.
Lemma pow_le : forall a b, 0 <= a <= b -> 2 ^ a <= 2 ^ b.
Proof. intros. apply Z.pow_le_mono_r; lia. Qed.
(** The exponent chosen puts the significand between 2^52 and 2^53. *)
Lemma scale_ok : forall n, 0 < n <= 1734000000000000000 -> exists k, const_float n = (- ((2 * (n * 2 ^ k) + ten17) / (2 * ten17)), - k) /\
  48 <= k <= 109 /\ ten17 * 2 ^ 52 <= n * 2 ^ k < ten17 * 2 ^ 53.
Proof.
  intros n Hn. assert (Hl := Z.log2_spec n ltac:(lia)). set (l := Z.log2 n) in *.
  assert (Hl0 : 0 <= l) by apply Z.log2_nonneg. assert (Hl1 : l <= 60). { unfold l. change 60 with (Z.log2 1734000000000000000). apply Z.log2_le_mono. lia. }
  assert (P109 : 2 ^ l * 2 ^ (109 - l) = 2 ^ 109) by (rewrite <- Z.pow_add_r by lia; f_equal; lia).
  assert (P108 : 2 ^ (109 - l) = 2 * 2 ^ (108 - l)) by (replace (109 - l) with (Z.succ (108 - l)) by lia; apply Z.pow_succ_r; lia).
  assert (Pp : 0 < 2 ^ (108 - l)) by (apply Z.pow_pos_nonneg; lia).
  rewrite Z.pow_succ_r in Hl by lia. unfold const_float. fold l. destruct (Z.eqb_spec n 0) as [|_]; [lia|]. cbv zeta.
  rewrite !Z.shiftl_mul_pow2 with (n := 53) by lia. rewrite Z.shiftl_mul_pow2 with (n := 109 - l) by lia. change (2 ^ 109) with 649037107316853453566312041152512 in P109. change (2 ^ 53) with 9007199254740992. change (2 ^ 52) with 4503599627370496. unfold ten17.
  destruct (Z.ltb_spec (n * 2 ^ (109 - l)) (100000000000000000 * 9007199254740992)) as [Hc|Hc].
  - exists (109 - l). rewrite Z.shiftl_mul_pow2 by lia. replace (- (l - 109)) with (109 - l) by lia. replace (l - 109) with (- (109 - l)) by lia. split; [reflexivity|]. split; [lia|]. split; [|exact Hc]. nia.
  - exists (108 - l). rewrite Z.shiftl_mul_pow2 by lia. replace (- (l - 108)) with (108 - l) by lia. replace (l - 108) with (- (108 - l)) by lia. split; [reflexivity|]. split; [lia|]. rewrite P108 in *. split; nia.
Qed.
Lemma near_nearest : forall n, near_ok n = true -> 0 <= n <= 1734 * 10 ^ 15 /\
  (n = 0 /\ const_float n = (0, 0) \/ n <> 0 /\ nearest (- n) (fst (const_float n)) (snd (const_float n)) /\ - 2 ^ 53 < fst (const_float n) < 0 /\ -1000 < snd (const_float n) < 0 /\ - fst (const_float n) <= 32 * 2 ^ (- snd (const_float n))).
Proof.
  intros n H. apply edges_ok in H as [Hn He]. split; [change (1734 * 10 ^ 15) with 1734000000000000000; lia|].
  destruct (Z.eq_dec n 0) as [E0|E0]; [left; rewrite E0; split; reflexivity|right]. split; [exact E0|].
  destruct (@scale_ok n ltac:(lia)) as (k & Hc & Hk & Hx). rewrite Hc. cbn [fst snd]. rewrite !Z.opp_involutive.
  unfold ten17 in *. set (q := (2 * (n * 2 ^ k) + 100000000000000000) / (2 * 100000000000000000)) in *. change (2 ^ 53) with 9007199254740992 in *. change (2 ^ 52) with 4503599627370496 in *.
  assert (Hq : 2 * 100000000000000000 * q <= 2 * (n * 2 ^ k) + 100000000000000000 < 2 * 100000000000000000 * (q + 1)).
  { unfold q. pose proof (Z.div_mod (2 * (n * 2 ^ k) + 100000000000000000) (2 * 100000000000000000) ltac:(lia)) as D. pose proof (Z.mod_pos_bound (2 * (n * 2 ^ k) + 100000000000000000) (2 * 100000000000000000) ltac:(lia)) as D2. lia. }
  assert (Hhi : 2 * (n * 2 ^ k) + 100000000000000000 < 2 * 100000000000000000 * 9007199254740992).
  { destruct (Z_lt_le_dec k 56) as [Hk56|Hk56].
    - assert (Hks : k = 48 \/ k = 49 \/ k = 50 \/ k = 51 \/ k = 52 \/ k = 53 \/ k = 54 \/ k = 55) by lia.
      assert (G1 := He 1600000000000000000 ltac:(cbn [In edges]; lia)). assert (G2 := He 800000000000000000 ltac:(cbn [In edges]; lia)). assert (G3 := He 400000000000000000 ltac:(cbn [In edges]; lia)).
      assert (G4 := He 200000000000000000 ltac:(cbn [In edges]; lia)). assert (G5 := He 100000000000000000 ltac:(cbn [In edges]; lia)). assert (G6 := He 50000000000000000 ltac:(cbn [In edges]; lia)). assert (G7 := He 25000000000000000 ltac:(cbn [In edges]; lia)).
      clear Hc q Hq He. destruct Hks as [->|[->|[->|[->|[->|[->|[->| ->]]]]]]].
      + change (2 ^ 48) with 281474976710656 in *. lia.
      + change (2 ^ 49) with 562949953421312 in *. lia.
      + change (2 ^ 50) with 1125899906842624 in *. lia.
      + change (2 ^ 51) with 2251799813685248 in *. lia.
      + change (2 ^ 52) with 4503599627370496 in *. lia.
      + change (2 ^ 53) with 9007199254740992 in *. lia.
      + change (2 ^ 54) with 18014398509481984 in *. lia.
      + change (2 ^ 55) with 36028797018963968 in *. lia.
    - replace k with (56 + (k - 56)) in * by lia. rewrite Z.pow_add_r in * by lia. change (2 ^ 56) with 72057594037927936 in *. set (j := 2 ^ (k - 56)) in *. clear Hc q Hq He Hk56 Hk. clearbody j.
      set (u := n * j). replace (n * (72057594037927936 * j)) with (72057594037927936 * u) in * by (unfold u; ring). clearbody u. lia. }
  assert (P48 : 2 ^ 48 <= 2 ^ k) by (apply pow_le; lia). change (2 ^ 48) with 281474976710656 in P48.
  assert (Hq1 : 4503599627370496 <= q < 9007199254740992) by lia.
  assert (Hnk : n * 2 ^ k <= 1734000000000000000 * 2 ^ k) by (apply Z.mul_le_mono_nonneg_r; lia).
  split; [|split; [lia|split; [lia|lia]]]. split; [lia|]. exists 0. split; [lia|]. change (2 ^ 0) with 1. change (2 ^ 52) with 4503599627370496. change (2 ^ 53) with 9007199254740992. split; [lia|].
  change (10 ^ 17) with 100000000000000000. rewrite ?Z.opp_involutive. replace (- q * 100000000000000000 - - n * 2 ^ k) with (n * 2 ^ k - q * 100000000000000000) by ring. lia.
Qed.
Lemma neg_lit_val : forall m e, - 2 ^ 53 <= m <= 0 -> -1000 <= e <= 0 -> B2R (lit_64 m e) = (IZR m * bpow radix2 e)%R /\ is_finite (lit_64 m e) = true.
Proof.
  intros m e H He. pose proof (binary_normalize_correct 53 1024 prec64 max64 mode_NE m e false) as Hc. cbv zeta in Hc. fold (lit_64 m e) in Hc.
  change (F2R (Float radix2 m e)) with (IZR m * bpow radix2 e)%R in Hc. change (round_mode mode_NE) with ZnearestE in Hc.
  assert (Ho : (IZR m * bpow radix2 e = - (IZR (- m) * bpow radix2 e))%R) by (rewrite opp_IZR; ring).
  assert (F : fmt (IZR m * bpow radix2 e)) by (rewrite Ho; apply generic_format_opp, scaled_format; lia).
  rewrite round_generic in Hc by (try apply valid_rnd_N; exact F). rewrite Rlt_bool_true in Hc; [destruct Hc as (H1 & H2 & _); auto|].
  rewrite Ho, Rabs_Ropp, Rabs_pos_eq by (apply Rmult_le_pos; [apply (IZR_le 0); lia|apply bpow_ge_0]).
  apply Rle_lt_trans with (IZR (2 ^ 53) * bpow radix2 0)%R.
  - apply Rmult_le_compat; [apply (IZR_le 0); lia|apply bpow_ge_0|apply IZR_le; lia|apply bpow_le; lia].
  - change (IZR (2 ^ 53)) with (bpow radix2 53). rewrite <- bpow_plus. apply bpow_lt. lia.
Qed.
Lemma le_fin : forall x y : b64, is_finite x = true -> is_finite y = true -> (le64 (A := ieee) x y <-> (B2R x <= B2R y)%R).
Proof.
  intros x y Hx Hy. assert (Nx : is_nan x = false) by (destruct x; try discriminate; reflexivity). assert (Ny : is_nan y = false) by (destruct y; try discriminate; reflexivity).
  assert (N : forall z : b64, is_nan z = false -> num64 (A := ieee) z). { intros z Hz. unfold num64. cbn [eqb64 ieee]. rewrite (eqb_key Hz Hz). apply Req_bool_true. reflexivity. }
  unfold le64. cbn [ltb64 ieee]. rewrite (le_key Nx Ny), (proj1 (key_fin Hx)), (proj1 (key_fin Hy)). split; [intros (_ & _ & H); exact H|]. intro H. split; [apply N, Nx|]. split; [apply N, Ny|exact H].
Qed.
Lemma const_val : forall n, near_ok n = true -> let v := lit_64 (fst (const_float n)) (snd (const_float n)) in is_finite v = true /\ (-32 <= B2R v <= 0)%R.
Proof.
  intros n H v. destruct (near_nearest H) as (_ & [(-> & Hc)|(_ & _ & Hm & He & Hb)]).
  - unfold v. rewrite Hc. cbn. split; [reflexivity|lra].
  - destruct (@neg_lit_val (fst (const_float n)) (snd (const_float n))) as [V1 V2]; [lia|lia|]. split; [exact V2|]. fold v in V1. rewrite V1. set (m := fst (const_float n)) in *. set (e := snd (const_float n)) in *.
    assert (P : (0 < bpow radix2 e)%R) by apply bpow_gt_0. split.
    + assert (Q : (IZR (- m) <= IZR (32 * 2 ^ (- e)))%R) by (apply IZR_le; exact Hb). rewrite mult_IZR, opp_IZR in Q. change (2 ^ (- e)) with (Zpower radix2 (- e)) in Q. rewrite (@IZR_Zpower radix2 (- e)) in Q by lia.
      assert (Q2 : (bpow radix2 (- e) * bpow radix2 e = 1)%R) by (rewrite <- bpow_plus; replace (- e + e) with 0 by lia; reflexivity).
      assert (Q3 : (- IZR m * bpow radix2 e <= 32 * bpow radix2 (- e) * bpow radix2 e)%R) by (apply Rmult_le_compat_r; lra). rewrite Rmult_assoc, Q2 in Q3. lra.
    + assert (IZR m <= 0)%R by (apply (IZR_le _ 0); lia). nra.
Qed.
Lemma emit_find_ok : forall y r n, emit_find (hmm_table y) r = Some n -> near_ok n = true.
Proof. intros y r n H. destruct (hmm_table_ok y) as [H1 H2]. destruct (find_listed H1 H2) as [F1 F2]. apply F1 in H. exact (F2 _ _ H). Qed.
Lemma pos_find_ok : forall y r n, emit_find (pos_table y) r = Some n -> near_ok n = true.
Proof. intros y r n H. destruct (pos_table_ok y) as [H1 H2]. destruct (find_listed H1 H2) as [F1 F2]. apply F1 in H. exact (F2 _ _ H). Qed.
Lemma fin_iff : forall x : b64, is_finite x = true -> fin64 (A := ieee) x.
Proof.
  intros x H. unfold fin64. cbn [eqb64 sub64 lit64 ieee]. pose proof (Bminus_correct 53 1024 prec64 max64 mode_NE x x H H) as Hc. cbv zeta in Hc.
  rewrite Rminus_diag_eq, round_0 in Hc by (try apply valid_rnd_N; try reflexivity; typeclasses eauto).
  rewrite Rabs_R0, Rlt_bool_true in Hc by apply bpow_gt_0. destruct Hc as (Hc & Hf & _).
  assert (F0 : is_finite (lit_64 0 0) = true) by reflexivity. rewrite (Beqb_correct _ _ _ _ Hf F0). apply Req_bool_true. rewrite Hc. reflexivity.
Qed.
Lemma def_fin : forall (E : env) y r v, ar E = ieee -> def_emit E y r = Some v -> fin64 v.
Proof.
  intros E y r v HE. unfold def_emit, emit_lit. destruct (emit_find (hmm_table y) r) as [n|] eqn:Ef; [|discriminate]. intro H. injection H as <-. apply emit_find_ok in Ef.
  rewrite HE. exact (fin_iff (proj1 (const_val Ef))).
Qed.
Lemma pos_def_ok : forall (E : env), ar E = ieee -> emit_ok (E := E) (pos_def_emit E).
Proof.
  intros E HE y r v. unfold pos_def_emit, emit_lit. destruct (emit_find (pos_table y) r) as [n|] eqn:Ef; [|discriminate]. intro H. injection H as <-. apply pos_find_ok in Ef.
  destruct (const_val Ef) as (V1 & V2 & V3). unfold min_float. rewrite HE. cbn [lit64 ieee].
  assert (L0 : is_finite (lit_64 0 0) = true /\ B2R (lit_64 0 0) = 0%R) by (split; reflexivity).
  assert (L1 : is_finite (lit_64 (-8081665415464805) 281) = true) by (vm_compute; reflexivity).
  assert (L2 : (B2R (lit_64 (-8081665415464805) 281) <= B2R (lit_64 (-32) 0))%R). { apply le_fin; [exact L1|vm_compute; reflexivity|]. apply leb_le. vm_compute. reflexivity. }
  assert (L3 : B2R (lit_64 (-32) 0) = (-32)%R). { destruct (@neg_lit_val (-32) 0) as [E1 _]; [lia|lia|]. rewrite E1. cbn [bpow]. lra. }
  split; [apply (le_fin L1 V1); rewrite L3 in L2; lra|apply (le_fin V1 (proj1 L0)); rewrite (proj2 L0); exact V3].
Qed.

(** ** The characters of the char-state table *)
Lemma dec_digits : forall z, 0 <= z -> Z.land (Z.shiftr z 8) 15 * 100 + Z.land (Z.shiftr z 4) 15 * 10 + Z.land z 15 =
  (z mod 2 ^ 12) / 256 * 100 + ((z mod 2 ^ 12) / 16) mod 16 * 10 + (z mod 2 ^ 12) mod 16.
Proof.
  intros z Hz. change 15 with (Z.ones 4). rewrite !Z.land_ones, !Z.shiftr_div_pow2 by lia. change (2 ^ 12) with 4096. change (2 ^ 8) with 256. change (2 ^ 4) with 16.
  f_equal; [f_equal|].
  - f_equal. change 4096 with (256 * 16). rewrite Z.rem_mul_r by lia. rewrite (Z.mul_comm 256), Z.div_add by lia. rewrite (Z.div_small (z mod 256)) by (apply Z.mod_pos_bound; lia). reflexivity.
  - f_equal. change 4096 with (16 * 256). rewrite Z.rem_mul_r by lia. rewrite (Z.mul_comm 16 (_ mod _)), Z.div_add by lia. rewrite (Z.div_small (z mod 16)) by (apply Z.mod_pos_bound; lia).
    cbn [Z.add]. change 256 with (16 * 16). rewrite Z.rem_mul_r by lia. rewrite Z.mul_comm, Z.mod_add by lia. rewrite Z.mod_mod by lia. reflexivity.
  - change 4096 with (16 * 256). rewrite Z.rem_mul_r by lia. rewrite Z.mul_comm, Z.mod_add by lia. rewrite Z.mod_mod by lia. reflexivity.
Qed.
Definition in_states (h y : Z) : Prop := exists k, 0 <= k /\ 2 ^ (12 * k) <= h /\
  let z := (h / 2 ^ (12 * k)) mod 2 ^ 12 in y = z / 256 * 100 + (z / 16) mod 16 * 10 + z mod 16.
Lemma hex_states_acc : forall f h acc y, 0 <= h < 2 ^ (12 * Z.of_nat f) -> (In y (hex_states f h acc) <-> in_states h y \/ In y acc).
Proof.
  induction f as [|f IH]; intros h acc r Hh.
  - cbn [hex_states]. split; [auto|]. intros [(k & Hk & H & _)|H]; [|exact H]. change (2 ^ (12 * Z.of_nat 0)) with 1 in Hh. assert (0 < 2 ^ (12 * k)) by (apply Z.pow_pos_nonneg; lia). lia.
  - cbn [hex_states]. destruct (Z.eqb_spec h 0) as [->|Hne].
    + split; [auto|]. intros [(k & Hk & H & _)|H]; [|exact H]. assert (0 < 2 ^ (12 * k)) by (apply Z.pow_pos_nonneg; lia). lia.
    + rewrite IH.
      * rewrite dec_digits by lia. rewrite Z.shiftr_div_pow2 by lia. cbn [In]. unfold in_states. cbv zeta. split.
        -- intros [(k & Hk & H1 & H2)|[H|H]]; [left|left|right; exact H].
           ++ exists (k + 1). split; [lia|]. replace (12 * (k + 1)) with (12 + 12 * k) by lia. rewrite Z.pow_add_r by lia. split.
              ** apply Z.le_trans with (2 ^ 12 * (h / 2 ^ 12)); [nia|]. apply Z.mul_div_le. lia.
              ** rewrite <- Z.div_div by (try apply Z.pow_nonzero; try apply Z.pow_pos_nonneg; lia). exact H2.
           ++ exists 0. split; [lia|]. change (12 * 0) with 0. rewrite Z.pow_0_r, Z.div_1_r. split; [lia|symmetry; exact H].
        -- intros [(k & Hk & H1 & H2)|H]; [|right; right; exact H]. destruct (Z.eq_dec k 0) as [->|Hk0].
           ++ right. left. change (12 * 0) with 0 in H2. rewrite Z.pow_0_r, Z.div_1_r in H2. symmetry. exact H2.
           ++ left. exists (k - 1). split; [lia|]. replace (12 * k) with (12 + 12 * (k - 1)) in H1, H2 by lia. rewrite Z.pow_add_r in H1, H2 by lia. split.
              ** apply Z.div_le_lower_bound; lia.
              ** rewrite Z.div_div by (try apply Z.pow_nonzero; try apply Z.pow_pos_nonneg; lia). exact H2.
      * rewrite Z.shiftr_div_pow2 by lia. split; [apply Z.div_pos; lia|]. apply Z.div_lt_upper_bound; [lia|]. rewrite <- Z.pow_add_r by lia. replace (12 + 12 * Z.of_nat f) with (12 * Z.of_nat (S f)) by lia. apply Hh.
Qed.
Lemma listed_states : forall r y, state_listed r y <-> exists l, In (r, l) char_states /\ In y l.
Proof.
  intros r y. pose proof hex_keys as K. rewrite forallb_forall in K.
  assert (B : forall h, In (r, h) char_hex -> 0 <= h < 2 ^ (12 * Z.of_nat 100)).
  { intros h Hi. specialize (K _ Hi). cbn [snd] in K. apply andb_prop in K as [K1 K2]. apply Z.leb_le in K1. apply Z.ltb_lt in K2. change (12 * Z.of_nat 100) with 1200. split; [exact K1|].
    destruct (Z.eq_dec h 0) as [->|Hne]; [lia|]. apply Z.log2_lt_pow2; lia. }
  unfold char_states. split.
  - intros (h & k & H1 & H2). exists (hex_states 100 h []). split; [apply in_map_iff; exists (r, h); auto|]. apply (hex_states_acc _ _ (B h H1)). left. exists k. exact H2.
  - intros (l & H1 & H2). apply in_map_iff in H1 as ((r' & h) & H3 & H4). apply pair_equal_spec in H3 as [H3 H5]. cbn [fst] in H3. cbn [snd] in H5. subst r' l. apply (hex_states_acc _ _ (B h H4)) in H2 as [(k & H2)|[]]. exists h, k. auto.
Qed.
Lemma state_emission : forall r y, state_listed r y -> (r, y) <> (0x8ddb, 400) -> exists n, pos_listed y r n.
Proof.
  intros r y H Hne. apply listed_states in H as (l & H1 & H2). pose proof states_ok as S. cbv zeta in S. rewrite forallb_forall in S. specialize (S _ H1). cbn [fst snd] in S. rewrite forallb_forall in S.
  specialize (S _ H2). unfold state_has in S. destruct r as [|p|p]; try discriminate. destruct (assoc emit_sets y) as [s|] eqn:Ea; [|discriminate]. apply orb_prop in S as [S|S].
  - apply assoc_in in Ea. unfold emit_sets in Ea. apply in_map_iff in Ea as ((y' & t) & E1 & E2). apply pair_equal_spec in E1 as [E1 E3]. cbn [fst] in E1. cbn [snd] in E3. subst y' s.
    assert (C : In (Zpos p) (chars t)). { unfold set_of in S. apply PositiveSet.mem_spec in S. destruct (set_of_ok S) as [C|C]; [destruct (PositiveSet.empty_spec C)|exact C]. }
    unfold chars in C. apply in_flat_map in C as ((n & hs) & C1 & C2). cbn [snd] in C2. exists n, t. split; [exact E2|]. pose proof pos_ok as P. rewrite forallb_forall in P. specialize (P _ E2). cbn [snd] in P.
    apply andb_prop in P as [P _]. unfold rows_ok in P. rewrite forallb_forall in P. specialize (P _ C1). cbn [fst snd] in P. apply andb_prop in P as [_ P]. apply (chars_of_ok _ P) in C2 as (h & C2 & C3). exists hs, h. auto.
  - apply andb_prop in S as [S1 S2]. apply Z.eqb_eq in S1, S2. subst. congruence.
Qed.

(** ** The statements *)
Definition hmm_zero (tab : list (Z * list Z)) : bool := forallb (fun row => 0 <? fst row) tab.
Lemma hmm_nonzero : forall y, hmm_zero (hmm_table y) = true.
Proof. destruct y; vm_compute; reflexivity. Qed.
Lemma c98_hmm : forall (E : env) y r,
  (forall n, listed (hmm_rows y) r n -> (0 < n <= 1734 * 10 ^ 15)%Z /\ (forall n', listed (hmm_rows y) r n' -> n' = n) /\
    exists m e, def_emit E y r = Some (lit64 E m e) /\ nearest (- n) m e) /\
  ((forall n, ~ listed (hmm_rows y) r n) -> def_emit E y r = None).
Proof.
  intros E y r. change (hmm_rows y) with (hmm_table y). destruct (hmm_table_ok y) as [H1 H2]. destruct (find_listed H1 H2) as [F1 F2]. unfold def_emit. split.
  - intros n Hn. pose proof (F2 _ _ Hn) as Ho. apply F1 in Hn as Hf. destruct (near_nearest Ho) as (B & D). assert (P : 0 < n).
    { destruct Hn as (hs & h & G & _). pose proof (hmm_nonzero y) as Z. unfold hmm_zero in Z. rewrite forallb_forall in Z. specialize (Z _ G). apply Z.ltb_lt in Z. exact Z. }
    split; [lia|]. split. { intros n' Hn'. apply F1 in Hn'. congruence. }
    rewrite Hf. cbn [emit_lit]. eexists _, _. split; [reflexivity|]. destruct D as [(-> & _)|(_ & D & _)]; [lia|exact D].
  - intro H. destruct (emit_find (hmm_table y) r) as [n|] eqn:Ef; [|reflexivity]. apply F1 in Ef. destruct (H _ Ef).
Qed.
Lemma c98_pos : forall (E : env) y r,
  (forall n, pos_listed y r n -> (0 <= n <= 1734 * 10 ^ 15)%Z /\ (forall n', pos_listed y r n' -> n' = n) /\
    exists m e, pos_def_emit E y r = Some (lit64 E m e) /\ (n = 0%Z /\ m = 0%Z \/ nearest (- n) m e)) /\
  ((forall n, ~ pos_listed y r n) -> pos_def_emit E y r = None).
Proof.
  intros E y r. destruct (pos_table_ok y) as [H1 H2]. destruct (find_listed H1 H2) as [F1 F2]. unfold pos_def_emit. split.
  - intros n Hn. apply pos_listed_table in Hn. pose proof (F2 _ _ Hn) as Ho. apply F1 in Hn as Hf. destruct (near_nearest Ho) as (B & D).
    split; [exact B|]. split. { intros n' Hn'. apply pos_listed_table in Hn'. apply F1 in Hn'. congruence. }
    rewrite Hf. cbn [emit_lit]. eexists _, _. split; [reflexivity|]. destruct D as [(-> & _)|(_ & D & _)]; [left; split; reflexivity|right; exact D].
  - intro H. destruct (emit_find (pos_table y) r) as [n|] eqn:Ef; [|reflexivity]. apply F1 in Ef. apply pos_listed_table in Ef. destruct (H _ Ef).
Qed.
Lemma not_400 : emit_find (pos_table 400) 0x8ddb = None.
Proof. vm_compute. reflexivity. Qed.
Lemma c98_states : forall r y, state_listed r y -> ((exists n, pos_listed y r n) <-> (r, y) <> (0x8ddb, 400)%Z).
Proof.
  intros r y H. split; [|intro Hne; exact (state_emission H Hne)]. intros (n & Hn) He. apply pair_equal_spec in He as [-> ->]. apply pos_listed_table in Hn.
  destruct (pos_table_ok 400) as [H1 H2]. destruct (find_listed H1 H2) as [F1 _]. apply F1 in Hn. rewrite not_400 in Hn. discriminate Hn.
Qed.
Definition has_state (r y : Z) : bool := existsb (fun c => (fst c =? r) && existsb (Z.eqb y) (snd c)) char_states.
Lemma has_listed : forall r y, has_state r y = true -> state_listed r y.
Proof.
  intros r y H. apply listed_states. unfold has_state in H. apply existsb_exists in H as ((r' & l) & H1 & H2). cbn [fst snd] in H2. apply andb_prop in H2 as [H2 H3]. apply Z.eqb_eq in H2. subst r'.
  apply existsb_exists in H3 as (y' & H3 & H4). apply Z.eqb_eq in H4. subst y'. exists l. auto.
Qed.
Lemma c98_exception : state_listed 0x8ddb 400 /\ (forall E, p_emit (builtin (E := E) (pos_def_emit E)) 400 0x8ddb = None).
Proof.
  split; [apply has_listed; vm_compute; reflexivity|]. intro E. cbn [builtin p_emit]. unfold pos_def_emit. rewrite not_400. reflexivity.
Qed.
Lemma find_pos_listed : forall y r n, emit_find (pos_table y) r = Some n -> pos_listed y r n.
Proof. intros y r n H. destruct (pos_table_ok y) as [H1 H2]. apply pos_listed_table. apply (proj1 (find_listed H1 H2)). exact H. Qed.
Lemma c98_two : exists y r r', r <> r' /\ pos_listed y r 0 /\ pos_listed y r' 0.
Proof. exists 141, 0x8fd9, 0x9019. split; [lia|]. split; apply find_pos_listed; vm_compute; reflexivity. Qed.
Lemma no_row : forallb (fun c => negb (fst c =? 0x8eca)) char_states = true.
Proof. vm_compute. reflexivity. Qed.
Lemma c98_missing : exists y r n, pos_listed y r n /\ (forall y', ~ state_listed r y') /\
  forall (E : env) em z, allowed (builtin (E := E) em) r z <-> In z (map fst trans_tab).
Proof.
  exists 125, 0x8eca. destruct (emit_find (pos_table 125) 0x8eca) as [n|] eqn:Ef; [|vm_compute in Ef; discriminate Ef]. exists n. split; [apply find_pos_listed; exact Ef|].
  pose proof no_row as N. rewrite forallb_forall in N. split.
  - intros y' H. apply listed_states in H as (l & H & _). specialize (N _ H). cbn [fst] in N. discriminate N.
  - intros E em z. unfold allowed. cbn [builtin p_char p_keys]. destruct (assoc char_states 0x8eca) as [l|] eqn:Ea; [|reflexivity]. apply assoc_in in Ea. specialize (N _ Ea). cbn [fst] in N. discriminate N.
Qed.

Lemma c98_hmm_best : forall (E : env) obs, ar E = ieee -> obs <> [] ->
  exists p path, viterbi (def_emit E) obs all_states = Ok (p, path) /\ length path = length obs /\ legal_path path /\
    (last_state path = Some HE \/ last_state path = Some HS) /\ p = path_prob (def_emit E) obs path /\
    forall q, length q = length obs -> legal_path q -> (last_state q = Some HE \/ last_state q = Some HS) -> le64 (path_prob (def_emit E) obs q) p.
Proof.
  intros E obs HE Hne. destruct (@c31 E (def_emit E) obs Hne) as (p & path & H1 & H2 & H3 & H4 & H5). exists p, path. repeat (split; [assumption|]).
  apply (@c32 E (def_emit E)) with (path := path); [rewrite HE; exact ieee_laws64| |exact H1]. apply fin_no_nan; [exact HE| |exact Hne]. intros y o v. apply def_fin. exact HE.
Qed.
Lemma c98_pos_best : forall (E : env) od obs, ar E = ieee -> orders_ok od -> obs <> [] -> let tb := builtin (E := E) (pos_def_emit E) in
  exists path w, pos_viterbi tb od obs = Ok path /\ vpath tb (rev obs) (rev path) w /\
    (forall q v, vpath tb (rev obs) q v -> le64 v w) /\
    (forall od', orders_ok od' -> pos_viterbi tb od' obs = Ok path).
Proof.
  intros E od obs HE Ho Hne tb. pose proof (builtin_ok HE (pos_def_ok HE)) as Hb. fold tb in Hb. destruct (viterbi_ok HE Hb Ho Hne) as (path & w & H1 & H2 & H3). exists path, w.
  split; [exact H1|]. split; [exact H2|]. split; [intros q v Hq; apply (H3 q v Hq)|]. intros od' Ho'. rewrite <- H1. exact (c37 HE (tab_log Hb) Ho' Ho obs).
Qed.
