(** Contiguous parts of a result, cut again. *)
From Verif Require Import S_Split S_Meta P_Utf8 P_Split P_Dict P_Seg P_Seg2 P_Out M_Out P_Meta P_Meta2 P_Meta6 P_Ieee Ieee.
From Coq Require Import Reals Lra Lia.
From Flocq Require Import Core IEEE754.BinarySingleNaN.
Set Implicit Arguments. Unset Strict Implicit.
Local Open Scope nat_scope.

(** ** Whole numbers as float32 *)
Notation rnd32 := (round radix2 (SpecFloat.fexp 24 128) ZnearestE).
Lemma int_format32 : forall n, (0 <= n <= 2 ^ 24)%Z -> generic_format radix2 (SpecFloat.fexp 24 128) (IZR n).
Proof.
  intros n H. destruct (Z.eq_dec n (2 ^ 24)) as [->|Hne].
  - replace (IZR (2 ^ 24)) with (bpow radix2 24) by reflexivity. apply generic_format_bpow. cbn. lia.
  - replace (IZR n) with (F2R (Float radix2 n 0)) by (unfold F2R; cbn; lra).
    apply generic_format_F2R. intro Hn. cbn [Fnum Fexp] in *. unfold cexp, SpecFloat.fexp, SpecFloat.emin. apply Z.max_lub; [|lia]. apply Z.le_sub_0.
    apply mag_le_bpow; [apply F2R_neq_0; exact Hn|].
    unfold F2R. cbn [Fnum Fexp bpow]. rewrite Rmult_1_r, Rabs_pos_eq by (apply IZR_le; lia).
    apply IZR_lt. change (Z.pow_pos radix2 24) with (2 ^ 24)%Z. lia.
Qed.
Lemma small_int32 : forall n, (0 <= n <= 2 ^ 24)%Z -> (Rabs (IZR n) < bpow radix2 128)%R.
Proof.
  intros n H. rewrite Rabs_pos_eq by (apply (IZR_le 0); lia). apply Rle_lt_trans with (bpow radix2 24); [|apply bpow_lt; lia].
  replace (bpow radix2 24) with (IZR (2 ^ 24)) by reflexivity. apply IZR_le. lia.
Qed.
Lemma lit_int32 : forall n, (0 <= n <= 2 ^ 24)%Z -> B2R (lit_32 n 0) = IZR n /\ is_finite (lit_32 n 0) = true /\ Bsign (lit_32 n 0) = false.
Proof.
  intros n H. pose proof (binary_normalize_correct 24 128 prec32 max32 mode_NE n 0 false) as Hc. cbv zeta in Hc. fold (lit_32 n 0) in Hc.
  replace (F2R (Float radix2 n 0)) with (IZR n) in Hc by (unfold F2R; cbn; lra). change (round_mode mode_NE) with ZnearestE in Hc.
  rewrite (round_generic radix2 (SpecFloat.fexp 24 128) ZnearestE (IZR n)) in Hc by (try apply valid_rnd_N; apply int_format32, H). rewrite Rlt_bool_true in Hc.
  - destruct Hc as (H1 & H2 & H3). split; [exact H1|]. split; [exact H2|].
    rewrite H3. destruct (Rcompare_spec (IZR n) 0) as [K|K|K]; try reflexivity. apply (lt_IZR n 0) in K. lia.
  - apply small_int32, H.
Qed.
Lemma add_ints32 : forall a b, (0 <= a)%Z -> (0 <= b)%Z -> (a + b <= 2 ^ 24)%Z -> add32 ieee (lit_32 a 0) (lit_32 b 0) = lit_32 (a + b) 0.
Proof.
  intros a b Ha Hb Hab. destruct (@lit_int32 a) as (A1 & A2 & A3); [lia|]. destruct (@lit_int32 b) as (B1 & B2 & B3); [lia|].
  destruct (@lit_int32 (a + b)) as (C1 & C2 & C3); [lia|].
  pose proof (Bplus_correct 24 128 prec32 max32 mode_NE _ _ A2 B2) as Hc. cbv zeta in Hc. rewrite A1, B1, <- plus_IZR in Hc. change (round_mode mode_NE) with ZnearestE in Hc.
  rewrite round_generic in Hc by (try apply valid_rnd_N; apply int_format32; lia). rewrite Rlt_bool_true in Hc.
  - destruct Hc as (H1 & H2 & H3). apply B2R_Bsign_inj; cbn [add32 ieee]; [exact H2|exact C2|congruence|].
    rewrite H3, A3, B3, C3. destruct (Rcompare_spec (IZR (a + b)) 0) as [K|K|K]; try reflexivity. apply (lt_IZR _ 0) in K. lia.
  - apply small_int32. lia.
Qed.
Lemma ltb_ints32 : forall a b, (0 <= a <= 2 ^ 24)%Z -> (0 <= b <= 2 ^ 24)%Z -> ltb32 ieee (lit_32 a 0) (lit_32 b 0) = (a <? b)%Z.
Proof.
  intros a b Ha Hb. destruct (lit_int32 Ha) as (A1 & A2 & _). destruct (lit_int32 Hb) as (B1 & B2 & _). cbn [ltb32 ieee].
  rewrite (Bltb_correct _ _ _ _ A2 B2), A1, B1. destruct (Rlt_bool_spec (IZR a) (IZR b)) as [K|K]; symmetry; [apply Z.ltb_lt, lt_IZR, K|apply Z.ltb_ge, le_IZR, K].
Qed.
Lemma eqb_ints32 : forall a b, (0 <= a <= 2 ^ 24)%Z -> (0 <= b <= 2 ^ 24)%Z -> eqb32 ieee (lit_32 a 0) (lit_32 b 0) = (a =? b)%Z.
Proof.
  intros a b Ha Hb. destruct (lit_int32 Ha) as (A1 & A2 & _). destruct (lit_int32 Hb) as (B1 & B2 & _). cbn [eqb32 ieee].
  rewrite (Beqb_correct _ _ _ _ A2 B2), A1, B1. destruct (Req_bool_spec (IZR a) (IZR b)) as [K|K]; symmetry; [apply Z.eqb_eq, eq_IZR, K|apply Z.eqb_neq; intro F; apply K; congruence].
Qed.

(** ** Shortest paths without rounding *)
Section Exact.
  Variable E : env.
  Hypothesis HE : ar E = ieee.
  Variable d : dict E.
  Variable ws : list bytes.
  Variable js : list (jumper E).
  Variable M : Z.
  Notation n := (length ws).
  Hypothesis HI : Inv d false ws n js.
  (** [dz i l]: the path length of the candidate for words i..l, if any *)
  Variable dz : nat -> nat -> Z.
  Hypothesis Hdz : forall i l r, i <= l -> l < n -> cand d false ws i (S l) = Some r -> dist_of d r = lit32 E (dz i l) 0 /\ (1 <= dz i l <= M)%Z.
  Hypothesis HM : (Z.of_nat n * M <= 2 ^ 24)%Z.
  Hypothesis HM0 : (0 <= M)%Z.

  Lemma lit32_add : forall a b, (0 <= a)%Z -> (0 <= b)%Z -> (a + b <= 2 ^ 24)%Z -> add32 E (lit32 E a 0) (lit32 E b 0) = lit32 E (a + b) 0.
  Proof. rewrite HE. exact add_ints32. Qed.
  Lemma lit32_lt : forall a b, (0 <= a <= 2 ^ 24)%Z -> (0 <= b <= 2 ^ 24)%Z -> ltb32 E (lit32 E a 0) (lit32 E b 0) = (a <? b)%Z.
  Proof. rewrite HE. exact ltb_ints32. Qed.
  Lemma lit32_eq : forall a b, (0 <= a <= 2 ^ 24)%Z -> (0 <= b <= 2 ^ 24)%Z -> eqb32 E (lit32 E a 0) (lit32 E b 0) = (a =? b)%Z.
  Proof. rewrite HE. exact eqb_ints32. Qed.

  Definition cd (i l : nat) : Prop := exists r, cand d false ws i (S l) = Some r.

  (** Given whole-numbered bases, the jumper of [l] after candidates [is] is the first shortest one. *)
  Section Loc.
    Variable B : nat -> Z.
    Variable l : nat.
    Hypothesis Hl : l < n.
    Hypothesis HB : forall i, i <= l -> base js i = lit32 E (B i) 0 /\ (0 <= B i <= Z.of_nat i * M)%Z.
    Lemma sum_bound : forall i, i <= l -> cd i l -> (1 <= B i + dz i l <= Z.of_nat (S l) * M)%Z /\ (Z.of_nat (S l) * M <= 2 ^ 24)%Z.
    Proof.
      intros i Hi [r Hr]. destruct (HB Hi) as [_ K]. destruct (Hdz Hi Hl Hr) as [_ K2].
      assert (Z.of_nat i * M <= Z.of_nat l * M)%Z by (apply Z.mul_le_mono_nonneg_r; lia).
      assert (Z.of_nat (S l) * M <= Z.of_nat n * M)%Z by (apply Z.mul_le_mono_nonneg_r; lia). lia.
    Qed.
    Lemma fold_first : forall k, k <= S l ->
      let j := fold_cands d false ws js l (seq 0 k) in
      (j = (lit32 E 0 0, None) /\ forall i, i < k -> ~ cd i l) \/
      (exists i r, i < k /\ cand d false ws i (S l) = Some r /\ j = (lit32 E (B i + dz i l) 0, Some r) /\
         (forall i', i' < k -> cd i' l -> (B i + dz i l <= B i' + dz i' l)%Z) /\ (forall i', i' < i -> cd i' l -> (B i + dz i l < B i' + dz i' l)%Z)).
    Proof.
      intros k Hk. cbv zeta. induction k as [|k IH]; [left; split; [reflexivity|lia]|].
      rewrite seq_S. unfold fold_cands. rewrite fold_left_app. cbn [fold_left Nat.add]. change (fold_left _ (seq 0 k) _) with (fold_cands d false ws js l (seq 0 k)).
      specialize (IH ltac:(lia)). unfold app_cand. destruct (cand d false ws k (S l)) as [r|] eqn:Ec.
      - assert (Ck : cd k l) by (exists r; exact Ec). pose proof (@sum_bound k ltac:(lia) Ck) as Sk.
        destruct (@HB k ltac:(lia)) as [B1 B2]. destruct (@Hdz k l r ltac:(lia) Hl Ec) as [D1 D2].
        assert (Hadd : add32 E (base js k) (dist_of d r) = lit32 E (B k + dz k l) 0) by (rewrite B1, D1; apply lit32_add; lia).
        unfold update_jumper. rewrite Hadd. destruct IH as [[-> Hno]|(i & r0 & Hi & Hc & -> & Hmin & Hfirst)]; cbn [fst].
        + rewrite lit32_eq by lia. cbn [Z.eqb orb]. right. exists k, r. split; [lia|]. split; [exact Ec|]. split; [reflexivity|]. split.
          * intros i' Hi' C'. destruct (Nat.eq_dec i' k) as [->|]; [lia|]. exfalso. apply (Hno i'); [lia|exact C'].
          * intros i' Hi' C'. exfalso. apply (Hno i'); [lia|exact C'].
        + assert (Ci : cd i l) by (exists r0; exact Hc). pose proof (@sum_bound i ltac:(lia) Ci) as Si.
          rewrite lit32_eq, lit32_lt by lia. destruct (Z.eqb_spec (B i + dz i l) 0) as [F|_]; [lia|]. cbn [orb].
          destruct (Z.ltb_spec (B k + dz k l) (B i + dz i l)) as [K|K]; right.
          * exists k, r. split; [lia|]. split; [exact Ec|]. split; [reflexivity|]. split.
            -- intros i' Hi' C'. destruct (Nat.eq_dec i' k) as [->|]; [lia|]. specialize (Hmin i' ltac:(lia) C'). lia.
            -- intros i' Hi' C'. specialize (Hmin i' ltac:(lia) C'). lia.
          * exists i, r0. split; [lia|]. split; [exact Hc|]. split; [reflexivity|]. split; [|exact Hfirst].
            intros i' Hi' C'. destruct (Nat.eq_dec i' k) as [->|]; [lia|]. apply Hmin; [lia|exact C'].
      - destruct IH as [[-> Hno]|(i & r0 & Hi & Hc & -> & Hmin & Hfirst)].
        + left. split; [reflexivity|]. intros i' Hi' [r Hr]. destruct (Nat.eq_dec i' k) as [->|]; [congruence|]. apply (Hno i'); [lia|exists r; exact Hr].
        + right. exists i, r0. split; [lia|]. split; [exact Hc|]. split; [reflexivity|]. split; [|exact Hfirst].
          intros i' Hi' [r Hr]. destruct (Nat.eq_dec i' k) as [->|]; [congruence|]. apply Hmin; [lia|exists r; exact Hr].
    Qed.
  End Loc.

  (** All bases are whole numbers. *)
  Definition best (B : nat -> Z) (l i : nat) (r : tref) : Prop :=
    i <= l /\ cand d false ws i (S l) = Some r /\ (exists x, nth_error js l = Some (x, Some r)) /\ B (S l) = (B i + dz i l)%Z /\
    (forall i', i' <= l -> cd i' l -> (B (S l) <= B i' + dz i' l)%Z) /\ (forall i', i' < i -> cd i' l -> (B (S l) < B i' + dz i' l)%Z).
  Lemma exact_bases : exists B : nat -> Z, B 0 = 0%Z /\ (forall i, i <= n -> base js i = lit32 E (B i) 0 /\ (0 <= B i <= Z.of_nat i * M)%Z) /\
    forall l, l < n -> exists i r, best B l i r.
  Proof.
    assert (HK : forall k, k <= n -> exists B : nat -> Z, B 0 = 0%Z /\ (forall i, i <= k -> base js i = lit32 E (B i) 0 /\ (0 <= B i <= Z.of_nat i * M)%Z) /\
      forall l, l < k -> exists i r, best B l i r).
    { induction k as [|k IH]; intro Hk.
      - exists (fun _ => 0%Z). split; [reflexivity|]. split; [|lia]. intros i Hi. replace i with 0 by lia. cbn. split; [reflexivity|lia].
      - destruct (IH ltac:(lia)) as (B & B0 & HB & HL).
        destruct (@fold_first B k ltac:(lia) HB (S k) (le_n _)) as [[_ Hno]|(i & r & Hi & Hc & Hj & Hmin & Hfirst)].
        + exfalso. destruct (@cand_diag E d false ws ltac:(discriminate) k ltac:(lia)) as [r Hr]. apply (Hno k); [lia|exists r; exact Hr].
        + set (B' := fun x => if x =? S k then (B i + dz i k)%Z else B x).
          assert (Bo : forall x, x <= k -> B' x = B x) by (intros x Hx; unfold B'; destruct (Nat.eqb_spec x (S k)); [lia|reflexivity]).
          assert (Bn : B' (S k) = (B i + dz i k)%Z) by (unfold B'; rewrite Nat.eqb_refl; reflexivity).
          assert (Hnth : nth_error js k = Some (lit32 E (B i + dz i k) 0, Some r)).
          { destruct HI as [_ HI2]. rewrite (HI2 k) by lia. replace (Nat.min n (S k)) with (S k) by lia. f_equal. exact Hj. }
          exists B'. split; [rewrite Bo by lia; exact B0|]. split.
          * intros x Hx. destruct (Nat.eq_dec x (S k)) as [->|]; [|rewrite Bo by lia; apply HB; lia].
            rewrite Bn. cbn [base]. rewrite Hnth. split; [reflexivity|].
            pose proof (@sum_bound B k ltac:(lia) HB i ltac:(lia) (ex_intro _ r Hc)). lia.
          * intros l Hl. destruct (Nat.eq_dec l k) as [->|].
            -- exists i, r. unfold best. rewrite Bn. rewrite (Bo i) by lia. split; [lia|]. split; [exact Hc|]. split; [eexists; exact Hnth|]. split; [reflexivity|].
               split; intros i' Hi' C'; rewrite (Bo i') by lia; [apply Hmin; [lia|exact C']|apply Hfirst; assumption].
            -- destruct (HL l ltac:(lia)) as (i0 & r0 & K1 & K2 & K3 & K4 & K5 & K6). exists i0, r0. unfold best. rewrite (Bo (S l)), (Bo i0) by lia.
               repeat (split; [assumption|]). split; intros i' Hi' C'; rewrite (Bo i') by lia; auto. }
    exact (HK n (le_n _)).
  Qed.
End Exact.

(** ** A run of segments *)
Section Run.
  Variable E : env.
  Hypothesis HE : ar E = ieee.
  Variable d : dict E.
  Variable ws : list bytes.
  Variables p q : nat.
  Hypothesis Hpq : p <= q.
  Hypothesis Hq : q <= length ws.
  Notation ws2 := (slice ws p q).
  Lemma len_run : length ws2 = q - p.
  Proof. apply slice_length. exact Hq. Qed.
  Lemma slice_slice : forall A (l : list A) a b i j, j <= b - a -> slice (slice l a b) i j = slice l (a + i) (a + j).
  Proof.
    intros A l a b i j H. unfold slice. rewrite skipn_firstn_comm, firstn_firstn, skipn_skipn. f_equal; [lia|]. f_equal. lia.
  Qed.
  Lemma cand_run : forall i l, i <= l -> l < q - p -> cand d false ws2 i (S l) = cand d false ws (p + i) (S (p + l)).
  Proof.
    intros i l Hi Hl. unfold cand. rewrite slice_slice by lia. replace (p + S l) with (S (p + l)) by lia. cbn [andb].
    destruct (t_get (d_trie d) (concat (slice ws (p + i) (S (p + l))))); [reflexivity|].
    destruct (Nat.eqb_spec (S l) (S i)) as [K|K], (Nat.eqb_spec (S (p + l)) (S (p + i))) as [K'|K']; try lia; [|reflexivity].
    replace (nth_error ws2 i) with (nth_error ws (p + i)); [reflexivity|]. unfold slice.
    rewrite (@slice_of _ ws p q) at 1 by lia. rewrite nth_error_app2 by (rewrite firstn_length; lia). rewrite firstn_length, Nat.min_l by lia.
    rewrite nth_error_app1 by (rewrite slice_length by lia; lia). unfold slice. f_equal. lia.
  Qed.

  Variables js js2 : list (jumper E).
  Variable M : Z.
  Hypothesis HI : Inv d false ws (length ws) js.
  Hypothesis HI2 : Inv d false ws2 (length ws2) js2.
  Variable dz : nat -> nat -> Z.
  Hypothesis Hdz : forall i l r, i <= l -> l < length ws -> cand d false ws i (S l) = Some r -> dist_of d r = lit32 E (dz i l) 0 /\ (1 <= dz i l <= M)%Z.
  Hypothesis HM : (Z.of_nat (length ws) * M <= 2 ^ 24)%Z.
  Hypothesis HM0 : (0 <= M)%Z.

  Hypothesis Huniq : forall i1 i2 l r, i1 <= l -> i2 <= l -> l < length ws -> cand d false ws i1 (S l) = Some r -> cand d false ws i2 (S l) = Some r -> i1 = i2.

  (** The part of the chain of the long text from [p] on. *)
  Inductive part : nat -> list tref -> Prop :=
  | part_nil : part p []
  | part_snoc : forall i l r b, p <= i -> i <= l -> l < length ws -> (exists x, nth_error js l = Some (x, Some r)) -> cand d false ws i (S l) = Some r ->
      part i b -> part (S l) (b ++ [r]).

  Lemma part_chain : forall k b, part k b -> k <= q -> forall rs2 ps2, chain d false ws2 js2 (k - p) rs2 ps2 -> rs2 = b.
  Proof.
    destruct (@exact_bases E HE d ws js M HI dz Hdz HM HM0) as (B & B0 & HB & HL).
    pose proof len_run as Hlen.
    assert (HdzR : forall i l r, i <= l -> l < length ws2 -> cand d false ws2 i (S l) = Some r -> dist_of d r = lit32 E (dz (p + i) (p + l)) 0 /\ (1 <= dz (p + i)%nat (p + l)%nat <= M)%Z).
    { intros i l r Hi Hl Hc. rewrite cand_run in Hc by lia. apply Hdz; [lia|lia|exact Hc]. }
    assert (HMR : (Z.of_nat (length ws2) * M <= 2 ^ 24)%Z).
    { assert (Z.of_nat (length ws2) * M <= Z.of_nat (length ws) * M)%Z by (apply Z.mul_le_mono_nonneg_r; lia). lia. }
    destruct (@exact_bases E HE d ws2 js2 M HI2 (fun i l => dz (p + i) (p + l)) HdzR HMR HM0) as (B2 & B20 & HB2 & HL2).
    assert (CR : forall i l, i <= l -> l < q - p -> cd d ws2 i l <-> cd d ws (p + i) (p + l)).
    { intros i l Hi Hl. unfold cd. rewrite cand_run by lia. reflexivity. }
    assert (F1 : forall i, i <= q - p -> (B (p + i)%nat <= B p + B2 i)%Z).
    { induction i as [i IH] using (well_founded_induction lt_wf). intro Hi. destruct i as [|l]; [rewrite Nat.add_0_r, B20; lia|].
      destruct (HL2 l ltac:(lia)) as (j & r & J1 & J2 & _ & J4 & _ & _). rewrite J4.
      destruct (HL (p + l) ltac:(lia)) as (_ & _ & _ & _ & _ & _ & G5 & _).
      assert (C : cd d ws (p + j) (p + l)) by (apply CR; [lia|lia|exists r; exact J2]).
      specialize (G5 (p + j) ltac:(lia) C). specialize (IH j ltac:(lia) ltac:(lia)). replace (p + S l) with (S (p + l)) by lia. lia. }
    assert (F2 : forall k b, part k b -> k <= q -> p <= k /\ B k = (B p + B2 (k - p)%nat)%Z /\ forall rs2 ps2, chain d false ws2 js2 (k - p) rs2 ps2 -> rs2 = b).
    { intros k b H. induction H as [|i l r b Hpi Hil Hl (x & Hn) Hc Hpart IH]; intro Hk.
      - rewrite Nat.sub_diag. split; [lia|]. split; [rewrite B20; lia|]. intros rs2 ps2 Hch. inversion Hch; reflexivity.
      - destruct (IH ltac:(lia)) as (_ & IB & IC). clear IH. split; [lia|].
        replace (S l - p) with (S (l - p)) by lia.
        destruct (HL l Hl) as (i0 & r0 & G1 & G2 & (x0 & G3) & G4 & G5 & G6). rewrite Hn in G3. injection G3 as _ <-.
        assert (i0 = i) by (eapply Huniq; eassumption). subst i0.
        destruct (HL2 (l - p) ltac:(lia)) as (j & r2 & J1 & J2 & (x2 & J3) & J4 & J5 & J6).
        assert (Ci : cd d ws2 (i - p) (l - p)) by (apply CR; [lia|lia|]; replace (p + (i - p)) with i by lia; replace (p + (l - p)) with l by lia; exists r; exact Hc).
        assert (Cj : cd d ws (p + j) l) by (replace l with (p + (l - p)) by lia; apply CR; [lia|lia|exists r2; exact J2]).
        pose proof (F1 (S (l - p)) ltac:(lia)) as U. replace (p + S (l - p)) with (S l) in U by lia.
        pose proof (F1 j ltac:(lia)) as V.
        assert (W := J5 (i - p) ltac:(lia) Ci). replace (p + (i - p)) with i in W by lia. replace (p + (l - p)) with l in * by lia.
        split; [lia|].
        assert (Hj : j = i - p).
        { destruct (Nat.lt_trichotomy j (i - p)) as [K|[K|K]]; [|exact K|].
          - exfalso. specialize (G6 (p + j) ltac:(lia) Cj). lia.
          - exfalso. specialize (J6 (i - p) K Ci). replace (p + (i - p)) with i in J6 by lia. lia. }
        subst j. intros rs2 ps2 Hch. inversion Hch as [|i2 l2 r3 rs3 ps3 x3 L1 L2 L3 L4 L5 L6 L7]; subst.
        rewrite J3 in L3. injection L3 as _ <-.
        assert (Hr2 : r2 = r).
        { rewrite cand_run in J2 by lia. replace (p + (i - p)) with i in J2 by lia. replace (p + (l - p)) with l in J2 by lia. congruence. }
        subst r2. assert (i2 = i - p).
        { rewrite cand_run in L4 by lia. replace (p + (l - p)) with l in L4 by lia. assert (p + i2 = i); [|lia]. apply (@Huniq (p + i2) i l r); [lia|lia|lia|exact L4|exact Hc]. }
        subst i2. f_equal. eapply IC. exact L6. }
    intros k b Hk Hkq. apply F2; assumption.
  Qed.
End Run.

Lemma chain_part : forall E (d : dict E) ws js m rs ps, chain d false ws js m rs ps -> forall a b, rs = a ++ b ->
  exists p ps', p <= m /\ chain d false ws js p a ps' /\ part d ws p js m b.
Proof.
  intros E d ws js m rs ps H. induction H as [|i l r rs ps x Hil Hl Hn Hc Hx Hch IH]; intros a b Hab.
  - symmetry in Hab. apply app_eq_nil in Hab as [-> ->]. exists 0, []. split; [lia|]. split; constructor.
  - destruct b as [|b0 b _] using rev_ind.
    + rewrite app_nil_r in Hab. subst a. eexists (S l), _. split; [lia|]. split; [econstructor; eassumption|constructor].
    + rewrite app_assoc in Hab. apply app_inj_tail in Hab as [-> ->]. destruct (IH a b eq_refl) as (p & ps' & H1 & H2 & H3).
      exists p, ps'. split; [lia|]. split; [exact H2|]. econstructor; [exact H1|exact Hil|exact Hl|exists x; exact Hn|exact Hc|exact H3].
Qed.

(** ** Cutting a run of result words again *)
Section Recut.
  Variable E : env.
  Variable c : cfg.
  Variable d : dict E.
  Hypothesis Hr : reachable c d.
  Notation Hd := (inv_ok (reachable_inv Hr)).

  Lemma slice_stable : forall ws p q, stable E c ws -> p <= q -> q <= length ws -> stable E c (slice ws p q).
  Proof.
    intros ws p q H H1 H2 a b z Hw. apply (H (firstn p ws ++ a) b (z ++ skipn q ws)). rewrite (@slice_of _ ws p q) at 1 by assumption. rewrite Hw, <- !app_assoc. reflexivity.
  Qed.
  Lemma slice_Forall : forall A (P : A -> Prop) l p q, Forall P l -> Forall P (slice l p q).
  Proof.
    intros A P l p q H. unfold slice. rewrite <- (firstn_skipn p l) in H. apply Forall_app in H as [_ H].
    rewrite <- (firstn_skipn (q - p) (skipn p l)) in H. apply Forall_app in H as [H _]. exact H.
  Qed.
  Lemma cand_start : forall ws, stable E c ws -> forall i1 i2 l r, i1 <= l -> i2 <= l -> l < length ws -> cand d false ws i1 (S l) = Some r -> cand d false ws i2 (S l) = Some r -> i1 = i2.
  Proof.
    intros ws Hs i1 i2 l r L1 L2 Hl G1 G2.
    destruct (@cand_spec E c d false ws Hd Hs ltac:(discriminate) i1 (S l) r) as (t1 & D1 & _ & N1 & _); [lia|lia|exact G1|].
    destruct (@cand_spec E c d false ws Hd Hs ltac:(discriminate) i2 (S l) r) as (t2 & D2 & _ & N2 & _); [lia|lia|exact G2|]. assert (t1 = t2) by congruence. subst t2. lia.
  Qed.
  Lemma chain_texts : forall ws js, stable E c ws -> forall p m b, part d ws p js m b -> m <= length ws -> p <= m /\
    exists ps, concat ps = slice ws p m /\ Forall2 (fun p r => exists t, deref d r = Ok t /\ t_text t = p) ps b.
  Proof.
    intros ws js Hs p m b H. induction H as [|i l r b Hpi Hil Hl Hn Hc Hpart IH]; intro Hm.
    - split; [lia|]. exists []. split; [rewrite slice_nil; reflexivity|constructor].
    - destruct (IH ltac:(lia)) as (_ & ps & P1 & P2). split; [lia|].
      destruct (@cand_spec E c d false ws Hd Hs ltac:(discriminate) i (S l) r) as (t & D & T & _); [lia|lia|exact Hc|].
      exists (ps ++ [slice ws i (S l)]). split.
      + rewrite concat_app, P1. cbn [concat]. rewrite app_nil_r. apply slice_app; lia.
      + apply Forall2_app; [exact P2|]. constructor; [exists t; auto|constructor].
  Qed.

  Definition zval (M : Z) (x : f32 E) : Z :=
    match find (fun n => eqb32 E x (lit32 E (Z.of_nat n) 0)) (seq 1 (Z.to_nat M)) with Some n => Z.of_nat n | None => 0%Z end.
  Lemma zval_eq : ar E = ieee -> forall M n, (M <= 2 ^ 24)%Z -> (1 <= n <= M)%Z -> zval M (lit32 E n 0) = n.
  Proof.
    intros HE M n HM Hn. unfold zval. destruct (find _ _) as [k|] eqn:F.
    - apply find_some in F as [F1 F2]. apply in_seq in F1. rewrite (@lit32_eq E HE) in F2 by lia. apply Z.eqb_eq in F2. lia.
    - exfalso. pose proof (@find_none _ _ _ F (Z.to_nat n)) as K. cbn beta in K. rewrite (@lit32_eq E HE) in K by lia.
      specialize (K ltac:(apply in_seq; lia)). apply Z.eqb_neq in K. lia.
  Qed.

  Lemma recut_words : forall s segs ra rb rz M, ar E = ieee -> (32 <= M)%Z -> (Z.of_nat (length s) * M <= 2 ^ 24)%Z ->
    (forall w p x, w <> [] -> occurs w (norm E c s) -> weighs d w p x -> exists n, x = lit32 E n 0 /\ (1 <= n <= M)%Z) ->
    internal_segment c (Some d) s false = Ok segs -> map sg_tok segs = ra ++ rb ++ rz ->
    forall tb, Forall2 (fun r w => exists t, deref d r = Ok t /\ w = concat (t_text t)) rb tb ->
    exists segs2, internal_segment c (Some d) (concat tb) false = Ok segs2 /\ map sg_tok segs2 = rb.
  Proof.
    intros s segs ra rb rz M HE HM HL HW H Ht tb Htb. rewrite internal_segment_eq in H. set (ws := wsplit E c s) in *.
    pose proof (@split_is_stable E c s) as Hs. fold ws in Hs. pose proof (@split_nonempty E c s) as Hne. fold ws in Hne.
    destruct (segment_words_chain Hd Hs Hne H) as (js & ps & I1 & C1 & _). rewrite Ht in C1.
    destruct (chain_part C1 (a := ra ++ rb) (b := rz)) as (q & psq & Q1 & Q2 & _); [rewrite app_assoc; reflexivity|].
    destruct (chain_part Q2 eq_refl) as (p & psp & P1 & _ & P3).
    destruct (chain_texts Hs P3 Q1) as (_ & pb & B1 & B2).
    assert (Hcat : concat tb = concat (slice ws p q)).
    { rewrite <- B1. clear - Htb B2. revert tb Htb. induction B2 as [|x r pb rb (t & D & T) B2 IH]; intros tb Htb; inversion Htb as [|? w ? tb' (t' & D' & W) Htb']; subst; [reflexivity|].
      cbn [concat]. rewrite concat_app, (IH _ Htb'). f_equal. congruence. }
    assert (Hs2 : stable E c (slice ws p q)) by (apply slice_stable; assumption).
    assert (Hne2 : Forall (fun w => w <> []) (slice ws p q)) by (apply slice_Forall; exact Hne).
    assert (Hsp : wsplit E c (concat tb) = slice ws p q) by (rewrite Hcat; apply (@stable_slice E c); assumption).
    destruct (@segment_words_spec E c d false (slice ws p q) Hd Hs2 Hne2) as (js2 & rs2 & ps2 & segs2 & I2 & C2 & H2 & H3 & _); [discriminate|].
    exists segs2. rewrite internal_segment_eq, Hsp. split; [exact H2|]. rewrite H3.
    assert (Hlw : length ws <= length s).
    { rewrite <- (@norm_length E c s), <- (@split_concat E c s). fold ws. clear - Hne. induction Hne as [|w l Hw _ IH]; [cbn; lia|]. cbn. rewrite app_length. destruct w; [congruence|]. cbn. lia. }
    rewrite (@slice_length _ ws p q) in C2 by exact Q1.
    assert (HM24 : length ws <> 0 -> (M <= 2 ^ 24)%Z).
    { intro Hz. assert (1 * M <= Z.of_nat (length s) * M)%Z by (apply Z.mul_le_mono_nonneg_r; lia). lia. }
    eapply (@part_chain E HE d ws p q P1 Q1 js js2 M I1 I2 (fun i l => match cand d false ws i (S l) with Some r => zval M (dist_of d r) | None => 0%Z end)); [ | |lia|apply cand_start; exact Hs|exact P3|lia|exact C2].
    - intros i l r Hi Hl Hc. cbn beta. rewrite Hc.
      assert (K : exists n, dist_of d r = lit32 E n 0 /\ (1 <= n <= M)%Z).
      { unfold cand in Hc. cbn [andb] in Hc. destruct (t_get (d_trie d) (concat (slice ws i (S l)))) as [v|] eqn:G.
        - injection Hc as <-. destruct (ok_entry Hd G) as (t & N & _). apply (@HW (concat (slice ws i (S l))) (t_pos t)).
          + apply slice_ne_words; [exact Hne|lia|lia].
          + apply slice_occurs.
          + exists v, t. rewrite dict_value_get. split; [exact G|]. split; [exact N|]. split; [reflexivity|]. unfold dist_of, deref, get. rewrite N. reflexivity.
        - destruct (S l =? S i); [|discriminate]. destruct (nth_error ws i) as [w|]; [|discriminate]. injection Hc as <-. exists 32%Z. split; [reflexivity|lia]. }
      destruct K as (n & K1 & K2). rewrite K1. rewrite zval_eq; [|exact HE|apply HM24; lia|exact K2]. split; [reflexivity|exact K2].
    - assert (Z.of_nat (length ws) * M <= Z.of_nat (length s) * M)%Z by (apply Z.mul_le_mono_nonneg_r; lia). lia.
  Qed.

  Definition tp (r : tref) (x : bytes * bytes) : Prop := exists t, deref d r = Ok t /\ x = (concat (t_text t), t_pos t).
  Lemma pos_texts : forall segs out l, seg_loop (fun t => Ok [(join (t_text t), t_pos t)]) d segs out = Ok l ->
    exists l', l = out ++ l' /\ Forall2 tp (map sg_tok segs) l'.
  Proof.
    induction segs as [|s segs IH]; intros out l H; cbn [seg_loop] in H; [injection H as <-; exists []; rewrite app_nil_r; split; [reflexivity|constructor]|].
    apply bind_Ok in H as (t & H1 & H). cbn [bind] in H. destruct (IH _ _ H) as (l' & -> & HF). exists ((join (t_text t), t_pos t) :: l').
    split; [rewrite <- app_assoc; reflexivity|]. cbn [map]. constructor; [exists t; split; [exact H1|rewrite join_eq; reflexivity]|exact HF].
  Qed.
  Lemma texts_pos : forall segs l, Forall2 tp (map sg_tok segs) l -> forall out, seg_loop (fun t => Ok [(join (t_text t), t_pos t)]) d segs out = Ok (out ++ l).
  Proof.
    induction segs as [|s segs IH]; intros l H out; cbn [map] in H; inversion H as [|? x ? l' (t & D & ->) HF]; subst; cbn [seg_loop]; [rewrite app_nil_r; reflexivity|].
    rewrite D. cbn [bind]. rewrite (IH _ HF), join_eq, <- app_assoc. reflexivity.
  Qed.
  Lemma tp_texts : forall rs l, Forall2 tp rs l -> Forall2 (fun r w => exists t, deref d r = Ok t /\ w = concat (t_text t)) rs (map fst l).
  Proof. intros rs l H. induction H as [|r x rs l (t & D & ->) _ IH]; cbn [map fst]; constructor; [eauto|exact IH]. Qed.

  Lemma c79_pos : forall s a b z M, ar E = ieee -> (32 <= M)%Z -> (Z.of_nat (length s) * M <= 2 ^ 24)%Z ->
    (forall w p x, w <> [] -> occurs w (norm E c s) -> weighs d w p x -> exists n, x = lit32 E n 0 /\ (1 <= n <= M)%Z) ->
    seg_pos c (Some d) s false = Ok (a ++ b ++ z) -> seg_pos c (Some d) (concat (map fst b)) false = Ok b.
  Proof.
    intros s a b z M HE HM HL HW H. unfold seg_pos in H. apply bind_Ok in H as (segs & S1 & H). cbn [to_pos] in H.
    destruct (pos_texts H) as (l & L1 & L2). cbn in L1. subst l. apply Forall2_app_inv_r in L2 as (ra & rbz & _ & L2 & Hra). apply Forall2_app_inv_r in L2 as (rb & rz & Lb & _ & ->).
    destruct (@recut_words s segs ra rb rz M HE HM HL HW S1 Hra (map fst b) (tp_texts Lb)) as (segs2 & G1 & G2).
    unfold seg_pos. rewrite G1. cbn [bind to_pos]. rewrite (@texts_pos segs2 b) by (rewrite G2; exact Lb). reflexivity.
  Qed.

  (** One unit: no arithmetic involved. *)
  Lemma c79_unit : forall s a x z w, seg_pos c (Some d) s false = Ok (a ++ x :: z) -> split_words E c (fst x) = Ok [w] ->
    seg_pos c (Some d) (fst x) false = Ok [x].
  Proof.
    intros s a x z w H Hw. unfold seg_pos in H. apply bind_Ok in H as (segs & S1 & H). cbn [to_pos] in H.
    destruct (pos_texts H) as (l & L1 & L2). cbn in L1. subst l. apply Forall2_app_inv_r in L2 as (ra & rbz & _ & L2 & Hra).
    inversion L2 as [|r ? rz ? Lb _]; subst. rewrite internal_segment_eq in S1. set (ws := wsplit E c s) in *.
    pose proof (@split_is_stable E c s) as Hs. fold ws in Hs. pose proof (@split_nonempty E c s) as Hne. fold ws in Hne.
    destruct (segment_words_chain Hd Hs Hne S1) as (js & ps & I1 & C1 & _). rewrite Hra in C1.
    destruct (chain_part C1 (a := ra ++ [r]) (b := rz)) as (q & psq & Q1 & Q2 & _); [rewrite <- app_assoc; reflexivity|].
    destruct (chain_part Q2 eq_refl) as (p & psp & P1 & _ & P3).
    destruct Lb as (t & D & ->). cbn [fst] in *.
    inversion P3 as [|i l r0 b Hpi Hil Hl Hn Hc Hpart Hq Hb]; subst. apply (f_equal (@rev _)) in Hb. rewrite rev_app_distr in Hb. cbn in Hb. injection Hb as -> Hb.
    apply (f_equal (@rev _)) in Hb. rewrite rev_involutive in Hb. cbn in Hb. subst b. inversion Hpart as [Hpi'|? ? ? b0 _ _ _ _ _ _ Hz Hb]; [subst i|destruct b0; discriminate].
    destruct (@cand_spec E c d false ws Hd Hs ltac:(discriminate) p (S l) r) as (t' & D' & T & Tn & _); [lia|lia|exact Hc|]. assert (t' = t) by congruence. subst t'.
    rewrite split_words_eq in Hw. injection Hw as Hw. rewrite T in Hw.
    assert (Hsp : wsplit E c (concat (slice ws p (S l))) = slice ws p (S l)) by (apply (@stable_slice E c); [exact Hs|lia|lia]).
    rewrite Hsp in Hw. assert (l = p) by (pose proof (f_equal (@length _) Hw) as K; rewrite slice_length in K by lia; cbn [length] in K; lia). subst l.
    assert (Hs2 : stable E c (slice ws p (S p))) by (apply slice_stable; [exact Hs|lia|lia]).
    assert (Hne2 : Forall (fun w => w <> []) (slice ws p (S p))) by (apply slice_Forall; exact Hne).
    destruct (@segment_words_spec E c d false (slice ws p (S p)) Hd Hs2 Hne2) as (js2 & rs2 & ps2 & segs2 & I2 & C2 & H2 & H3 & _); [discriminate|].
    unfold seg_pos. rewrite internal_segment_eq, T, Hsp, H2. cbn [bind to_pos].
    rewrite (@slice_length _ ws p (S p)) in C2 by exact Q1. replace (S p - p) with 1 in C2 by lia.
    inversion C2 as [|i l r2 rs3 ps3 x3 L1 L2' L3 L4 L5 L6 L7]; subst. assert (i = 0) by lia. subst i. inversion L6; subst. cbn [app] in *.
    rewrite (@cand_run E d ws p (S p) ltac:(lia) Q1) in L4 by lia. replace (p + 0) with p in L4 by lia. rewrite Hc in L4. injection L4 as <-.
    rewrite <- T. rewrite (@texts_pos segs2 [(concat (t_text t), t_pos t)]); [reflexivity|]. match goal with K : _ = map sg_tok segs2 |- _ => rewrite <- K end. constructor; [|constructor]. exists t. split; [exact D|reflexivity].
  Qed.
End Recut.
