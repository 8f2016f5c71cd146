(** The state path of the part-of-speech tagger is nearly most probable in exact arithmetic (C106). *)
From Verif Require Import M_Env Ieee S_Near4 P_Ieee P_Sum P_Near2 P_Pos2 P_Pos3 P_PosTab P_Laws64 P_MissR P_Miss P_MissPos.
From Coq Require Import ZArith Reals Lra Lia List.
From Flocq Require Import Core IEEE754.BinarySingleNaN.
Import ListNotations.
Set Implicit Arguments. Unset Strict Implicit.

Local Open Scope R_scope.
Lemma real_vl : forall A (H : A = ieee) x a, real64 H x = Some a <-> fn H x /\ vl H x = a.
Proof.
  intros A H. subst A. intros x a. unfold real64, fn, vl, cast. cbn [eq_rect]. destruct (is_finite x); split.
  - intro K. injection K as <-. auto.
  - intros [_ <-]. reflexivity.
  - discriminate.
  - intros [K _]. discriminate K.
Qed.
Lemma add_rel : forall A (H : A = ieee) x y, fn H x -> fn H y -> vl H x <= 0 -> vl H y <= 0 -> fn H (add64 A x y) ->
  (1 - u64) * (- vl H x + - vl H y) <= - vl H (add64 A x y) <= (1 + u64) * (- vl H x + - vl H y).
Proof.
  intros A H. subst A. intros x y. unfold fn, vl, cast. cbn [add64 ieee]. intros Fx Fy Vx Vy Fz. pose proof (key_fin Fx) as [Kx _]. pose proof (key_fin Fy) as [Ky _]. pose proof (key_fin Fz) as [Kz Bz].
  assert (Gx : good (-1) x) by (split; [destruct x; try discriminate Fx; reflexivity|rewrite Kx; lra]). assert (Gy : good (-1) y) by (split; [destruct y; try discriminate Fy; reflexivity|rewrite Ky; lra]).
  destruct (@plus_rel 53 1024 prec64 max64 (-1) x y (or_intror eq_refl) Gx Gy) as (_ & U & L). rewrite Kx, Ky, Kz in *. change (- (53))%Z with (-53)%Z in *.
  split; [|lra]. unfold Rmin in L. destruct (Rle_dec _ _) in L; [|lra]. exfalso. lra.
Qed.
Lemma u64_range : 0 < u64 < 1.
Proof. split; [apply bpow_gt_0|]. change 1 with (bpow radix2 0). apply bpow_lt. lia. Qed.

Section N.
  Variable E : env.
  Variable HA : ar E = ieee.
  Variable em : Z -> rune -> option (f64 E).
  Variable Hem : tag_probs_ok em.
  Let tb := builtin em.
  Definition close (k : nat) (r v : R) : Prop := 0 <= r /\ 0 <= v /\ (1 - u64) ^ k * r <= v <= (1 + u64) ^ k * r.
  Lemma close_add : forall k r v (x y : f64 E), close k r (- vl HA x) -> fn HA x -> fn HA y -> v = - vl HA y -> 0 <= v -> fn HA (add64 E x y) -> close (S k) (r + v) (- vl HA (add64 E x y)).
  Proof.
    intros k r v x y (R0 & V0 & L & U) Fx Fy -> Py Fz. pose proof u64_range as Hu. destruct (@add_rel (ar E) HA x y Fx Fy) as [A1 A2]; [lra|lra|exact Fz|].
    set (a := - vl HA x) in *. set (b := - vl HA y) in *. set (z := - vl HA (add64 E x y)) in *. clearbody a b z. assert (P1 : (1 - u64) ^ k <= 1) by (apply Rle_trans with (1 ^ k); [apply pow_incr; lra|rewrite pow1; lra]).
    assert (P2 : 1 <= (1 + u64) ^ k) by (apply pow_above; lra). assert (P0 : 0 <= (1 - u64) ^ k) by (apply pow_le; lra).
    split; [lra|]. split; [apply Rle_trans with (2 := A1), Rmult_le_pos; lra|]. cbn [pow]. set (p := (1 - u64) ^ k) in *. set (q := (1 + u64) ^ k) in *. clearbody p q. set (u := u64) in *. clearbody u. split.
    - apply Rle_trans with (2 := A1). rewrite Rmult_assoc. apply Rmult_le_compat_l; [lra|]. assert (p * b <= 1 * b) by (apply Rmult_le_compat_r; lra). lra.
    - apply Rle_trans with (1 := A2). rewrite Rmult_assoc. apply Rmult_le_compat_l; [lra|]. assert (1 * b <= q * b) by (apply Rmult_le_compat_r; lra). lra.
  Qed.
  Lemma close_one : forall x : f64 E, vl HA x <= 0 -> close 0 (- vl HA x) (- vl HA x).
  Proof. intros x Hx. split; [lra|]. split; [lra|]. cbn [pow]. lra. Qed.
  Lemma em_some : forall y o e, p_emit tb y o = Some e -> emission tb y o = e /\ prob HA e.
  Proof.
    intros y o e He. unfold emission. rewrite He. split; [reflexivity|]. destruct (Hem He) as [H1 H2]. exact (le_prob HA H1 H2).
  Qed.
  Lemma sum_path : forall os p r, tag_sum HA tb os p r -> exists w, vpath tb os p w /\ clean_rev em os p /\ fn HA w /\ close (2 * length os - 1) (- r) (- vl HA w).
  Proof.
    intros os p r H. induction H as [o y e a b Hs Hc He Ha Hb|o y os x p r v e a b Hp (w & I1 & I2 & I3 & I4) Hs Ht Hb He Ha].
    - destruct (em_some He) as [Ee Pe]. eexists. split; [apply vp_one; exact Hs|]. rewrite Ee. apply real_vl in Ha as [_ <-]. apply real_vl in Hb as [Fb <-].
      assert (C : clean_rev em [o] [y]) by (split; [exact Hc|]; constructor; [change (em y o = Some e) in He; congruence|constructor]).
      destruct (vpath_cases HA Hem (vp_one (tb := tb) Hs)) as (_ & _ & S & _). specialize (S C). rewrite Ee in S. split; [exact C|]. split; [exact (proj1 S)|].
      cbn [state_set] in Hs. destruct (allowed_start HA Hs) as [[P _]|M]; [|destruct (cannot_min M Hc)]. destruct Pe as [Fe Ve]. destruct P as [_ Vb].
      replace (- (vl HA e + vl HA (p_start tb y))) with (- vl HA e + - vl HA (p_start tb y)) by ring. apply (@close_add 0); [apply close_one; lra|exact Fe|exact Fb|reflexivity| |exact (proj1 S)]. unfold tb. lra.
    - destruct (em_some He) as [Ee Pe]. apply real_vl in Ha as [_ <-]. apply real_vl in Hb as [Fb <-]. pose proof (step_prob HA Ht) as [_ Vb].
      assert (C : clean_rev em (o :: os) (y :: x :: p)) by (destruct I2 as [C1 C2]; split; [exact C1|]; constructor; [change (em y o = Some e) in He; congruence|exact C2]).
      pose proof (vp_cons I1 Hs Ht) as V. destruct (vpath_cases HA Hem V) as (_ & _ & S & _). specialize (S C). rewrite Ee in *. eexists. split; [exact V|]. split; [exact C|]. split; [exact (proj1 S)|].
      destruct (vpath_cases HA Hem I1) as (_ & _ & Sw & _). specialize (Sw I2). destruct Pe as [Fe Ve].
      pose proof (proj2 (proj2 (add_prob (or_introl Sw) (step_prob HA Ht))) Sw) as [Fm _].
      assert (L : (1 <= length os)%nat) by (inversion I1; subst; cbn [length]; lia).
      replace (2 * length (o :: os) - 1)%nat with (Datatypes.S (Datatypes.S (2 * length os - 1))) by (cbn [length]; lia). replace (- (r + vl HA v + vl HA e)) with (- r + - vl HA v + - vl HA e) by ring.
      apply close_add; [|exact Fm|exact Fe|reflexivity|lra|exact (proj1 S)]. apply close_add; [exact I4|exact I3|exact Fb|reflexivity|lra|exact Fm].
  Qed.
  Lemma prob_real : forall x : f64 E, prob HA x -> real64 HA x = Some (vl HA x).
  Proof. intros x [F _]. apply real_vl. auto. Qed.
  Lemma path_sum : forall os p w, vpath tb os p w -> clean_rev em os p -> exists r, tag_sum HA tb os p r /\ close (2 * length os - 1) (- r) (- vl HA w).
  Proof.
    intros os p w H. induction H as [o y Hs|o y os x p w v Hp IH Hs Ht]; intros [C1 C2].
    - inversion C2 as [|? ? ? ? C3 _]; subst. destruct (em y o) as [e|] eqn:He; [|congruence]. change (p_emit tb y o = Some e) in He. destruct (em_some He) as [Ee Pe]. cbn [last] in C1.
      pose proof Hs as Hs'. cbn [state_set] in Hs'. destruct (allowed_start HA Hs') as [[P _]|M]; [|destruct (cannot_min M C1)].
      exists (vl HA e + vl HA (p_start tb y)). split; [apply (ts_one Hs C1 He); apply prob_real; assumption|].
      destruct (vpath_cases HA Hem (vp_one (tb := tb) Hs)) as (_ & _ & S & _). assert (Sm : small HA (add64 E (emission tb y o) (p_start tb y))) by (apply S; split; assumption). rewrite Ee in *.
      replace (- (vl HA e + vl HA (p_start tb y))) with (- vl HA e + - vl HA (p_start tb y)) by ring. destruct Pe as [Fe Ve]. destruct P as [Fb Vb].
      apply (@close_add 0); [apply close_one; lra|exact Fe|exact Fb|reflexivity| |exact (proj1 Sm)]. unfold tb. lra.
    - inversion C2 as [|? ? ? ? C3 C4]; subst. destruct (em y o) as [e|] eqn:He; [|congruence]. change (p_emit tb y o = Some e) in He. destruct (em_some He) as [Ee Pe].
      assert (C : clean_rev em os (x :: p)) by (split; assumption). destruct (IH C) as (r & I1 & I2). pose proof (step_prob HA Ht) as Pv.
      exists (r + vl HA v + vl HA e). split; [apply (ts_cons I1 Hs Ht (prob_real Pv) He (prob_real Pe))|].
      pose proof (vp_cons Hp Hs Ht) as V. destruct (vpath_cases HA Hem V) as (_ & _ & S & _). assert (Sm : small HA (add64 E (add64 E w v) (emission tb y o))) by (apply S; split; assumption). rewrite Ee in *.
      destruct (vpath_cases HA Hem Hp) as (_ & _ & Sw & _). specialize (Sw C). destruct Pe as [Fe Ve].
      pose proof (proj2 (proj2 (add_prob (or_introl Sw) Pv)) Sw) as [Fm _]. destruct Pv as [Fv Vv].
      assert (L : (1 <= length os)%nat) by (inversion Hp; subst; cbn [length]; lia).
      replace (2 * length (o :: os) - 1)%nat with (Datatypes.S (Datatypes.S (2 * length os - 1))) by (cbn [length]; lia). replace (- (r + vl HA v + vl HA e)) with (- r + - vl HA v + - vl HA e) by ring.
      apply close_add; [|exact Fm|exact Fe|reflexivity|lra|exact (proj1 Sm)]. apply close_add; [exact I2|exact (proj1 Sw)|exact Fv|reflexivity|lra|exact Fm].
  Qed.
  Lemma c106 : forall od obs q r, orders_ok od -> (INR (length obs) <= 2 ^ 48) -> tag_sum HA tb (rev obs) (rev q) r ->
    exists path r0, pos_viterbi tb od obs = Ok path /\ tag_sum HA tb (rev obs) (rev path) r0 /\ r * (1 + INR (length obs) / 2 ^ 50) <= r0.
  Proof.
    intros od obs q r Ho Hn Hq. destruct (sum_path Hq) as (w & Q1 & Q2 & Q3 & Q4). assert (Hne : obs <> []) by (intros ->; cbn [rev] in Q1; inversion Q1).
    destruct (viterbi_ok HA (builtin_ok HA (tag_emit_ok HA Hem)) Ho Hne) as (path & w0 & H1 & H2 & H3).
    destruct (vpath_cases HA Hem Q1) as (N1 & _ & S1 & _). specialize (S1 Q2). destruct (vpath_cases HA Hem H2) as (N2 & O2 & _ & S2). destruct (H3 _ _ Q1) as [B _].
    destruct O2 as [O2|O2]; [|exfalso; apply (le_vl (proj1 S1) (proj1 O2)) in B; pose proof (big_lt_small S1 O2); lra]. destruct (S2 O2) as [C _].
    destruct (path_sum H2 C) as (r0 & P1 & P2). exists path, r0. split; [exact H1|]. split; [exact P1|]. apply (le_vl (proj1 S1) (proj1 O2)) in B. rewrite rev_length in *.
    set (N := length obs) in *. destruct Q4 as (R1 & _ & _ & U). destruct P2 as (R2 & _ & L & _). pose proof u64_range as Hu.
    assert (HN : INR (2 * N) * u64 <= / 16). { rewrite mult_INR. change (INR 2) with 2. change u64 with (/ 9007199254740992). lra. }
    assert (Q : - r0 <= - r * (1 + 4 * (INR (2 * N) * u64))). { apply (@ratio u64 (2 * N) (2 * N - 1) (2 * N - 1)); [lra|exact HN|lia|lia|exact R2|exact R1|lra]. }
    rewrite mult_INR in Q. change (INR 2) with 2 in Q. change u64 with (/ 9007199254740992) in Q. replace (1 + INR N / 2 ^ 50) with (1 + 4 * (2 * INR N * / 9007199254740992)) by lra. lra.
  Qed.
End N.
