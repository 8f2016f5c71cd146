(** Changing one frequency with ReAddToken (C110). *)
From Verif Require Import S_Raise M_Out P_Split P_Dict P_Seg2 P_Hist P_Exact P_Exact2.
From Coq Require Import Lra.
Set Implicit Arguments. Unset Strict Implicit.

Lemma calc_stored : forall E c (d0 d : dict E), reachable c d0 -> calc_token d0 = Ok d -> d_total d = d_total d0 /\ (forall x, dict_value d x = dict_value d0 x) /\
  forall x g, stored d x g <-> stored d0 x g.
Proof.
  intros E c d0 d Hr H. destruct (calc_token_spec (inv_ok (reachable_inv Hr))) as (d' & H1 & _ & H2 & _ & H3 & _ & H4 & _). rewrite H in H1. injection H1 as <-.
  assert (K : forall x, dict_value d x = dict_value d0 x) by (intro x; rewrite !dict_value_get, H2; reflexivity).
  split; [exact H3|]. split; [exact K|].
  intros x g. split; intros (v & t & V1 & V2 & V3).
  - assert (M : nth_error (map (@t_freq E) (d_tokens d0)) v = Some g) by (rewrite <- H4, nth_error_map, V2; cbn [option_map]; congruence).
    rewrite nth_error_map in M. destruct (nth_error (d_tokens d0) v) as [u|] eqn:U; [|discriminate]. injection M as M. exists v, u. rewrite <- K. auto.
  - assert (M : nth_error (map (@t_freq E) (d_tokens d)) v = Some g) by (rewrite H4, nth_error_map, V2; cbn [option_map]; congruence).
    rewrite nth_error_map in M. destruct (nth_error (d_tokens d) v) as [u|] eqn:U; [|discriminate]. injection M as M. exists v, u. rewrite K. auto.
Qed.

Section Raise.
  Variables (E : env) (val : f64 E -> option R) (d d' : dict E) (w : bytes) (f f' : f64 E) (a a' t : R).
  Hypothesis Ht : (0 < t)%R.
  Hypothesis Ha : val f = Some a.
  Hypothesis Ha' : val f' = Some a'.
  Hypothesis Pa : (0 < a)%R.
  Hypothesis Pa' : (0 < a')%R.
  Hypothesis Hst : stored d w f.
  Hypothesis Hst' : stored d' w f'.
  Hypothesis Hother : forall x g, x <> w -> (stored d' x g <-> stored d x g).
  Hypothesis Hin : forall x v, dict_value d x = Some v -> exists g, stored d x g.

  Lemma stored_same : forall x g g', stored d x g -> stored d x g' -> g = g'.
  Proof. intros x g g' (v & u & A1 & A2 & A3) (v' & u' & B1 & B2 & B3). congruence. Qed.
  Lemma shift : forall ws qs r, likely val d t ws qs r ->
    likely val d' (t + a') ws qs (r * ((t / (t + a')) ^ dict_words d qs * (a' / a) ^ times w qs))%R.
  Proof.
    induction 1 as [|p rest qs r g b Hp Hg Hb H IH|x rest qs r Hx H IH]; unfold dict_words, times in *; cbn [filter length pow].
    - replace (1 * (1 * 1))%R with 1%R by lra. constructor.
    - pose proof Hg as (v & u & V1 & _). rewrite V1. cbn [length pow]. destruct (beqb w (concat p)) eqn:B.
      + apply beqb_eq in B. rewrite <- B in Hg. pose proof (stored_same Hg Hst) as ->. rewrite Ha in Hb. injection Hb as <-.
        cbn [length pow]. match goal with |- likely _ _ _ _ _ (_ * (_ * ?k * (_ * ?m)))%R => replace (a / t * r * (t / (t + a') * k * (a' / a * m)))%R with (a' / (t + a') * (r * (k * m)))%R by (field; lra) end.
        apply lk_word with f'; [exact Hp|rewrite <- B; exact Hst'|exact Ha'|exact IH].
      + assert (N : concat p <> w) by (intro K; rewrite K, beqb_refl in B; discriminate).
        match goal with |- likely _ _ _ _ _ (_ * (_ * ?k * ?m))%R => replace (b / t * r * (t / (t + a') * k * m))%R with (b / (t + a') * (r * (k * m)))%R by (field; lra) end.
        apply lk_word with g; [exact Hp|apply Hother; assumption|exact Hb|exact IH].
    - destruct (dict_value d x) as [v|] eqn:V; [destruct (Hin V) as (g & G); destruct (Hx g G)|].
      assert (N : x <> w) by (intro K; subst x; exact (Hx f Hst)).
      destruct (beqb w x) eqn:B; [apply beqb_eq in B; congruence|]. rewrite Rmult_assoc. apply lk_other; [|exact IH].
      intros g G. apply (Hother g N) in G. exact (Hx g G).
  Qed.

  Lemma back : forall ws qs r', likely val d' (t + a') ws qs r' ->
    exists r, likely val d t ws qs r /\ r' = (r * ((t / (t + a')) ^ dict_words d qs * (a' / a) ^ times w qs))%R.
  Proof.
    induction 1 as [|p rest qs r g b Hp Hg Hb H (r0 & IH & ->)|x rest qs r Hx H (r0 & IH & ->)]; unfold dict_words, times; cbn [filter length pow].
    - exists 1%R. split; [constructor|lra].
    - destruct (beqb w (concat p)) eqn:B.
      + apply beqb_eq in B. assert (G : g = f') by (rewrite <- B in Hg; destruct Hg as (v & u & V1 & V2 & V3), Hst' as (v' & u' & W1 & W2 & W3); congruence). subst g. rewrite Ha' in Hb. injection Hb as <-.
        exists (a / t * r0)%R. split; [apply lk_word with f; [exact Hp|rewrite <- B; exact Hst|exact Ha|exact IH]|].
        pose proof Hst as (v & u & V1 & _). rewrite <- B, V1. cbn [length pow]. fold (times w qs). field. lra.
      + assert (N : concat p <> w) by (intro K; rewrite K, beqb_refl in B; discriminate). apply (Hother g N) in Hg.
        exists (b / t * r0)%R. split; [apply lk_word with g; [exact Hp|exact Hg|exact Hb|exact IH]|].
        destruct Hg as (v & u & V1 & _). rewrite V1. cbn [length pow]. field. lra.
    - assert (N : x <> w) by (intro K; subst x; exact (Hx f' Hst')).
      assert (No : forall g, ~ stored d x g) by (intros g G; apply (Hother g N) in G; exact (Hx g G)).
      destruct (dict_value d x) as [v|] eqn:V; [destruct (Hin V) as (g & G); destruct (No g G)|].
      destruct (beqb w x) eqn:B; [apply beqb_eq in B; congruence|].
      exists (/ 2 ^ 32 * r0)%R. split; [apply lk_other; assumption|]. rewrite Rmult_assoc. reflexivity.
  Qed.

  Lemma likely_pos : forall ws qs r, (forall x g, stored d x g -> exists b, val g = Some b /\ (0 < b)%R) -> likely val d t ws qs r -> (0 < r)%R.
  Proof.
    intros ws qs r Hs H. induction H as [|p rest qs r g b Hp Hg Hb H IH|x rest qs r Hx H IH]; [lra| |].
    - destruct (Hs _ _ Hg) as (b' & B1 & B2). rewrite Hb in B1. injection B1 as <-. apply Rmult_lt_0_compat; [apply Rdiv_lt_0_compat; lra|exact IH].
    - apply Rmult_lt_0_compat; [apply Rinv_0_lt_compat, pow_lt; lra|exact IH].
  Qed.
End Raise.

(** With 0 < s < 1, s^k rho^m <= s^k' rho^m'. *)
Lemma pow_down : forall s k k', (0 < s < 1)%R -> k <= k' -> (s ^ k' <= s ^ k)%R.
Proof.
  intros s k k' Hs H. induction H; [lra|]. cbn [pow]. apply Rle_trans with (s ^ m)%R; [|exact IHle]. pose proof (pow_lt s m ltac:(lra)). nra.
Qed.
Lemma pow_up : forall r m m', (1 <= r)%R -> m <= m' -> (r ^ m <= r ^ m')%R.
Proof. intros. apply Rle_pow; assumption. Qed.
Lemma trade : forall s rho k m k' m', (0 < s < 1)%R -> (0 < rho)%R -> (s ^ k * rho ^ m <= s ^ k' * rho ^ m')%R ->
  ((1 < rho)%R -> m' < m -> k' < k) /\ ((rho < 1)%R -> m < m' -> k' < k) /\ (rho = 1%R -> k' <= k).
Proof.
  intros s rho k m k' m' Hs Hr H.
  pose proof (pow_lt s k ltac:(lra)). pose proof (pow_lt s k' ltac:(lra)). pose proof (pow_lt rho m Hr). pose proof (pow_lt rho m' Hr).
  split; [|split].
  - intros R1 Hm. destruct (le_lt_dec k k') as [K|K]; [|exact K]. exfalso. pose proof (pow_down Hs K).
    assert (rho ^ m' < rho ^ m)%R by (apply Rlt_pow; [exact R1|lia]).
    apply Rle_not_lt in H. apply H. apply Rle_lt_trans with (s ^ k * rho ^ m')%R; [apply Rmult_le_compat_r; lra|apply Rmult_lt_compat_l; lra].
  - intros R1 Hm. destruct (le_lt_dec k k') as [K|K]; [|exact K]. exfalso. pose proof (pow_down Hs K).
    assert (rho ^ m' < rho ^ m)%R.
    { assert (Hle : (rho ^ m' <= rho ^ S m)%R) by (apply pow_down; [lra|lia]). cbn [pow] in Hle. nra. }
    apply Rle_not_lt in H. apply H. apply Rle_lt_trans with (s ^ k * rho ^ m')%R; [apply Rmult_le_compat_r; lra|apply Rmult_lt_compat_l; lra].
  - intros ->. rewrite !pow1, !Rmult_1_r in H. destruct (le_lt_dec k' k) as [K|K]; [exact K|]. exfalso.
    assert (Hle : (s ^ k' <= s ^ S k)%R) by (apply pow_down; [exact Hs|exact K]). cbn [pow] in Hle. nra.
Qed.

Section Main.
  Variables (E : env) (val : f64 E -> option R) (val32 : f32 E -> option R) (c : cfg) (d0 d d1 d' : dict E) (t a a' : R) (w pos : bytes) (f f' : f64 E).
  Hypothesis X : exact val.
  Hypothesis X32 : exact32 val val32.
  Hypothesis Hr : reachable c d0.
  Hypothesis Htot : val (d_total d0) = Some t.
  Hypothesis Hs : forall x g, stored d0 x g -> exists b, val g = Some b /\ (0 < b < t)%R.
  Hypothesis Hn : norm E c w = w.
  Hypothesis Hst : stored d0 w f.
  Hypothesis Ha : val f = Some a.
  Hypothesis Ha' : val f' = Some a'.
  Hypothesis Pa' : (0 < a')%R.
  Hypothesis Hc : calc_token d0 = Ok d.
  Hypothesis Hre : seg_readd_token c d0 w f' pos = Ok (d1, false).
  Hypothesis Hc' : calc_token d1 = Ok d'.

  Lemma readd_reachable : reachable c d1.
  Proof. destruct Hr as (os & Ho). exists (os ++ [OpReAdd w f' pos]). rewrite run_ops_app, Ho. cbn [bind run_ops run_op]. rewrite Hre. reflexivity. Qed.
  Lemma raised : forall s ps qs, seg_slice c (Some d) s false = Ok ps -> seg_slice c (Some d') s false = Ok qs ->
    ((a < a')%R -> times w qs < times w ps -> dict_words d qs < dict_words d ps) /\
    ((a' < a)%R -> times w ps < times w qs -> dict_words d qs < dict_words d ps) /\
    (a' = a -> dict_words d qs <= dict_words d ps).
  Proof.
    intros s ps qs Hps Hqs. pose proof readd_reachable as Hr1. destruct (calc_stored Hr Hc) as (T1 & T2 & T3). destruct (calc_stored Hr1 Hc') as (T1' & T2' & T3').
    destruct (Hs Hst) as (a0 & A1 & A2). rewrite Ha in A1. injection A1 as <-.
    assert (Hv : dict_value d0 w <> None) by (destruct Hst as (v & u & V & _); congruence).
    destruct (readded_changed (reachable_inv Hr) Hn Hr Hv Hre) as (_ & C2 & C3 & C4).
    assert (HT : val (d_total d) = Some t) by (rewrite T1; exact Htot).
    assert (HT' : val (d_total d') = Some (t + a')%R) by (rewrite T1', C4, (v_add X), Htot, Ha'; reflexivity).
    assert (Sd : forall x g, stored d x g -> exists b, val g = Some b /\ (0 < b < t)%R) by (intros x g G; apply Hs with x; apply T3; exact G).
    assert (Sd' : forall x g, stored d' x g -> exists b, val g = Some b /\ (0 < b < t + a')%R).
    { intros x g G. apply T3' in G. destruct (list_eq_dec Byte.byte_eq_dec x w) as [->|N].
      - destruct C2 as (v & u & U1 & U2 & U3). destruct G as (v' & u' & W1 & W2 & W3). assert (H : g = f') by congruence. exists a'. split; [rewrite H; exact Ha'|lra].
      - apply (C3 x g N) in G. destruct (Hs G) as (b & B1 & B2). exists b. split; [exact B1|lra]. }
    assert (Hws : split_words E c s = Ok (wsplit E c s)) by apply split_words_eq.
    destruct (most_probable X32 Hr Hc HT Sd Hws) as (ps1 & r & P1 & P2 & P3). rewrite Hps in P1. injection P1 as <-.
    destruct (most_probable X32 Hr1 Hc' HT' Sd' Hws) as (qs1 & r' & Q1 & Q2 & Q3). rewrite Hqs in Q1. injection Q1 as <-.
    assert (Dst : stored d w f) by (apply T3; exact Hst). assert (Dst' : stored d' w f') by (apply T3'; exact C2).
    assert (Doth : forall x g, x <> w -> (stored d' x g <-> stored d x g)) by (intros x g N; rewrite T3', T3; apply C3; exact N).
    assert (Din : forall x v, dict_value d x = Some v -> exists g, stored d x g).
    { intros x v V. rewrite dict_value_get in V. destruct (ok_entry (inv_ok (reachable_inv (calc_reachable Hr Hc))) V) as (u & U & _). exists (t_freq u), v, u. rewrite dict_value_get. auto. }
    assert (Pt : (0 < t)%R) by lra. assert (Pa : (0 < a)%R) by lra.
    pose proof (shift Pt Ha Ha' Pa Pa' Dst Dst' Doth Din P2) as SP.
    assert (BK : exists r0, likely val d t (wsplit E c s) qs r0 /\ r' = (r0 * ((t / (t + a')) ^ dict_words d qs * (a' / a) ^ times w qs))%R).
    { apply (back Pt Ha Ha' Pa Pa' Dst Dst' Doth Din Q2). }
    destruct BK as (r0 & L0 & ->). specialize (P3 _ _ L0). specialize (Q3 _ _ SP).
    assert (Pr : (0 < r0)%R) by (apply likely_pos with E val d t (wsplit E c s) qs; [lra|intros x g G; destruct (Sd x g G) as (b & B1 & B2); exists b; split; [exact B1|lra]|exact L0]).
    set (k := dict_words d ps) in *. set (k' := dict_words d qs) in *. set (m := times w ps) in *. set (m' := times w qs) in *.
    assert (Hs1 : (0 < t / (t + a') < 1)%R).
    { split; [apply Rdiv_lt_0_compat; lra|]. apply Rmult_lt_reg_r with (t + a')%R; [lra|]. unfold Rdiv. rewrite Rmult_assoc, Rinv_l by lra. lra. }
    assert (Hrho : (0 < a' / a)%R) by (apply Rdiv_lt_0_compat; lra).
    assert (K : ((t / (t + a')) ^ k * (a' / a) ^ m <= (t / (t + a')) ^ k' * (a' / a) ^ m')%R).
    { apply Rmult_le_reg_l with r0; [exact Pr|]. apply Rle_trans with (2 := Q3). apply Rmult_le_compat_r; [|exact P3].
      apply Rlt_le, Rmult_lt_0_compat; apply pow_lt; lra. }
    destruct (trade Hs1 Hrho K) as (U1 & U2 & U3). split; [|split].
    - intro G. apply U1. apply Rmult_lt_reg_r with a; [lra|]. unfold Rdiv. rewrite Rmult_assoc, Rinv_l by lra. lra.
    - intro G. apply U2. apply Rmult_lt_reg_r with a; [lra|]. unfold Rdiv. rewrite Rmult_assoc, Rinv_l by lra. lra.
    - intros ->. apply U3. unfold Rdiv. apply Rinv_r. lra.
  Qed.
End Main.
