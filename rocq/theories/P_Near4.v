(** Segment against the exact probabilities of the words (C105). *)
From Verif Require Import S_Near S_Near3 M_Out P_Ieee P_Sum P_Near P_Seg P_Seg2 P_Seg3 P_Out P_Hist P_Meta4 P_Exact P_Exact2.
From Coq Require Import ZArith Reals Lra Lia List.
From Flocq Require Import Core IEEE754.BinarySingleNaN.
Import ListNotations.
Set Implicit Arguments. Unset Strict Implicit.

Local Open Scope R_scope.
Notation rnd32 := (round radix2 (SpecFloat.fexp 24 128) ZnearestE).
Lemma rnd32_abs : forall x, Rabs x <= 128 -> Rabs (rnd32 x - x) <= / 2 ^ 17 /\ Rabs (rnd32 x) < bpow radix2 128.
Proof.
  intros x Hx. assert (V : Valid_exp (SpecFloat.fexp 24 128)) by exact (fexp_correct 24 128 prec32). assert (A : Rabs (rnd32 x - x) <= / 2 ^ 17).
  { apply Rle_trans with (/ 2 * ulp radix2 (SpecFloat.fexp 24 128) x); [apply error_le_half_ulp; exact V|].
    assert (M : Monotone_exp (SpecFloat.fexp 24 128)) by (change (SpecFloat.fexp 24 128) with (FLT_exp (-149) 24); apply FLT_exp_monotone).
    assert (U : ulp radix2 (SpecFloat.fexp 24 128) x <= ulp radix2 (SpecFloat.fexp 24 128) (bpow radix2 7)).
    { apply ulp_le; [exact V|exact M|]. rewrite (Rabs_pos_eq (bpow radix2 7)) by apply bpow_ge_0. exact Hx. }
    rewrite ulp_bpow in U. change (bpow radix2 (SpecFloat.fexp 24 128 (7 + 1))) with (/ 65536) in U. lra. }
  split; [exact A|]. apply Rle_lt_trans with 256; [|apply (bpow_lt radix2 8 128); lia]. replace (rnd32 x) with ((rnd32 x - x) + x) by ring.
  apply Rle_trans with (1 := Rabs_triang _ _). lra.
Qed.
Lemma conv_val : forall x : b64, is_finite x = true -> Rabs (B2R x) <= 128 -> is_finite (conv_32 x) = true /\ Rabs (B2R (conv_32 x) - B2R x) <= / 2 ^ 17.
Proof.
  intros x F B. destruct x as [s|s| |s m e b]; try discriminate F.
  - split; [reflexivity|]. cbn [conv_32 B2R]. rewrite Rminus_0_r, Rabs_R0. lra.
  - cbn [conv_32]. pose proof (binary_normalize_correct 24 128 prec32 max32 mode_NE (cond_Zopp s (Zpos m)) e s) as C. cbv zeta in C. change (round_mode mode_NE) with ZnearestE in C.
    destruct (rnd32_abs B) as [R1 R2]. cbn [B2R] in *. rewrite Rlt_bool_true in C by exact R2. destruct C as (C1 & C2 & _). split; [exact C2|]. rewrite C1. exact R1.
Qed.
Lemma minus_val : forall x y : b32, is_finite x = true -> is_finite y = true -> Rabs (B2R x - B2R y) <= 128 ->
  let z := @Bminus 24 128 prec32 max32 mode_NE x y in is_finite z = true /\ Rabs (B2R z - (B2R x - B2R y)) <= / 2 ^ 17.
Proof.
  intros x y Fx Fy B z. pose proof (Bminus_correct 24 128 prec32 max32 mode_NE x y Fx Fy) as C. change (round_mode mode_NE) with ZnearestE in C.
  destruct (rnd32_abs B) as [R1 R2]. rewrite Rlt_bool_true in C by exact R2. destruct C as (C1 & C2 & _). split; [exact C2|]. unfold z. rewrite C1. exact R1.
Qed.
Lemma near_dist : forall A (H : A = ieee) (x y : f64 A) a b, real64 H x = Some a -> real64 H y = Some b -> -1 <= a <= 65 -> -1 <= b <= 65 ->
  exists z, real32 H (sub32 A (to32 A x) (to32 A y)) = Some z /\ Rabs (z - (a - b)) <= 3 / 2 ^ 17 /\ (0 < z -> ltb32 A (lit32 A 0 0) (sub32 A (to32 A x) (to32 A y)) = true).
Proof.
  intros A H. subst A. intros x y a b Hx Hy Ba Bb. unfold real64, real32 in *. cbn [eq_rect f64 f32 ieee to32 sub32 ltb32 lit32] in *.
  destruct (is_finite x) eqn:Fx; [|discriminate Hx]. injection Hx as Hx. destruct (is_finite y) eqn:Fy; [|discriminate Hy]. injection Hy as Hy.
  destruct (@conv_val x Fx) as [X1 X2]; [rewrite Hx; apply Rabs_le; lra|]. destruct (@conv_val y Fy) as [Y1 Y2]; [rewrite Hy; apply Rabs_le; lra|].
  apply Rabs_le_inv in X2. apply Rabs_le_inv in Y2. destruct (@minus_val (conv_32 x) (conv_32 y) X1 Y1) as [Z1 Z2]; [apply Rabs_le; lra|]. apply Rabs_le_inv in Z2.
  exists (B2R (@Bminus 24 128 prec32 max32 mode_NE (conv_32 x) (conv_32 y))). rewrite Z1. split; [reflexivity|]. split; [apply Rabs_le; lra|].
  intro P. rewrite Bltb_correct by (reflexivity || exact Z1). apply Rlt_bool_true. exact P.
Qed.

Lemma lg_range : forall a, 1 <= a <= 2 ^ 64 -> 0 <= ln a / ln 2 <= 64.
Proof.
  intros a Ha. pose proof ln2 as L. assert (0 <= ln a) as H0 by (rewrite <- ln_1; destruct (Req_dec a 1) as [-> |K]; [lra|apply Rlt_le, ln_increasing; lra]).
  assert (ln a <= 64 * ln 2) as H1.
  { replace (64 * ln 2) with (ln (2 ^ 64)) by (rewrite ln_pow by lra; f_equal; cbn [INR]; lra). destruct (Req_dec a (2 ^ 64)) as [-> |K]; [lra|apply Rlt_le, ln_increasing; lra]. }
  split; [apply Rmult_le_pos; [exact H0|apply Rlt_le, Rinv_0_lt_compat, L]|]. apply (Rmult_le_reg_r (ln 2)); [exact L|]. unfold Rdiv. rewrite Rmult_assoc, Rinv_l by lra. lra.
Qed.
Lemma lg_gap : forall a t, 1 <= a -> a * (1 + / 2 ^ 12) <= t -> / 2 ^ 13 <= ln t / ln 2 - ln a / ln 2.
Proof.
  intros a t Ha Ht. pose proof ln2 as L. assert (L2 : ln 2 <= 1). { rewrite <- (ln_exp 1). apply Rlt_le, ln_increasing; [lra|]. pose proof (exp_ineq1 1 ltac:(lra)). lra. }
  assert (K : / 2 ^ 13 <= ln (1 + / 2 ^ 12)).
  { assert (Q : ln (/ (1 + / 2 ^ 12)) <= - / 2 ^ 13). { rewrite <- (ln_exp (- / 2 ^ 13)). apply Rlt_le, ln_increasing; [apply Rinv_0_lt_compat; lra|]. pose proof (exp_ineq1 (- / 2 ^ 13) ltac:(lra)). lra. } rewrite ln_Rinv in Q by lra. lra. }
  assert (G : ln a + ln (1 + / 2 ^ 12) <= ln t). { rewrite <- ln_mult by lra. destruct (Req_dec (a * (1 + / 2 ^ 12)) t) as [-> |N]; [lra|apply Rlt_le, ln_increasing; [|lra]]. apply Rmult_lt_0_compat; lra. }
  replace (ln t / ln 2 - ln a / ln 2) with ((ln t - ln a) * / ln 2) by (field; lra). apply Rle_trans with ((/ 2 ^ 13) * 1); [lra|]. apply Rmult_le_compat; try lra. rewrite <- Rinv_1. apply Rinv_le; lra.
Qed.

Section Near4.
  Variables (E : env) (H : ar E = ieee) (c : cfg) (d0 d : dict E) (T : R).
  Hypothesis Hr0 : reachable c d0.
  Hypothesis Hc : calc_token d0 = Ok d.
  Hypothesis LO : log2_ok H d T.
  Notation val := (real64 H).
  Notation len := (fun r x => real32 H (dist_of d r) = Some x).

  Lemma Tpos : 0 < T.
  Proof. pose proof (l2_range LO). lra. Qed.
  Lemma dist_word : forall w v, dict_value d w = Some v -> exists f a z, stored d w f /\ val f = Some a /\ 0 < a <= T /\
    len (InDict v) z /\ Rabs (z + ln (a / T) / ln 2) <= / 2 ^ 15 /\ 0 < z <= 66 /\ ltb32 E (lit32 E 0 0) (dist_of d (InDict v)) = true.
  Proof.
    intros w v Hv. pose proof (reachable_inv (calc_reachable Hr0 Hc)) as Hi. rewrite P_Dict.dict_value_get in Hv. destruct (P_Dict.ok_entry (inv_ok Hi) Hv) as (t & N & _).
    assert (St : stored d w (t_freq t)) by (exists v, t; rewrite P_Dict.dict_value_get; auto). destruct (l2_freq LO St) as (a & Ha & Hb1 & Hb2). exists (t_freq t), a.
    pose proof (l2_range LO) as RT. destruct (l2_log LO (or_introl eq_refl) (l2_total LO)) as (bt & Bt & Et). destruct (l2_log LO (or_intror (ex_intro _ w St)) Ha) as (ba & Ba & Ea).
    pose proof (lg_range RT) as G1. assert (RA : 1 <= a <= T) by (split; [exact Hb1|]; pose proof (Rmult_le_compat_l a 1 (1 + / 2 ^ 12)); lra). pose proof (@lg_range a ltac:(lra)) as G2. pose proof (lg_gap Hb1 Hb2) as G3.
    apply Rabs_le_inv in Et. apply Rabs_le_inv in Ea. destruct (@near_dist (ar E) H _ _ _ _ Bt Ba) as (z & Z1 & Z2 & Z3); [lra|lra|]. apply Rabs_le_inv in Z2.
    rewrite (dist_of_dict N). destruct (calc_get (inv_ok (reachable_inv Hr0)) Hc N) as (t0 & segs & _ & _ & _ & _ & _ & _ & _ & ->).
    pose proof ln2 as L. assert (Eq : ln (a / T) / ln 2 = ln a / ln 2 - ln T / ln 2). { unfold Rdiv at 2. rewrite ln_mult, ln_Rinv by (try apply Rinv_0_lt_compat; lra). field. lra. }
    exists z. rewrite Eq. split; [exact St|]. split; [exact Ha|]. split; [lra|]. split; [exact Z1|]. split; [apply Rabs_le; lra|]. split; [lra|]. apply Z3. lra.
  Qed.
  Lemma positive : forall w v t, dict_value d w = Some v -> nth_error (d_tokens d) v = Some t -> ltb32 E (lit32 E 0 0) (t_dist t) = true.
  Proof. intros w v t Hv N. destruct (dist_word Hv) as (f & a & z & _ & _ & _ & _ & _ & _ & D). rewrite (dist_of_dict N) in D. exact D. Qed.
  Lemma real_32 : forall A (HA : A = ieee), real32 HA (lit32 A 32 0) = Some 32.
  Proof.
    intros A HA. subst A. unfold real32. cbn [eq_rect lit32 ieee]. replace (is_finite (lit_32 32 0)) with true by (vm_compute; reflexivity). f_equal.
    pose proof (binary_normalize_correct 24 128 prec32 max32 mode_NE 32 0 false) as C. cbv zeta in C. assert (G : F2R (Float radix2 32 0) = bpow radix2 5) by (unfold F2R; cbn; lra).
    rewrite G in C. assert (V : Valid_exp (SpecFloat.fexp 24 128)) by exact (fexp_correct 24 128 prec32). rewrite round_generic in C; [|apply valid_rnd_round_mode|apply generic_format_bpow; unfold SpecFloat.fexp, SpecFloat.emin; lia].
    rewrite Rlt_bool_true in C by (rewrite Rabs_pos_eq by apply bpow_ge_0; apply bpow_lt; lia). destruct C as (C & _). unfold lit_32. rewrite C. cbn. lra.
  Qed.
  Lemma lg_other : ln (/ 2 ^ 32) / ln 2 = -32.
  Proof. rewrite ln_Rinv by (apply pow_lt; lra). rewrite ln_pow by lra. pose proof ln2. replace (INR 32) with 32 by (cbn [INR]; lra). field. lra. Qed.
  Lemma read_pos : forall ws qs r, likely val d T ws qs r -> 0 < r.
  Proof.
    pose proof Tpos. intros ws qs r K. induction K as [|p rest qs r f a Hp Hst Hf K IH|w rest qs r Hw K IH].
    - lra.
    - destruct (l2_freq LO Hst) as (a' & Ha & Hb). assert (a' = a) by congruence. subst a'. apply Rmult_lt_0_compat; [apply Rdiv_lt_0_compat; lra|exact IH].
    - apply Rmult_lt_0_compat; [|exact IH]. apply Rinv_0_lt_compat. apply pow_lt. lra.
  Qed.
  (** The exact length of a reading is minus the logarithm of its probability, nearly. *)
  Definition near (rs : list tref) (r : R) : Prop := exists zs, Forall2 len rs zs /\ Rabs (fold_right Rplus 0 zs + ln r / ln 2) <= INR (length rs) / 2 ^ 15 /\ fold_right Rplus 0 zs <= 66 * INR (length rs).
  Lemma near_nil : near [] 1.
  Proof. exists []. split; [constructor|]. cbn [fold_right length INR]. rewrite ln_1. pose proof ln2. split; [|lra]. replace (0 + 0 / ln 2) with 0 by (field; lra). rewrite Rabs_R0. lra. Qed.
  Lemma near_cons : forall t rs z x r, len t z -> 0 < x -> 0 < r -> z <= 66 -> Rabs (z + ln x / ln 2) <= / 2 ^ 15 -> near rs r -> near (t :: rs) (x * r).
  Proof.
    intros t rs z x r Hz Hx Hr Hb Hd (zs & F & D & B). exists (z :: zs). split; [constructor; assumption|]. cbn [fold_right length]. rewrite S_INR. pose proof ln2.
    apply Rabs_le_inv in Hd. apply Rabs_le_inv in D. rewrite (ln_mult x r Hx Hr). replace ((ln x + ln r) / ln 2) with (ln x / ln 2 + ln r / ln 2) by (field; lra). split; [apply Rabs_le; lra|lra].
  Qed.
  Lemma near_other : forall w rs r, 0 < r -> near rs r -> near (Fallback w :: rs) (/ 2 ^ 32 * r).
  Proof.
    intros w rs r Hr N. apply (@near_cons (Fallback w) rs 32); [apply (real_32 H)|apply Rinv_0_lt_compat, pow_lt; lra|exact Hr|lra| |exact N].
    rewrite lg_other. replace (32 + -32) with 0 by ring. rewrite Rabs_R0. lra.
  Qed.
  Lemma tiling_read : forall ps rs, Forall2 (piece d) ps rs -> exists r, likely val d T (concat ps) (map (text_of d) rs) r /\ near rs r.
  Proof.
    pose proof Tpos. intros ps rs K. induction K as [|p t ps rs Hp K IH]; cbn [concat map].
    - exists 1. split; [constructor|apply near_nil].
    - destruct IH as (r & L & C). pose proof (read_pos L) as Hr. destruct Hp as [p v Hne Hv|w Hw].
      + destruct (dist_word Hv) as (f & a & z & F1 & F2 & F3 & F4 & F5 & F6 & _). exists (a / T * r). split; [rewrite (text_word Hr0 Hc Hv); econstructor; eassumption|].
        apply (near_cons F4); [apply Rdiv_lt_0_compat; lra|exact Hr|lra|exact F5|exact C].
      + exists (/ 2 ^ 32 * r). split; [|apply near_other; assumption].
        change (text_of d (Fallback w)) with (w ++ []). rewrite app_nil_r. cbn [app]. apply lk_other; [apply not_stored; exact Hw|exact L].
  Qed.
  Lemma read_tiling : forall ws qs r, likely val d T ws qs r -> exists ps rs, concat ps = ws /\ Forall2 (piece d) ps rs /\ near rs r.
  Proof.
    pose proof Tpos. intros ws qs r K. induction K as [|p rest qs r f a Hp Hst Hf K IH|w rest qs r Hw K IH].
    - exists [], []. split; [reflexivity|]. split; [constructor|apply near_nil].
    - destruct IH as (ps & rs & I1 & I2 & I3). pose proof (read_pos K) as Hr. pose proof Hst as (v & t & V1 & V2 & V3). exists (p :: ps), (InDict v :: rs).
      split; [cbn [concat]; rewrite I1; reflexivity|]. split; [constructor; [apply piece_dict; assumption|exact I2]|].
      destruct (dist_word V1) as (f' & a' & z & F1 & F2 & F3 & F4 & F5 & F6 & _). assert (f' = f) by (destruct F1 as (v' & t' & G1 & G2 & G3); congruence). subst f'. assert (a' = a) by congruence. subst a'.
      apply (near_cons F4); [apply Rdiv_lt_0_compat; lra|exact Hr|lra|exact F5|exact I3].
    - destruct IH as (ps & rs & I1 & I2 & I3). pose proof (read_pos K) as Hr. exists ([w] :: ps), (Fallback w :: rs).
      split; [cbn [concat app]; rewrite I1; reflexivity|]. split; [constructor; [|exact I2]|apply near_other; assumption].
      apply piece_fallback. destruct (dict_value d w) as [v|] eqn:Hv; [|reflexivity]. exfalso. destruct (dist_word Hv) as (f & a & z & F & _). exact (Hw f F).
  Qed.
  Lemma nearly_probable : forall s ws, split_words E c s = Ok ws -> INR (length ws) <= 2 ^ 20 -> exists qs p, seg_slice c (Some d) s false = Ok qs /\ likely val d T ws qs p /\
    forall qs' q, likely val d T ws qs' q -> Rpower q (1 + INR (length ws) / 2 ^ 22) <= p * Rpower 2 (INR (length ws) / 2 ^ 13).
  Proof.
    intros s ws Hws Hn. pose proof (calc_reachable Hr0 Hc) as Hr. destruct (c01 s false Hr) as (segs & H1 & [(Hf & _)|H2]); [discriminate|].
    destruct (c02 H Hr positive Hws H1 ltac:(discriminate)) as [(ps & P1 & P2) _].
    destruct (tiling_read P2) as (p & L & zs & Z1 & Z2 & _). exists (map (text_of d) (map sg_tok segs)), p. split; [|split].
    - unfold seg_slice. rewrite H1. cbn [bind to_slice]. rewrite loop_texts; [reflexivity|]. apply (covers_deref H2).
    - rewrite <- P1. exact L.
    - intros qs' q L'. destruct (read_tiling L') as (ps' & rs' & Q1 & Q2 & zs' & Y1 & Y2 & Y3).
      pose proof (pieces_length Q2) as N'. rewrite Q1 in N'. pose proof (pieces_length P2) as N0. rewrite P1 in N0. apply le_INR in N'. apply le_INR in N0. set (n := INR (length ws)) in *.
      assert (n0 : 0 <= n) by apply pos_INR.
      destruct (@c102 E c d s false ws segs H Hr positive Hws H1 ltac:(discriminate) Hn rs' (fold_right Rplus 0 zs') (ex_intro _ ps' (conj Q1 Q2)) ltac:(discriminate) (ex_intro _ zs' (conj Y1 eq_refl))) as (r0 & (zs0 & X1 & ->) & X2).
      { apply Rle_trans with (66 * 2 ^ 20); [lra|]. assert (2 ^ 27 <= 2 ^ 127) by (apply Rle_pow; [lra|lia]). lra. }
      assert (zs0 = zs) as ->. { clear - X1 Z1. revert zs Z1. induction X1 as [|x y l l' K1 K2 IH]; intros zs Z; inversion Z; subst; [reflexivity|]. f_equal; [congruence|apply IH; assumption]. }
      fold n in X2. apply Rabs_le_inv in Z2. apply Rabs_le_inv in Y2. pose proof (read_pos L) as Pp. pose proof (read_pos L') as Pq. pose proof ln2 as L2. set (a := fold_right Rplus 0 zs) in *. set (b := fold_right Rplus 0 zs') in *.
      assert (K : ln q / ln 2 * (1 + n / 2 ^ 22) <= ln p / ln 2 + n / 2 ^ 13).
      { assert (b * (1 + n / 2 ^ 22) <= (- (ln q / ln 2) + n / 2 ^ 15) * (1 + n / 2 ^ 22)) by (apply Rmult_le_compat_r; lra).
        assert (n / 2 ^ 15 * (1 + n / 2 ^ 22) <= n / 2 ^ 15 * (5 / 4)) by (apply Rmult_le_compat_l; lra). set (x := ln q / ln 2) in *. set (y := n / 2 ^ 22) in *. lra. }
      unfold Rpower. rewrite <- (exp_ln p Pp) at 1. rewrite <- exp_plus. apply exp_le.
      apply (Rmult_le_compat_r (ln 2)) in K; [|lra]. replace ((ln p / ln 2 + n / 2 ^ 13) * ln 2) with (ln p + n / 2 ^ 13 * ln 2) in K by (field; lra). replace (ln q / ln 2 * (1 + n / 2 ^ 22) * ln 2) with ((1 + n / 2 ^ 22) * ln q) in K by (field; lra). exact K.
  Qed.
End Near4.
