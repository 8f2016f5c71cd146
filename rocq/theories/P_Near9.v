(** The word is kept, with rounding (C109). *)
From Verif Require Import S_Exact S_Near2 S_Near7 Ieee P_Ieee P_Sum P_Idf P_Near2 P_Near3 P_Near6 P_Near7 P_Near8 P_Rank2 P_Exact P_Dag P_Dag2 P_Dag3 P_Hist P_Seg2 P_Dict P_Hmm P_Utf8b P_Laws64 P_Split.
From Coq Require Import ZArith Reals Lra Lia List.
From Flocq Require Import Core Relative IEEE754.BinarySingleNaN.
Import ListNotations.
Set Implicit Arguments. Unset Strict Implicit.
Local Open Scope R_scope.

(** ** The numbers *)
Lemma close_call : forall n t t' a p r r' D D' : R, 1 <= n -> 1 < t -> n * n * t' <= 2 ^ 40 -> 1 <= a -> 0 <= p -> (1 - u64) * (t + a) <= t' ->
  p * t * (1 - (2 * n + 2) * u64) <= a -> r <= p * D -> r' <= (t / t') * (t / t') * r -> a / t' * 1 <= r' * D' ->
  0 <= D <= D' -> D' = Rpower t' (n * n / 2 ^ 48) -> False.
Proof.
  intros n t t' a p r r' D D' Hn Ht Hb Ha Hp Ht' Hs H1 H2 H3 HD HD'. assert (U : u64 = / 9007199254740992) by reflexivity.
  assert (Tp : 0 < t') by (rewrite U in Ht'; lra). assert (N2 : 1 <= n * n) by nra.
  assert (T40 : t' <= 2 ^ 40) by nra.
  assert (Tn : n * t' <= 2 ^ 40) by nra.
  assert (Tt : t + 9 / 10 <= t'). { rewrite U in Ht'. destruct (Rle_or_lt t (2 ^ 41)) as [K|K]; lra. }
  set (x := 40 * (n * n) / 2 ^ 48). assert (X1 : x * t' <= 40 / 256). { unfold x. replace (40 * (n * n) / 2 ^ 48 * t') with (40 * (n * n * t') / 2 ^ 48) by (unfold Rdiv; ring). lra. }
  assert (X0 : 0 <= x) by (unfold x; apply Rmult_le_pos; [lra|apply Rlt_le, Rinv_0_lt_compat; lra]). assert (X2 : x <= 1 / 4) by nra.
  assert (De : D' <= exp x).
  { rewrite HD'. unfold Rpower. assert (L : ln t' <= 40). { apply Rle_trans with (ln (2 ^ 40)); [destruct (Req_dec t' (2 ^ 40)) as [-> |K]; [lra|apply Rlt_le, ln_increasing; lra]|]. rewrite ln_pow by lra. rewrite INR_IZR_INZ. change (Z.of_nat 40) with 40%Z. pose proof ln_2. lra. }
    assert (M : n * n / 2 ^ 48 * ln t' <= x). { unfold x. replace (40 * (n * n) / 2 ^ 48) with (n * n / 2 ^ 48 * 40) by (unfold Rdiv; ring). apply Rmult_le_compat_l; [apply Rmult_le_pos; [lra|apply Rlt_le, Rinv_0_lt_compat; lra]|exact L]. }
    destruct (Req_dec (n * n / 2 ^ 48 * ln t') x) as [-> |K]; [lra|apply Rlt_le, exp_increasing; lra]. }
  assert (D1 : D' * (1 - x) <= 1).
  { apply Rle_trans with (exp x * exp (- x)); [|rewrite <- exp_plus, Rplus_opp_r, exp_0; lra]. apply Rmult_le_compat; [lra|lra|exact De|]. destruct (Req_dec x 0) as [E0|E0]; [rewrite E0, Ropp_0, exp_0; lra|]. pose proof (exp_ineq1 (- x) ltac:(lra)). lra. }
  assert (Q : 0 < t / t') by (apply Rdiv_lt_0_compat; lra). assert (R0 : r' * D' <= (t / t') * (t / t') * (p * D) * D').
  { apply Rmult_le_compat_r; [lra|]. apply Rle_trans with (1 := H2). apply Rmult_le_compat_l; [nra|exact H1]. }
  assert (S1 : a * t' <= t * (p * t) * (D * D')).
  { apply Rmult_le_reg_r with (/ (t' * t')); [apply Rinv_0_lt_compat; nra|]. apply Rle_trans with (a / t' * 1); [apply Req_le; field; lra|]. apply Rle_trans with (1 := H3). apply Rle_trans with (1 := R0). apply Req_le. field. lra. }
  set (e := (2 * n + 2) * u64) in *. assert (E1 : e * t' <= / 1000) by (unfold e; rewrite U; lra). assert (E0 : 0 <= e) by (unfold e; rewrite U; lra). assert (E2 : e <= / 1000) by nra.
  assert (DD : D * D' <= D' * D') by (apply Rmult_le_compat_r; lra).
  assert (S2 : a * t' * (1 - e) <= t * a * (D' * D')).
  { apply Rle_trans with (t * (p * t) * (D * D') * (1 - e)); [apply Rmult_le_compat_r; lra|]. replace (t * (p * t) * (D * D') * (1 - e)) with (t * (p * t * (1 - e)) * (D * D')) by ring.
    assert (0 <= p * t * (1 - e)) by (apply Rmult_le_pos; [apply Rmult_le_pos|]; lra). assert (0 <= D * D') by (apply Rmult_le_pos; lra). apply Rmult_le_compat; [apply Rmult_le_pos; lra|lra|apply Rmult_le_compat_l; lra|exact DD]. }
  assert (S3 : t' * (1 - e) <= t * (D' * D')). { apply Rmult_le_reg_l with a; [lra|]. replace (a * (t' * (1 - e))) with (a * t' * (1 - e)) by ring. replace (a * (t * (D' * D'))) with (t * a * (D' * D')) by ring. exact S2. }
  assert (S4 : t' * (1 - e) * ((1 - x) * (1 - x)) <= t).
  { apply Rle_trans with (t * (D' * D') * ((1 - x) * (1 - x))); [apply Rmult_le_compat_r; [nra|exact S3]|]. replace (t * (D' * D') * ((1 - x) * (1 - x))) with (t * ((D' * (1 - x)) * (D' * (1 - x)))) by ring.
    assert (0 <= D' * (1 - x)) by (apply Rmult_le_pos; lra). assert (D' * (1 - x) * (D' * (1 - x)) <= 1) by nra. nra. }
  assert (S5 : t' - e * t' - 2 * (x * t') <= t' * (1 - e) * ((1 - x) * (1 - x))).
  { replace (t' * (1 - e) * ((1 - x) * (1 - x))) with (t' - e * t' - 2 * (x * t') + t' * (2 * x * e + (1 - e) * (x * x))) by ring. assert (0 <= 2 * x * e + (1 - e) * (x * x)) by nra. nra. }
  lra.
Qed.
Lemma prod_scaled : forall t t' l l', 1 < t -> t <= t' -> Forall2 (fun a' a => 0 <= a' <= a) l' l -> 0 <= prodR t' l' <= (t / t') ^ length l * prodR t l.
Proof.
  intros t t' l l' Ht Htt K. induction K as [|a' a l' l Ha K IH]; cbn [fold_right length pow]; [lra|]. assert (I : 0 < / t') by (apply Rinv_0_lt_compat; lra).
  replace (t / t' * (t / t') ^ length l * (a / t * prodR t l)) with (a / t' * ((t / t') ^ length l * prodR t l)) by (field; lra). assert (A1 : 0 <= a' / t' <= a / t') by (unfold Rdiv; split; [apply Rmult_le_pos; lra|apply Rmult_le_compat_r; lra]).
  split; [apply Rmult_le_pos; lra|]. apply Rmult_le_compat; lra.
Qed.

Lemma n_one : forall E c w, own_spelling E c w -> 1 <= INR (length (runes_of w)).
Proof. intros E c w Hw. destruct (w_runes Hw) as [_ W2]. destruct (runes_of w) as [|x l] eqn:Ew; [destruct Hw as [K _]; cbn in W2; congruence|]. cbn [length]. rewrite S_INR. pose proof (pos_INR (length l)). lra. Qed.
(** ** Keeping the word *)
Section Two.
  Variables (E : env) (H : ar E = ieee) (c : cfg) (d d' : dict E) (w : bytes) (f : f64 E) (t t' : R).
  Hypothesis Hr : reachable c d.
  Hypothesis Hr' : reachable c d'.
  Hypothesis LO : log_ok H d t.
  Hypothesis LO' : log_ok H d' t'.
  Hypothesis Hw : own_spelling E c w.
  Hypothesis Hf : suggest_freq d c [w] = Ok f.
  Hypothesis Hpair : no_ascii_pair w.
  Hypothesis Hst : stored d' w f.
  Hypothesis Hother : forall x g, x <> w -> (stored d' x g <-> stored d x g).
  Hypothesis Htot : d_total d' = add64 E (d_total d) f.
  Notation n := (INR (length (runes_of w))).
  Hypothesis Hn : n * n * t' <= 2 ^ 40.
  Hypothesis Hbest : forall em, exists ps, best_cut d (m_log E (d_total d)) (dag_runes E c w) ps /\
    cut d c em w (Some false) = Ok (map (fun g => string_of_runes (concat (snd g))) (runs eng ps)).

  Lemma t_bounds : 1 < t /\ 1 < t' <= 2 ^ 40 /\ n <= 2 ^ 20.
  Proof.
    pose proof (lo_above LO) as T1. pose proof (lo_above LO') as T2. pose proof (n_one Hw) as N. pose proof Hn as Hn0. set (k := n) in *. clearbody k. assert (N2 : 1 <= k * k) by nra. assert (N3 : 1 * t' <= k * k * t') by (apply Rmult_le_compat_r; lra). assert (N4 : k * k * 1 <= k * k * t') by (apply Rmult_le_compat_l; lra).
    split; [exact T1|]. split; [split; [exact T2|lra]|]. apply Rnot_lt_le. intro L. assert (2 ^ 20 * 2 ^ 20 < k * k) by (apply Rmult_le_0_lt_compat; lra). lra.
  Qed.
  Lemma less : forall x g g' b b', x <> w -> reported d' (lit64 E 1 0) x g' -> real64 H g' = Some b' -> reported d (lit64 E 1 0) x g -> real64 H g = Some b -> 0 <= b' <= b.
  Proof.
    intros x g g' b b' Hx R' B' R B. destruct (lit_real H) as [Z0 Z1].
    assert (Nn : 0 <= b). { destruct R as [R|[(_ & _ & ->)|(_ & ->)]]; [|assert (b = 0) by congruence; lra|assert (b = 1) by congruence; lra]. destruct (lo_freq LO R) as (a & A1 & A2). assert (a = b) by congruence. subst a. destruct A2 as [-> |A2]; lra. }
    destruct R' as [R'|[(_ & _ & ->)|(R' & ->)]].
    - apply (Hother g' Hx) in R'. assert (g = g') by (apply (@reported_one E d x); [exact R|left; exact R']). subst g'. assert (b = b') by congruence. lra.
    - assert (b' = 0) by congruence. lra.
    - assert (g = lit64 E 1 0).
      { apply (@reported_one E d x); [exact R|]. right. right. split; [|reflexivity]. intros y h Hy. destruct (beqb (x ++ y) w) eqn:Eb.
        - apply beqb_eq in Eb. apply (R' y f). rewrite Eb. exact Hst.
        - apply (R' y h). apply Hother; [|exact Hy]. intro Ey. rewrite Ey, beqb_refl in Eb. discriminate. }
      assert (b = 1) by congruence. assert (b' = 1) by congruence. lra.
  Qed.
  Lemma pair_runs : forall ps, concat ps = runes_of w -> map (fun g : bool * list (list rune) => string_of_runes (concat (snd g))) (runs eng ps) = map string_of_runes ps.
  Proof.
    intros ps Hc. apply runs_none. intros l a b r K. destruct (eng a) eqn:Ea; [|reflexivity]. destruct (eng b) eqn:Eb; [|reflexivity]. exfalso.
    unfold eng in Ea, Eb. destruct a as [|x [|? ?]]; try discriminate. destruct b as [|y [|? ?]]; try discriminate.
    assert (C : runes_of w = concat l ++ x :: y :: concat r) by (rewrite <- Hc, K, concat_app; reflexivity). apply Hpair in C. rewrite Ea, Eb in C. discriminate.
  Qed.
  Lemma rsum_f2 : forall ps l, Forall2 (fun p a => exists g, reported d (lit64 E 1 0) (string_of_runes p) g /\ real64 H g = Some a) ps l ->
    Forall2 (fun w a => exists g, reported d (lit64 E 1 0) w g /\ real64 H g = Some a) (map string_of_runes ps) l.
  Proof. intros ps l K. induction K; constructor; assumption. Qed.
  Lemma len_f2 : forall A B (P : A -> B -> Prop) l m, Forall2 P l m -> length l = length m.
  Proof. intros A B P l m K. induction K; cbn; congruence. Qed.
  Lemma t_le : t <= t'.
  Proof.
    destruct t_bounds as (T1 & T2 & _). destruct (lo_freq LO' Hst) as (a & A1 & A2). pose proof (lo_total LO') as Tt. rewrite Htot in Tt.
    destruct (Rle_or_lt (Rabs (t + a)) (2 ^ 60)) as [K|K].
    - rewrite (add_real (lo_total LO) A1 K) in Tt. injection Tt as Tt. rewrite <- Tt. apply rnd_ge; [destruct A2 as [-> |A2]; lra|exact (fmt_real (lo_total LO))].
    - exfalso. rewrite p40 in T2. rewrite p60' in K. assert (A3 : 0 <= a <= t') by (destruct A2 as [-> |A2]; lra). rewrite Rabs_pos_eq in K by lra. assert (Tb : 2 ^ 59 < t) by (rewrite ?p60' in *; lra).
      assert (G : real64 H (add64 E (d_total d) f) = Some t' -> False); [|exact (G Tt)]. clear Tt. intro Tt.
      revert K A1 Tt. generalize (lo_total LO). generalize (d_total d). clear Hst Hf. revert A3 T2 Tb. clear. revert f. destruct E as [A u1 u2 u3 u4 u5 u6 u7 u8 u9 u10 u11 u12 u13 u14]. cbn [ar] in *. subst A. unfold real64. cbn [eq_rect].
      intros f A3 T2 Tb x Hx K Hf Hs. destruct (is_finite x) eqn:Fx; [|discriminate Hx]. destruct (is_finite f) eqn:Ff; [|discriminate Hf]. injection Hx as Hx. injection Hf as Hf.
      pose proof (Bplus_correct 53 1024 prec64 max64 mode_NE x f Fx Ff) as C. cbv zeta in C. cbn [add64 ieee] in Hs. destruct (Rlt_bool _ _) eqn:Er.
      + destruct C as (C1 & C2 & _). rewrite C2, C1 in Hs. injection Hs as Hs. change (round_mode mode_NE) with ZnearestE in Hs. assert (t <= t') by (rewrite <- Hs, Hx, Hf; apply rnd_ge; [lra|rewrite <- Hx; apply generic_format_B2R]). lra.
      + destruct C as (C1 & _). rewrite <- is_finite_SF_B2SF, C1 in Hs. discriminate Hs.
  Qed.
  Lemma kept_best : forall qs, best_cut d' (m_log E (d_total d')) (runes_of w) qs -> qs = [runes_of w].
  Proof.
    intros qs B'. destruct (w_runes Hw) as [W1 W2]. destruct t_bounds as (T1 & T2 & N20). pose proof (n_one Hw) as N1. pose proof t_le as Tle. destruct (Hbest (@no_model E)) as (ps & B & Hc). rewrite W1 in B.
    assert (Hwn : w <> []) by apply Hw. assert (Hrs : runes_of w <> []) by (intro K; rewrite K in W2; cbn in W2; congruence).
    destruct (reported_ex d w) as (g & Hg). destruct (c30_one_value c Hr Hwn Hg) as (segs & q & S1 & S2 & S3). rewrite Hc, (pair_runs (tiles_concat (proj1 B))) in S1. injection S1 as <-.
    destruct (best_near Hr LO B N20) as (p & (l & Rl & Ep) & Bq). assert (Ll : length l = length ps) by (symmetry; exact (len_f2 Rl)). destruct (tiles_pieces (proj1 B)) as [Pn Pl].
    assert (Gb : exists b, real64 H g = Some b). { destruct (lit_real H) as [Z0 Z1]. destruct Hg as [Hg|[(_ & _ & ->)|(_ & ->)]]; [destruct (lo_freq LO Hg) as (b & Hb & _); exists b; exact Hb|eauto|eauto]. }
    assert (Tr : 1 < t <= 2 ^ 40) by lra.
    assert (Li : INR (length l) <= n) by (rewrite Ll; apply le_INR; exact Pl).
    destruct (@sug_real E H d t (lo_total LO) Tr (@lo_freq _ _ _ _ LO) _ l q g S2 (rsum_f2 Rl) Gb) as (a & A1 & A2 & A3 & _). { rewrite mult_INR. cbn [INR]. lra. }
    cbv zeta in S3. rewrite Hf in S3. injection S3 as S3. rewrite <- S3 in A1. rewrite <- Ep in A3.
    assert (A4 : p * t * (1 - (2 * n + 2) * u64) <= a).
    { assert (P0 : 0 <= p). { rewrite Ep. apply (@prod_range t l T1). clear -Rl LO. destruct (lit_real H) as [Z0 Z1]. induction Rl as [|x b ps l (h & F1 & F2) K IH]; constructor; [|exact IH]. destruct F1 as [F1|[(_ & _ & ->)|(_ & ->)]].
        - destruct (lo_freq LO F1) as (b' & B1 & B2). assert (b = b') by congruence. subst b'. pose proof (lo_above LO). destruct B2 as [-> |B2]; lra.
        - assert (b = 0) by congruence. pose proof (lo_above LO). lra.
        - assert (b = 1) by congruence. pose proof (lo_above LO). lra. }
      apply Rle_trans with (2 := A3). apply Rmult_le_compat_l; [apply Rmult_le_pos; lra|]. rewrite plus_INR, mult_INR. cbn [INR]. change u64 with (/ 9007199254740992). lra. }
    assert (Pos : pos_word d' w). { exists f. split; [exact Hst|]. apply (lt_real (proj1 (lit_real H)) A1). lra. }
    assert (Hone : tiles d' (runes_of w) [runes_of w]). { rewrite <- (app_nil_r (runes_of w)) at 1. apply tiles_word; [exact Hrs|rewrite W2; exact Pos|constructor]. }
    destruct (best_near Hr' LO' B' N20) as (r' & (l' & Rl' & Er') & Bq').
    assert (Rone : reading_prob H d' t' [runes_of w] (a / t' * 1)). { exists [a]. split; [|reflexivity]. constructor; [|constructor]. exists f. rewrite W2. split; [left; exact Hst|exact A1]. }
    pose proof (Bq' _ _ Hone Rone) as K3. destruct B' as [B1 _]. inversion B1 as [Hx Hy|p0 rest qs' Hp Hq Ht Hx Hy|b rest qs' Hnn Ht Hx Hy].
    - congruence.
    - destruct rest as [|b rest]. { inversion Ht. - rewrite app_nil_r. reflexivity. - destruct p1; [congruence|discriminate]. }
      exfalso. assert (Pw : string_of_runes p0 <> w) by (apply (@sub_ne E c d d' w f Hw Hother [] p0 (b :: rest)); [symmetry; exact Hx|discriminate]).
      assert (Hrr : tiles d (b :: rest) qs') by (eapply (tiles_back f Hw Hother); [exact Ht| |exact Hp]; symmetry; exact Hx).
      assert (Hd : tiles d (runes_of w) qs). { rewrite <- Hx, <- Hy. apply tiles_word; [exact Hp| |exact Hrr]. apply (pos_other Hother); assumption. }
      assert (Nr : Forall (fun y => string_of_runes y <> w) qs).
      { rewrite <- Hy. constructor; [exact Pw|]. pose proof (tiles_concat Hrr) as N2. apply Forall_forall. intros y Hin. apply in_split in Hin as (l1 & l2 & Hl). rewrite Hl, concat_app in N2. cbn [concat] in N2.
        apply (@sub_ne E c d d' w f Hw Hother (p0 ++ concat l1) y (concat l2)); [rewrite <- app_assoc, N2; symmetry; exact Hx|]. destruct p0; [congruence|discriminate]. }
      destruct (reads_ex Hr LO (proj1 (tiles_pieces Hd))) as (lq & Rq). pose proof (Bq qs (prodR t lq) Hd (ex_intro _ lq (conj Rq eq_refl))) as K1.
      assert (F2 : Forall2 (fun a' a => 0 <= a' <= a) l' lq).
      { clear -Rl' Rq Nr LO Hother Hst. revert lq Rq. induction Rl' as [|x b' qs l' (h' & F1 & F2) K IH]; intros lq Rq; inversion Rq as [|? b ? lq' (h & G1 & G2) K2]; subst; constructor.
        - inversion Nr; subst. eapply less; eassumption.
        - inversion Nr; subst. apply IH; assumption. }
      destruct (prod_scaled T1 Tle F2) as [_ K2]. rewrite <- Er' in K2.
      assert (Lq : (2 <= length lq)%nat). { rewrite <- (len_f2 Rq), <- Hy. destruct qs' as [|z qs']; [inversion Ht|]. cbn [length]. lia. }
      assert (Sc : 0 < t / t' <= 1). { split; [apply Rdiv_lt_0_compat; lra|]. apply Rmult_le_reg_r with t'; [lra|]. unfold Rdiv. rewrite Rmult_assoc, Rinv_l by lra. lra. }
      assert (Pq : 0 <= prodR t lq). { clear -F2 T1. induction F2 as [|a' a l' l Ha K IH]; cbn [fold_right]; [lra|]. apply Rmult_le_pos; [|exact IH]. unfold Rdiv. apply Rmult_le_pos; [lra|apply Rlt_le, Rinv_0_lt_compat; lra]. }
      assert (K2' : r' <= t / t' * (t / t') * prodR t lq).
      { apply Rle_trans with (1 := K2). apply Rmult_le_compat_r; [exact Pq|]. destruct (length lq) as [|[|k]]; [lia|lia|]. cbn [pow]. rewrite <- Rmult_assoc. assert (Pk : 0 < (t / t') ^ k <= 1). { split; [apply pow_lt; lra|]. rewrite <- (pow1 k). apply pow_incr. lra. } nra. }
      assert (P0 : 0 <= p). { assert (R1 : 0 < Rpower t (n * n / 2 ^ 48)) by apply exp_pos. nra. }
      assert (At : Rabs (t + a) <= 2 ^ 60).
      { destruct (lo_freq LO' Hst) as (a' & X1 & X2). assert (a = a') by congruence. subst a'. rewrite Rabs_pos_eq by lra. rewrite p60'. rewrite p40 in *. destruct X2 as [X2|X2]; lra. }
      pose proof (lo_total LO') as Tt. rewrite Htot, (add_real (lo_total LO) A1 At) in Tt. injection Tt as Tt.
      assert (T3 : (1 - u64) * (t + a) <= t').
      { rewrite <- Tt. apply rnd64_rel. right. rewrite Rabs_pos_eq in At by lra. split; [apply Rle_trans with 1; [change 1 with (bpow radix2 0); apply bpow_le; lia|lra]|]. apply Rle_trans with (1 := At). rewrite p60. apply bpow_le. lia. }
      apply (@close_call n t t' a p (prodR t lq) r' (Rpower t (n * n / 2 ^ 48)) (Rpower t' (n * n / 2 ^ 48))); try assumption; [|reflexivity].
      split; [apply Rlt_le, exp_pos|]. unfold Rpower. assert (Ll2 : ln t <= ln t') by (destruct (Req_dec t t') as [-> |Ne]; [lra|apply Rlt_le, ln_increasing; lra]).
      assert (Dn : 0 <= n * n / 2 ^ 48) by (apply Rmult_le_pos; [nra|apply Rlt_le, Rinv_0_lt_compat; lra]). assert (Le : n * n / 2 ^ 48 * ln t <= n * n / 2 ^ 48 * ln t') by (apply Rmult_le_compat_l; assumption).
      destruct (Req_dec (n * n / 2 ^ 48 * ln t) (n * n / 2 ^ 48 * ln t')) as [-> |Ne]; [lra|apply Rlt_le, exp_increasing; lra].
    - exfalso. apply (Hnn (runes_of w) []); [rewrite app_nil_r; auto|exact Hrs|]. rewrite W2. exact Pos.
  Qed.
End Two.

(** ** The conditions on the new dictionary *)
Lemma logs : forall (E : env) (H : ar E = ieee) (d : dict E) t, accurate_log H -> freqs_ok H d t -> log_ok H d t.
Proof.
  intros E H d t AL FO. destruct FO as [F1 F2 F3]. constructor.
  - exact F1.
  - exact F2.
  - exact F3.
  - exact (al_zero AL).
  - intros f a _. apply (al_log AL).
  - intros w f Hf. destruct (F3 w f Hf) as (a & A1 & A2). apply (al_mono AL A1 F1); [destruct A2 as [A2|A2]; lra|lra|destruct A2 as [A2|A2]; lra].
Qed.
Section New.
  Variables (E : env) (H : ar E = ieee) (c : cfg) (d d' : dict E) (w : bytes) (f : f64 E) (t : R).
  Hypothesis Hr : reachable c d.
  Hypothesis AL : accurate_log H.
  Hypothesis FO : freqs_ok H d t.
  Hypothesis Hw : own_spelling E c w.
  Hypothesis Hf : suggest_freq d c [w] = Ok f.
  Hypothesis Hpair : no_ascii_pair w.
  Hypothesis Hst : stored d' w f.
  Hypothesis Hother : forall x g, x <> w -> (stored d' x g <-> stored d x g).
  Hypothesis Htot : d_total d' = add64 E (d_total d) f.
  Notation n := (INR (length (runes_of w))).
  Hypothesis Hn : n * n * t <= 2 ^ 38.
  Hypothesis Hbest : forall em, exists ps, best_cut d (m_log E (d_total d)) (dag_runes E c w) ps /\
    cut d c em w (Some false) = Ok (map (fun g => string_of_runes (concat (snd g))) (runs eng ps)).
  Lemma new_ok : exists t', freqs_ok H d' t' /\ n * n * t' <= 2 ^ 40.
  Proof.
    pose proof (logs AL FO) as LO. destruct (w_runes Hw) as [W1 W2]. pose proof (n_one Hw) as N1. pose proof (fo_above FO) as T1. pose proof Hn as Hn0. set (k := n) in *.
    assert (N2 : 1 <= k * k) by nra. assert (N3 : 1 * t <= k * k * t) by (apply Rmult_le_compat_r; lra). assert (N4 : k * k * 1 <= k * k * t) by (apply Rmult_le_compat_l; lra).
    assert (K20 : k <= 2 ^ 20). { apply Rnot_lt_le. intro L. assert (2 ^ 20 * 2 ^ 20 < k * k) by (apply Rmult_le_0_lt_compat; lra). lra. }
    destruct (Hbest (@no_model E)) as (ps & B & Hc). rewrite W1 in B. assert (Hwn : w <> []) by apply Hw.
    destruct (reported_ex d w) as (g & Hg). destruct (c30_one_value c Hr Hwn Hg) as (segs & q & S1 & S2 & S3). rewrite Hc, (pair_runs Hpair (tiles_concat (proj1 B))) in S1. injection S1 as <-.
    destruct (best_near Hr LO B K20) as (p & (l & Rl & Ep) & _). assert (Ll : length l = length ps) by (symmetry; exact (len_f2 Rl)). destruct (tiles_pieces (proj1 B)) as [Pn Pl].
    assert (Gb : exists b, real64 H g = Some b /\ b <= t). { destruct (lit_real H) as [Z0 Z1]. destruct Hg as [Hg|[(_ & _ & ->)|(_ & ->)]]; [destruct (fo_freq FO Hg) as (b & Hb & Hb2); exists b; split; [exact Hb|destruct Hb2; lra]|exists 0; split; [exact Z0|lra]|exists 1; split; [exact Z1|lra]]. }
    destruct Gb as (b & Gb1 & Gb2). assert (Tr : 1 < t <= 2 ^ 40) by lra. assert (Li : INR (length l) <= k) by (rewrite Ll; apply le_INR; exact Pl).
    destruct (@sug_real E H d t (fo_total FO) Tr (@fo_freq _ _ _ _ FO) _ l q g S2 (rsum_f2 Rl) (ex_intro _ b Gb1)) as (a & A1 & A2 & _ & A3). { rewrite mult_INR. cbn [INR]. lra. }
    cbv zeta in S3. rewrite Hf in S3. injection S3 as S3. rewrite <- S3 in A1. assert (A4 : 1 <= a <= t + 1) by (destruct A3 as [A3|A3]; [lra|assert (a = b) by congruence; lra]).
    assert (At : Rabs (t + a) <= 2 ^ 60) by (rewrite Rabs_pos_eq by lra; rewrite p60'; rewrite p40 in *; lra). pose proof (add_real (fo_total FO) A1 At) as Tt. rewrite <- Htot in Tt.
    set (t' := rnd64 (t + a)) in *. assert (L1 : t <= t') by (apply rnd_ge; [lra|exact (fmt_real (fo_total FO))]). assert (L2 : a <= t') by (apply rnd_ge; [lra|exact (fmt_real A1)]).
    assert (L3 : t' <= (1 + u64) * (t + a)).
    { apply rnd64_rel. right. rewrite Rabs_pos_eq in At by lra. split; [apply Rle_trans with 1; [change 1 with (bpow radix2 0); apply bpow_le; lia|lra]|]. apply Rle_trans with (1 := At). rewrite p60. apply bpow_le. lia. }
    exists t'. split.
    - constructor; [exact Tt|lra|]. intros x h Hx. destruct (beqb x w) eqn:Eb.
      + apply beqb_eq in Eb. subst x. assert (h = f) by exact (stored_one Hx Hst). subst h. exists a. split; [exact A1|lra].
      + apply Hother in Hx; [|intro Q; rewrite Q, beqb_refl in Eb; discriminate]. destruct (fo_freq FO Hx) as (b' & B1 & B2). exists b'. split; [exact B1|]. destruct B2; [left; assumption|right; lra].
    - assert (L4 : t' <= 4 * t) by (change u64 with (/ 9007199254740992) in L3; lra). apply Rle_trans with (k * k * (4 * t)); [apply Rmult_le_compat_l; lra|]. replace (k * k * (4 * t)) with (4 * (k * k * t)) by ring. lra.
  Qed.
End New.
