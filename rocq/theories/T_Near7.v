(** C109: the frequency SuggestFreq proposes, with rounding. *)
From Verif Require Import S_Near7 P_Ieee P_Sum P_Near3 P_Near8 P_Near9 P_Exact P_Dag2 P_Hist P_Api P_Seg2 P_Idf P_Laws64 P_Rank2 Ieee Demo T_Split T_Seg T_Hmm T_Dag T_Near2.
From Coq Require Import ZArith Reals Lra Lia.
From Flocq Require Import Core BinarySingleNaN Relative.
Local Open Scope lit_scope.

(** With float64 and an accurate logarithm the frequency is enough as long as n^2 times the total is at most 2^38, n being the number of characters of
    the word: the cutters keep the word in one piece once it is added with it (or, if it is already there, added again with it). *)
Theorem C109_suggested_word_is_kept : forall (E : env) (H : ar E = ieee) c (d d' : dict E) w f pos t, accurate_log H -> reachable c d -> freqs_ok H d t ->
  own_spelling E c w -> no_ascii_pair w -> let n := INR (length (runes_of w)) in (n * n * t <= 2 ^ 38)%R -> suggest_freq d c [w] = Ok f ->
  match dict_value d w with None => seg_add_token c d w f pos = Ok d' | Some _ => seg_readd_token c d w f pos = Ok (d', false) end ->
  (forall em, cut d' c em w (Some false) = Ok [w]) /\
  (forall em reg, Forall (fun f => wf_matcher f /\ nonempty_matcher f) reg -> cut_dag d' c em w reg = Ok [w]).
Proof.
  intros E H c d d' w f pos t AL Hr FO Hw Hp n Hn Hf Hd. pose proof (reachable_inv Hr) as Hi. assert (C : changed c d w f d' /\ reachable c d').
  { destruct Hw as (_ & Hno & _). destruct (dict_value d w) as [v|] eqn:Hv.
    - split; [apply (readded_changed Hi Hno Hr (d' := d') (e := false) (pos := pos)); [rewrite Hv; discriminate|exact Hd]|].
      apply (reach_ops (os := [OpReAdd w f pos]) Hr). cbn [run_ops run_op]. rewrite Hd. reflexivity.
    - split; [apply (added_changed Hi Hno (pos := pos) Hv Hd)|]. apply (reach_ops (os := [OpAdd w f pos]) Hr). cbn [run_ops run_op]. rewrite Hd. reflexivity. }
  destruct C as ((_ & C2 & C3 & C4) & Hr'). pose proof (logs AL FO) as LO. destruct (w_runes Hw) as [W1 W2].
  assert (HB : forall em, exists ps, best_cut d (m_log E (d_total d)) (dag_runes E c w) ps /\ cut d c em w (Some false) = Ok (map (fun g => string_of_runes (concat (snd g))) (runs eng ps))).
  { intro em. apply (C26_best_route_nohmm E c d c em w H Hr). intros k qs Hq. exact (weights_num Hr LO Hq). }
  destruct (new_ok Hr AL FO Hw Hf Hp C2 C3 C4 Hn HB) as (t' & FO' & Hn'). pose proof (logs AL FO') as LO'.
  assert (KB := kept_best Hr Hr' LO LO' Hw Hf Hp C2 C3 C4 Hn' HB). split.
  - intro em. destruct (C26_best_route_nohmm E c d' c em w H Hr') as (qs & Q1 & Q2). { intros k qs Hq. exact (weights_num Hr' LO' Hq). }
    rewrite W1 in Q1. rewrite Q2, (KB qs Q1). cbn [runs]. destruct (eng (runes_of w)); cbn [map snd concat]; rewrite app_nil_r, W2; reflexivity.
  - intros em reg Hreg. destruct (C26_best_route_hmm E c d' c em w reg H Hr' Hreg) as (qs & wss & Q1 & Q2 & Q3). { intros k qs Hq. exact (weights_num Hr' LO' Hq). }
    rewrite W1 in Q1. rewrite (KB qs Q1) in Q3. rewrite Q2. clear - Q3 W2.
    assert (K : exists b, runs single [runes_of w] = [(b, [runes_of w])]) by (cbn [runs]; destruct (single (runes_of w)); eauto). destruct K as (b & K). rewrite K in Q3. clear K.
    inversion Q3 as [|g ws gs wss' Hg Hn]; subst. inversion Hn; subst. unfold group_words in Hg. cbn [fst snd length Nat.leb] in Hg. rewrite andb_false_r in Hg.
    cbn [concat] in *. rewrite app_nil_r in Hg. rewrite Hg, W2. reflexivity.
Qed.
Print Assumptions C109_suggested_word_is_kept.

(** The correctly rounded logarithm is accurate. *)
Notation HL := (eq_refl : ar demo_ln = ieee).
Lemma above_one : forall x : b64, is_finite x = true -> (1 < B2R x)%R -> (/ 2 ^ 53 <= ln (B2R x))%R.
Proof.
  intros x F L. assert (V : Valid_exp (SpecFloat.fexp 53 1024)) by exact (fexp_correct 53 1024 prec64).
  assert (S : (succ radix2 (SpecFloat.fexp 53 1024) 1 <= B2R x)%R) by (apply succ_le_lt; [exact V|apply (@int_format 1); lia|apply generic_format_B2R|exact L]).
  assert (S2 : (1 + / 2 ^ 52 <= B2R x)%R). { apply Rle_trans with (2 := S). rewrite succ_eq_pos by lra. apply Rplus_le_compat_l. pose proof (ulp_bpow radix2 (SpecFloat.fexp 53 1024) 0) as U. change (bpow radix2 0) with 1%R in U. rewrite U. apply Req_le, eq_sym, (bp 52). }
  set (a := B2R x) in *. clearbody a. assert (K : (ln (/ a) <= / a - 1)%R). { rewrite <- (ln_exp (/ a - 1)). assert (P : (0 < / a)%R) by (apply Rinv_0_lt_compat; lra). destruct (Req_dec (/ a) 1) as [E1|E1]; [rewrite E1, Rminus_diag_eq, exp_0 by lra; lra|].
    apply Rlt_le, ln_increasing; [exact P|]. pose proof (exp_ineq1 (/ a - 1) ltac:(lra)). lra. }
  rewrite ln_Rinv in K by lra. assert (M : (/ a <= / (1 + / 2 ^ 52))%R) by (apply Rinv_le_contravar; lra). assert (Q : (/ (1 + / 2 ^ 52) <= 1 - / 2 ^ 53)%R). { apply Rmult_le_reg_l with (1 + / 2 ^ 52)%R; [lra|]. rewrite Rinv_r by lra. lra. } lra.
Qed.
Lemma ln64_good : forall x : b64, is_finite x = true -> (1 <= B2R x)%R -> is_finite (ln64 x) = true /\ B2R (ln64 x) = rnd64 (ln (B2R x)) /\ (Rabs (B2R (ln64 x) - ln (B2R x)) <= ln (B2R x) / 2 ^ 52)%R.
Proof.
  intros x F L. unfold ln64. assert (Z : Beqb x (lit_64 0 0) = false). { rewrite Beqb_correct by (exact F || reflexivity). apply Req_bool_false. change (B2R (lit_64 0 0)) with 0%R. lra. } rewrite Z.
  assert (Lr : (0 <= ln (B2R x) <= 2000)%R). { destruct (Req_dec (B2R x) 1) as [E1|E1]; [rewrite E1, ln_1; lra|]. apply ln_big; [lra|]. pose proof (key_fin F) as [K1 K2]. rewrite K1 in K2. apply K2. }
  destruct (@nearest64_ok (ln (B2R x))) as [K1 K2]; [rewrite Rabs_pos_eq by lra; lra|]. split; [exact K1|]. split; [exact K2|]. rewrite K2.
  destruct (Req_dec (B2R x) 1) as [E1|E1]; [rewrite E1, ln_1, round_0, Rminus_0_r, Rabs_R0; [lra|apply valid_rnd_N]|]. pose proof (above_one x F ltac:(lra)) as L4.
  pose proof (@relative_error_N_FLT radix2 (-1074) 53 prec64 (fun x => negb (Z.even x)) (ln (B2R x))) as R. change (SpecFloat.fexp 53 1024) with (FLT_exp (-1074) 53).
  apply Rle_trans with (/ 2 * bpow radix2 (- (53) + 1) * Rabs (ln (B2R x)))%R.
  - apply R. rewrite Rabs_pos_eq by lra. apply Rle_trans with (2 := L4). apply Rle_trans with (bpow radix2 (- Z.of_nat 53)); [apply bpow_le; lia|rewrite bp; lra].
  - rewrite Rabs_pos_eq by lra. change (bpow radix2 (- (53) + 1)) with (/ 4503599627370496)%R. lra.
Qed.
Lemma num_fin : forall z : b64, is_nan z = false -> num64 (A := ieee) z.
Proof. intros z N. unfold num64. cbn [eqb64 ieee]. rewrite (eqb_key N N). apply Req_bool_true. reflexivity. Qed.
Theorem C109_rounded_log_is_accurate : accurate_log HL.
Proof.
  assert (Fz : forall (f : b64) a, (if is_finite f then Some (B2R f) else None) = Some a -> is_finite f = true /\ B2R f = a).
  { intros f a K. destruct (is_finite f); [injection K as <-; auto|discriminate K]. }
  constructor.
  - intros f Hf. change (m_log demo_ln f) with (ln64 f). unfold real64 in *. cbn [eq_rect] in *. destruct (Fz _ _ Hf) as [F1 F2].
    assert (Z : Beqb f (lit_64 0 0) = true) by (rewrite Beqb_correct by (exact F1 || reflexivity); rewrite F2; apply Req_bool_true; reflexivity). unfold ln64. rewrite Z. split; reflexivity.
  - intros f a Hf Ha. change (m_log demo_ln f) with (ln64 f). unfold real64 in *. cbn [eq_rect] in *. destruct (Fz _ _ Hf) as [F1 F2]. rewrite <- F2 in *. destruct (ln64_good f F1 Ha) as (G1 & _ & G3). exists (B2R (ln64 f)). rewrite G1. auto.
  - intros f g a b Hf Hg Ha Hb Hab. change (m_log demo_ln f) with (ln64 f). change (m_log demo_ln g) with (ln64 g). unfold real64 in *. cbn [eq_rect] in *. destruct (Fz _ _ Hf) as [F1 F2]. destruct (Fz _ _ Hg) as [G1 G2]. rewrite <- F2, <- G2 in *.
    destruct (ln64_good g G1 Hb) as (K1 & K2 & _). assert (Ng : is_nan (ln64 g) = false) by (destruct (ln64 g); try discriminate K1; reflexivity). destruct Ha as [Ha|Ha].
    + assert (Z : ln64 f = B754_infinity true). { unfold ln64. rewrite Beqb_correct by (exact F1 || reflexivity). rewrite Ha, Req_bool_true by reflexivity. reflexivity. } rewrite Z.
      split; [apply num_fin; reflexivity|]. split; [apply num_fin, Ng|]. cbn [ltb64 ieee demo_ln ar]. destruct (ln64 g) as [|[]| |[] ? ? ?]; try discriminate K1; reflexivity.
    + destruct (ln64_good f F1 Ha) as (L1 & L2 & _). assert (Nf : is_nan (ln64 f) = false) by (destruct (ln64 f); try discriminate L1; reflexivity). split; [apply num_fin, Nf|]. split; [apply num_fin, Ng|].
      change (Bltb (ln64 g) (ln64 f) = false). rewrite Bltb_correct by assumption. apply Rlt_bool_false. rewrite K2, L2. apply rnd_mono64. destruct (Req_dec (B2R f) (B2R g)) as [-> |N]; [lra|apply Rlt_le, ln_increasing; lra].
Qed.
Print Assumptions C109_rounded_log_is_accurate.
(** So with that logarithm the two words of d_104 can be joined. *)
Lemma freqs_109 : freqs_ok (E := demo_ln) eq_refl d_104 24.
Proof. destruct log_104 as [L1 L2 L3 _ _ _]. constructor; assumption. Qed.
Example C109_ex : exists f d', suggest_freq d_104 cfg0 [str "你好世界"] = Ok f /\ seg_add_token cfg0 d_104 (str "你好世界") f [] = Ok d' /\
  forall em, cut d' cfg0 em (str "你好世界") (Some false) = Ok [str "你好世界"].
Proof.
  destruct (suggests cfg0 (str "你好世界") reach_104) as (f & Hf). destruct (adds cfg0 d_104 (str "你好世界") f []) as (d' & Hd). exists f, d'. split; [exact Hf|]. split; [exact Hd|].
  assert (Hr : runes_of (str "你好世界") = [20320; 22909; 19990; 30028]%Z) by (vm_compute; reflexivity).
  assert (Hv : dict_value d_104 (str "你好世界") = None) by (vm_compute; reflexivity).
  refine (proj1 (C109_suggested_word_is_kept demo_ln eq_refl cfg0 d_104 d' (str "你好世界") f [] 24 C109_rounded_log_is_accurate reach_104 freqs_109 _ _ _ Hf _)).
  - split; [discriminate|]. split; vm_compute; reflexivity.
  - intros l a b r K. rewrite Hr in K. destruct l as [|? [|? [|? [|? l]]]]; cbn [app] in K; try (injection K as <- <- <-; reflexivity); try discriminate K. destruct l; discriminate K.
  - rewrite Hr. cbn [length INR]. lra.
  - rewrite Hv. exact Hd.
Qed.
