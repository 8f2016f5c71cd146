(** C104: the cutters against the exact probabilities of the words. *)
From Verif Require Import S_Near2 P_Ieee P_Sum P_Near3 P_Dag2 P_Hist P_Seg2 P_Idf P_Laws64 Ieee Demo T_Split T_Seg T_Hmm T_Dag.
From Coq Require Import ZArith Reals Lra Lia.
From Flocq Require Import Core BinarySingleNaN Relative.
Local Open Scope lit_scope.

(** With a logarithm that is accurate to 2^-52, no way to cut is more probable than the one chosen by more than a factor of t^(n^2/2^48),
    where n is the number of characters and t the total frequency. *)
Theorem C104_nearly_most_probable : forall (E : env) (H : ar E = ieee) c0 (d : dict E) t c em s, reachable c0 d -> log_ok H d t ->
  let rs := dag_runes E c s in (INR (length rs) <= 2 ^ 20)%R ->
  exists ps p, tiles d rs ps /\ cut d c em s (Some false) = Ok (map (fun g => string_of_runes (concat (snd g))) (runs eng ps)) /\ reading_prob H d t ps p /\
    forall qs q, tiles d rs qs -> reading_prob H d t qs q -> (q <= p * Rpower t (INR (length rs) * INR (length rs) / 2 ^ 48))%R.
Proof.
  intros E H c0 d t c em s Hr LO rs Hn. destruct (C26_best_route_nohmm E c0 d c em s H Hr) as (ps & Hb & Hc). { intros k qs Hq. exact (weights_num Hr LO Hq). }
  destruct (best_near Hr LO Hb Hn) as (p & Hp & Hq). exists ps, p. split; [apply Hb|]. split; [exact Hc|]. split; [exact Hp|exact Hq].
Qed.
Print Assumptions C104_nearly_most_probable.
(** The same for the words that the HMM then works on. *)
Theorem C104_nearly_most_probable_hmm : forall (E : env) (H : ar E = ieee) c0 (d : dict E) t c em s reg, reachable c0 d -> log_ok H d t ->
  Forall (fun f => wf_matcher f /\ nonempty_matcher f) reg -> let rs := dag_runes E c s in (INR (length rs) <= 2 ^ 20)%R ->
  exists ps p wss, tiles d rs ps /\ cut_dag d c em s reg = Ok (concat wss) /\ Forall2 (group_words d em reg) (runs single ps) wss /\ reading_prob H d t ps p /\
    forall qs q, tiles d rs qs -> reading_prob H d t qs q -> (q <= p * Rpower t (INR (length rs) * INR (length rs) / 2 ^ 48))%R.
Proof.
  intros E H c0 d t c em s reg Hr LO Hreg rs Hn. destruct (C26_best_route_hmm E c0 d c em s reg H Hr Hreg) as (ps & wss & Hb & Hc & Hg). { intros k qs Hq. exact (weights_num Hr LO Hq). }
  destruct (best_near Hr LO Hb Hn) as (p & Hp & Hq). exists ps, p, wss. split; [apply Hb|]. split; [exact Hc|]. split; [exact Hg|]. split; [exact Hp|exact Hq].
Qed.
Print Assumptions C104_nearly_most_probable_hmm.

(** An environment with the correctly rounded logarithm. *)
Notation rnd64 := (round radix2 (SpecFloat.fexp 53 1024) ZnearestE).
Definition nearest64 (y : R) : b64 := lit_64 (Ztrunc (scaled_mantissa radix2 (SpecFloat.fexp 53 1024) (rnd64 y))) (cexp radix2 (SpecFloat.fexp 53 1024) (rnd64 y)).
Lemma nearest64_ok : forall y, (Rabs y <= 2 ^ 20)%R -> is_finite (nearest64 y) = true /\ B2R (nearest64 y) = rnd64 y.
Proof.
  intros y Hy. assert (V : Valid_exp (SpecFloat.fexp 53 1024)) by exact (fexp_correct 53 1024 prec64). assert (G : generic_format radix2 (SpecFloat.fexp 53 1024) (rnd64 y)) by (apply generic_format_round; [exact V|apply valid_rnd_N]).
  unfold nearest64, lit_64. set (m := Ztrunc _). set (e := cexp _ _ _). pose proof (binary_normalize_correct 53 1024 prec64 max64 mode_NE m e false) as C. cbv zeta in C. change (round_mode mode_NE) with ZnearestE in C.
  assert (Ef : F2R (Float radix2 m e) = rnd64 y) by (symmetry; exact G). rewrite Ef, (round_generic radix2 (SpecFloat.fexp 53 1024) ZnearestE (rnd64 y) G) in C.
  assert (B : (Rabs (rnd64 y) <= bpow radix2 20)%R). { apply abs_round_le_generic; [exact V|apply valid_rnd_N|apply generic_format_bpow; unfold SpecFloat.fexp, SpecFloat.emin; lia|]. change (bpow radix2 20) with 1048576%R. lra. }
  rewrite Rlt_bool_true in C by (apply Rle_lt_trans with (1 := B); apply bpow_lt; lia). destruct C as (C1 & C2 & _). split; assumption.
Qed.
Definition ln64 (x : b64) : b64 := if Beqb x (lit_64 0 0) then B754_infinity true else nearest64 (ln (B2R x)).
Definition demo_ln : env := {| ar := ieee; u_letter := u_letter demo; u_number := u_number demo; u_space := u_space demo; u_punct := u_punct demo; u_symbol := u_symbol demo; u_lower := u_lower demo;
  u_han := u_han demo; u_kana := u_kana demo; u_script := u_script demo; m_log := ln64; m_log2 := m_log2 demo; parse_float := parse_float demo; q_drop := true; q_eof := false |}.
Definition os_104 : list (dop demo_ln) := [OpAdd (E := demo_ln) (str "你好") (lit_64 12 0) []; OpAdd (E := demo_ln) (str "世界") (lit_64 4 0) []; OpAdd (E := demo_ln) (str "你") (lit_64 3 0) []; OpAdd (E := demo_ln) (str "好") (lit_64 5 0) []].
Definition d_104 : dict demo_ln := match run_ops cfg0 (new_dict demo_ln) os_104 with Ok d => d | _ => new_dict demo_ln end.
Lemma reach_104 : reachable cfg0 d_104.
Proof. exists os_104. unfold d_104. destruct (run_ops_inv os_104 (new_dict_inv demo_ln cfg0)) as (d & H & _). rewrite H. reflexivity. Qed.
Lemma ln_half : (/ 2 <= ln 2)%R.
Proof.
  assert (K : (ln (/ 2) <= - / 2)%R). { rewrite <- (ln_exp (- / 2)). apply Rlt_le, ln_increasing; [lra|]. pose proof (exp_ineq1 (- / 2) ltac:(lra)). lra. } rewrite ln_Rinv in K by lra. lra.
Qed.
Lemma ln64_val : forall (x : b64) n, is_finite x = true -> B2R x = IZR n -> (1 <= n <= 1000)%Z ->
  is_finite (ln64 x) = true /\ B2R (ln64 x) = rnd64 (ln (IZR n)) /\ (Rabs (B2R (ln64 x) - ln (IZR n)) <= ln (IZR n) / 2 ^ 52)%R.
Proof.
  intros x n F B Hn. unfold ln64. assert (Z : Beqb x (lit_64 0 0) = false). { rewrite Beqb_correct by (exact F || reflexivity). rewrite B. apply Req_bool_false. change (B2R (lit_64 0 0)) with 0%R. apply not_0_IZR. lia. }
  rewrite Z, B. assert (N1 : (1 <= IZR n <= 1000)%R) by (split; apply IZR_le; lia). pose proof ln_2 as L2. pose proof ln_half as L3.
  assert (Lr : (0 <= ln (IZR n) <= 10)%R).
  { split; [rewrite <- ln_1; destruct (Req_dec (IZR n) 1) as [-> |K]; [lra|apply Rlt_le, ln_increasing; lra]|]. apply Rle_trans with (ln (2 ^ 10)); [apply Rlt_le, ln_increasing; lra|]. rewrite ln_pow by lra. change (INR 10) with (INR 10). replace (INR 10) with 10%R by (cbn; lra). lra. }
  destruct (@nearest64_ok (ln (IZR n))) as [K1 K2]; [rewrite Rabs_pos_eq by lra; lra|]. split; [exact K1|]. split; [exact K2|]. rewrite K2.
  destruct (Z.eq_dec n 1) as [-> |K]; [rewrite ln_1, round_0, Rminus_0_r, Rabs_R0; [lra|apply valid_rnd_N]|].
  assert (L4 : (/ 2 <= ln (IZR n))%R). { apply Rle_trans with (1 := L3). assert (2 <= IZR n)%R by (apply IZR_le; lia). destruct (Req_dec (IZR n) 2) as [-> |K']; [lra|apply Rlt_le, ln_increasing; lra]. }
  pose proof (@relative_error_N_FLT radix2 (-1074) 53 prec64 (fun x => negb (Z.even x)) (ln (IZR n))) as R. change (SpecFloat.fexp 53 1024) with (FLT_exp (-1074) 53).
  apply Rle_trans with (/ 2 * bpow radix2 (- (53) + 1) * Rabs (ln (IZR n)))%R.
  - apply R. rewrite Rabs_pos_eq by lra. apply Rle_trans with (2 := L4). change (/ 2)%R with (bpow radix2 (-1)). apply bpow_le. lia.
  - rewrite Rabs_pos_eq by lra. change (bpow radix2 (- (53) + 1)) with (/ 4503599627370496)%R. lra.
Qed.
Lemma freqs_104 : forall w f, stored d_104 w f -> exists n, (3 <= n <= 12)%Z /\ f = lit_64 n 0.
Proof.
  intros w f (v & t & _ & N & <-). assert (K : forallb (fun t : token demo_ln => existsb (fun n => match @B2SF 53 1024 (t_freq t), @B2SF 53 1024 (lit_64 n 0) with
    | SpecFloat.S754_finite a m e, SpecFloat.S754_finite a' m' e' => Bool.eqb a a' && (m =? m')%positive && (e =? e')%Z | _, _ => false end) [12; 4; 3; 5]%Z) (d_tokens d_104) = true) by (vm_compute; reflexivity).
  rewrite forallb_forall in K. specialize (K t (nth_error_In _ _ N)). apply existsb_exists in K as (n & Hn & K). exists n. split; [cbn in Hn; lia|]. apply B2SF_inj.
  destruct (@B2SF 53 1024 (t_freq t)) as [| | |a m e] eqn:E1; try discriminate K. destruct (@B2SF 53 1024 (lit_64 n 0)) as [| | |a' m' e'] eqn:E2; try discriminate K.
  apply andb_prop in K as [K K3]. apply andb_prop in K as [K1 K2]. apply Bool.eqb_prop in K1. apply Pos.eqb_eq in K2. apply Z.eqb_eq in K3. subst. reflexivity.
Qed.
Lemma real_lit64 : forall n, (0 <= n <= 2 ^ 53)%Z -> real64 (A := ar demo_ln) eq_refl (lit_64 n 0) = Some (IZR n).
Proof. intros n Hn. destruct (lit_int Hn) as (K1 & K2 & _). unfold real64. cbn [eq_rect]. rewrite K2, K1. reflexivity. Qed.
Lemma total_104 : d_total d_104 = lit_64 24 0.
Proof. apply B2SF_inj. vm_compute. reflexivity. Qed.
Lemma log_104 : log_ok (E := demo_ln) eq_refl d_104 24.
Proof.
  assert (V : forall n, (1 <= n <= 24)%Z -> is_finite (ln64 (lit_64 n 0)) = true /\ B2R (ln64 (lit_64 n 0)) = rnd64 (ln (IZR n)) /\ (Rabs (B2R (ln64 (lit_64 n 0)) - ln (IZR n)) <= ln (IZR n) / 2 ^ 52)%R).
  { intros n Hn. destruct (@lit_int n) as (K1 & K2 & _); [lia|]. apply ln64_val; [exact K2|exact K1|lia]. }
  constructor.
  - rewrite total_104. apply real_lit64. lia.
  - lra.
  - intros w f Hf. destruct (freqs_104 w f Hf) as (n & Hn & ->). exists (IZR n). split; [apply real_lit64; lia|]. right. split; apply IZR_le; lia.
  - intros f Hf. change (m_log demo_ln f) with (ln64 f). change (binary_float 53 1024) in f. unfold real64 in *. cbn [eq_rect] in *. destruct (is_finite f) eqn:Ff; [|discriminate Hf]. injection Hf as Hf.
    assert (Z : Beqb f (lit_64 0 0) = true) by (rewrite Beqb_correct by (exact Ff || reflexivity); rewrite Hf; apply Req_bool_true; reflexivity). unfold ln64. rewrite Z. split; reflexivity.
  - intros f a Hf Ha H1. assert (K : exists n, (1 <= n <= 24)%Z /\ f = lit_64 n 0).
    { destruct Hf as [-> |[-> |(w & Hw)]]; [exists 24%Z; split; [lia|apply total_104]|exists 1%Z; split; [lia|reflexivity]|]. destruct (freqs_104 w f Hw) as (n & Hn & ->). exists n. split; [lia|reflexivity]. }
    destruct K as (n & Hn & ->). rewrite real_lit64 in Ha by lia. injection Ha as <-. destruct (V n Hn) as (V1 & _ & V3). exists (B2R (ln64 (lit_64 n 0))). split; [|exact V3].
    change (m_log demo_ln (lit_64 n 0)) with (ln64 (lit_64 n 0)). unfold real64. cbn [eq_rect]. rewrite V1. reflexivity.
  - intros w f Hw. destruct (freqs_104 w f Hw) as (n & Hn & ->). rewrite total_104. change (le64 (A := ieee) (ln64 (lit_64 n 0)) (ln64 (lit_64 24 0))). destruct (V n ltac:(lia)) as (V1 & V2 & _). destruct (V 24%Z ltac:(lia)) as (W1 & W2 & _).
    assert (N : forall z : b64, is_finite z = true -> num64 (A := ieee) z). { intros z Fz. unfold num64. cbn [eqb64 ieee]. rewrite Beqb_correct by assumption. apply Req_bool_true. reflexivity. }
    split; [apply N, V1|]. split; [apply N, W1|]. cbn [ltb64 ieee]. rewrite Bltb_correct by assumption. rewrite V2, W2. apply Rlt_bool_false. apply round_le; [exact (fexp_correct 53 1024 prec64)|apply valid_rnd_N|].
    apply Rlt_le, ln_increasing; [apply (IZR_lt 0); lia|apply IZR_lt; lia].
Qed.
Lemma find_104 : forall w v n, dict_value d_104 w = Some v -> match nth_error (d_tokens d_104) v with Some t => @Beqb 53 1024 (t_freq t) (lit_64 n 0) && @is_finite 53 1024 (t_freq t) | None => false end = true -> (0 <= n <= 2 ^ 53)%Z ->
  exists f, stored d_104 w f /\ real64 (A := ar demo_ln) eq_refl f = Some (IZR n).
Proof.
  intros w v n Hv Hf Hn. destruct (nth_error (d_tokens d_104) v) as [t|] eqn:N; [|discriminate Hf]. exists (t_freq t). split; [exists v, t; auto|]. apply andb_prop in Hf as [K F]. destruct (lit_int Hn) as (K1 & K2 & _).
  rewrite Beqb_correct in K by assumption. unfold real64. cbn [eq_rect]. rewrite F, K1 in *. f_equal. destruct (Req_bool_spec (@B2R 53 1024 (t_freq t)) (IZR n)); [assumption|discriminate K].
Qed.
Lemma pos_104 : forall w v, dict_value d_104 w = Some v -> match nth_error (d_tokens d_104) v with Some t => ltb64 demo_ln (lit64 demo_ln 0 0) (t_freq t) | None => false end = true -> pos_word d_104 w.
Proof. intros w v Hv Hf. destruct (nth_error (d_tokens d_104) v) as [t|] eqn:N; [|discriminate Hf]. exists (t_freq t). split; [exists v, t; auto|exact Hf]. Qed.
(** 你好/世界 has probability 12/24 * 4/24; what Cut returns for 你好世界 cannot be worse than that by more than a factor of 24^(16/2^48). *)
Example C104_ex : exists ps p, tiles d_104 (runes_of (str "你好世界")) ps /\
  cut d_104 cfg0 (@no_model demo_ln) (str "你好世界") (Some false) = Ok (map (fun g => string_of_runes (concat (snd g))) (runs eng ps)) /\
  reading_prob (E := demo_ln) eq_refl d_104 24 ps p /\ (1 / 12 <= p * Rpower 24 (16 / 2 ^ 48))%R.
Proof.
  assert (Er : dag_runes demo_ln cfg0 (str "你好世界") = runes_of (str "你好世界")) by (vm_compute; reflexivity).
  assert (En : length (runes_of (str "你好世界")) = 4) by (vm_compute; reflexivity).
  destruct (C104_nearly_most_probable demo_ln eq_refl cfg0 d_104 24 cfg0 (@no_model demo_ln) (str "你好世界") reach_104 log_104) as (ps & p & H1 & H2 & H3 & H4).
  { rewrite Er, En. cbn [INR]. lra. }
  rewrite Er in *. rewrite En in *. exists ps, p. split; [exact H1|]. split; [exact H2|]. split; [exact H3|].
  replace (16 / 2 ^ 48)%R with (INR 4 * INR 4 / 2 ^ 48)%R by (cbn [INR]; lra). apply (H4 [runes_of (str "你好"); runes_of (str "世界")]).
  - replace (runes_of (str "你好世界")) with (runes_of (str "你好") ++ runes_of (str "世界") ++ []) by (vm_compute; reflexivity).
    apply tiles_word.
    { vm_compute. discriminate. }
    { apply (pos_104 _ 0). { vm_compute. reflexivity. } vm_compute. reflexivity. }
    apply tiles_word.
    { vm_compute. discriminate. }
    { apply (pos_104 _ 1). { vm_compute. reflexivity. } vm_compute. reflexivity. }
    constructor.
  - destruct (find_104 (string_of_runes (runes_of (str "你好"))) 0 12) as (f1 & S1 & R1); [vm_compute; reflexivity|vm_compute; reflexivity|lia|].
    destruct (find_104 (string_of_runes (runes_of (str "世界"))) 1 4) as (f2 & S2 & R2); [vm_compute; reflexivity|vm_compute; reflexivity|lia|].
    exists [12; 4]%R. split; [|cbn [fold_right]; lra]. constructor; [exists f1; split; [left; exact S1|exact R1]|]. constructor; [exists f2; split; [left; exact S2|exact R2]|constructor].
Qed.
