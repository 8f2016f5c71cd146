(** C105: Segment against the exact probabilities of the words. *)
From Verif Require Import S_Near3 P_Ieee P_Sum P_Near4 P_Hist P_Dict P_Exact2 P_Seg2 P_Idf M_Out Ieee Demo T_Split T_Seg T_Near2.
From Coq Require Import ZArith Reals Lra Lia.
From Flocq Require Import Core BinarySingleNaN Relative.
Local Open Scope lit_scope.

(** With a base 2 logarithm accurate to 2^-40, the reading that Slice returns has a probability p such that q^(1 + n/2^22) <= p * 2^(n/2^13) for
    the probability q of every other reading; n is the number of units of the text. *)
Theorem C105_nearly_most_probable : forall (E : env) (H : ar E = ieee) c (d0 d : dict E) t s ws, reachable c d0 -> calc_token d0 = Ok d -> log2_ok H d t ->
  split_words E c s = Ok ws -> (INR (length ws) <= 2 ^ 20)%R ->
  exists qs p, seg_slice c (Some d) s false = Ok qs /\ likely (real64 H) d t ws qs p /\
    forall qs' q, likely (real64 H) d t ws qs' q -> (Rpower q (1 + INR (length ws) / 2 ^ 22) <= p * Rpower 2 (INR (length ws) / 2 ^ 13))%R.
Proof. intros E H c d0 d t s ws Hr Hc LO Hs Hn. exact (nearly_probable Hr Hc LO Hs Hn). Qed.
Print Assumptions C105_nearly_most_probable.

(** An environment with the correctly rounded base 2 logarithm. *)
Definition lg64 (x : b64) : b64 := nearest64 (ln (B2R x) / ln 2).
Definition demo_lg : env := {| ar := ieee; u_letter := u_letter demo; u_number := u_number demo; u_space := u_space demo; u_punct := u_punct demo; u_symbol := u_symbol demo; u_lower := u_lower demo;
  u_han := u_han demo; u_kana := u_kana demo; u_script := u_script demo; m_log := m_log demo; m_log2 := lg64; parse_float := parse_float demo; q_drop := true; q_eof := false |}.
Definition os_105 : list (dop demo_lg) := [OpAdd (E := demo_lg) (str "你好") (lit_64 12 0) []; OpAdd (E := demo_lg) (str "世界") (lit_64 4 0) []; OpAdd (E := demo_lg) (str "你") (lit_64 3 0) []; OpAdd (E := demo_lg) (str "好") (lit_64 5 0) []].
Definition d_105 : dict demo_lg := match run_ops cfg0 (new_dict demo_lg) os_105 with Ok d => d | _ => new_dict demo_lg end.
Lemma reach_105 : reachable cfg0 d_105.
Proof. exists os_105. unfold d_105. destruct (run_ops_inv os_105 (new_dict_inv demo_lg cfg0)) as (d & H & _). rewrite H. reflexivity. Qed.
Lemma total_105 : d_total d_105 = lit_64 24 0.
Proof. apply B2SF_inj. vm_compute. reflexivity. Qed.
Lemma b64_eq : forall x y : b64, match B2SF x, B2SF y with SpecFloat.S754_finite a m e, SpecFloat.S754_finite a' m' e' => Bool.eqb a a' && (m =? m')%positive && (e =? e')%Z | _, _ => false end = true -> x = y.
Proof.
  intros x y K. apply B2SF_inj. destruct (B2SF x) as [| | |a m e]; try discriminate K. destruct (B2SF y) as [| | |a' m' e']; try discriminate K.
  apply andb_prop in K as [K K3]. apply andb_prop in K as [K1 K2]. apply Bool.eqb_prop in K1. apply Pos.eqb_eq in K2. apply Z.eqb_eq in K3. subst. reflexivity.
Qed.
Lemma freqs_105 : map (@t_freq demo_lg) (d_tokens d_105) = [lit_64 12 0; lit_64 4 0; lit_64 3 0; lit_64 5 0].
Proof.
  assert (F : forall l l' : list b64, length l = length l' -> forallb (fun p => match B2SF (fst p), B2SF (snd p) with SpecFloat.S754_finite a m e, SpecFloat.S754_finite a' m' e' => Bool.eqb a a' && (m =? m')%positive && (e =? e')%Z | _, _ => false end) (combine l l') = true -> l = l').
  { induction l as [|x l IH]; intros [|y l'] L K; try discriminate L; [reflexivity|]. cbn [combine forallb fst snd] in K. apply andb_prop in K as [K1 K2]. rewrite (b64_eq _ _ K1). f_equal. apply IH; [cbn in L; lia|exact K2]. }
  apply F; vm_compute; reflexivity.
Qed.
Lemma real_lit_105 : forall n, (0 <= n <= 2 ^ 53)%Z -> real64 (A := ar demo_lg) eq_refl (lit_64 n 0) = Some (IZR n).
Proof. intros n Hn. destruct (lit_int Hn) as (K1 & K2 & _). unfold real64. cbn [eq_rect]. rewrite K2, K1. reflexivity. Qed.
Lemma lg_105 : forall n, (1 <= n <= 24)%Z -> exists b, real64 (A := ar demo_lg) eq_refl (lg64 (lit_64 n 0)) = Some b /\ (Rabs (b - ln (IZR n) / ln 2) <= / 2 ^ 40)%R.
Proof.
  intros n Hn. destruct (@lit_int n) as (K1 & K2 & _); [lia|]. unfold lg64. rewrite K1. assert (R : (1 <= IZR n <= 24)%R) by (split; apply IZR_le; lia).
  pose proof (@lg_range (IZR n)) as G. assert (B : (0 <= ln (IZR n) / ln 2 <= 64)%R) by (apply G; lra). destruct (@nearest64_ok (ln (IZR n) / ln 2)) as [F V]; [rewrite Rabs_pos_eq by lra; lra|].
  unfold real64. cbn [eq_rect]. rewrite F. eexists. split; [reflexivity|]. rewrite V. set (y := (ln (IZR n) / ln 2)%R) in *.
  assert (Vx : Valid_exp (SpecFloat.fexp 53 1024)) by exact (fexp_correct 53 1024 prec64). assert (M : Monotone_exp (SpecFloat.fexp 53 1024)) by (change (SpecFloat.fexp 53 1024) with (FLT_exp (-1074) 53); apply FLT_exp_monotone).
  apply Rle_trans with (/ 2 * ulp radix2 (SpecFloat.fexp 53 1024) y)%R; [apply error_le_half_ulp; exact Vx|].
  assert (U : (ulp radix2 (SpecFloat.fexp 53 1024) y <= ulp radix2 (SpecFloat.fexp 53 1024) (bpow radix2 6))%R).
  { apply ulp_le; [exact Vx|exact M|]. rewrite (Rabs_pos_eq (bpow radix2 6)) by apply bpow_ge_0. rewrite Rabs_pos_eq by lra. change (bpow radix2 6) with 64%R. lra. }
  rewrite ulp_bpow in U. change (bpow radix2 (SpecFloat.fexp 53 1024 (6 + 1))) with (/ 70368744177664)%R in U. lra.
Qed.
Lemma calc_105 : exists d, calc_token d_105 = Ok d /\ d_trie d = d_trie d_105 /\ d_total d = lit_64 24 0 /\ map (@t_freq demo_lg) (d_tokens d) = [lit_64 12 0; lit_64 4 0; lit_64 3 0; lit_64 5 0].
Proof.
  destruct (calc_token_spec (inv_ok (reachable_inv reach_105))) as (d & C1 & _ & T & _ & C2 & _ & C3 & _). exists d. split; [exact C1|]. split; [exact T|]. rewrite C2, C3. split; [apply total_105|apply freqs_105].
Qed.
(** 你好|世界 has probability 12/24 * 4/24; the reading that Slice returns for 你好世界 has at least about that. *)
Example C105_ex : exists d qs p, calc_token d_105 = Ok d /\ seg_slice cfg0 (Some d) (str "你好世界") false = Ok qs /\
  likely (E := demo_lg) (real64 (A := ar demo_lg) eq_refl) d 24 (map str ["你"; "好"; "世"; "界"]) qs p /\ (Rpower (1 / 12) (1 + 4 / 2 ^ 22) <= p * Rpower 2 (4 / 2 ^ 13))%R.
Proof.
  destruct calc_105 as (d & Hc & Htr & Ht & Hf). exists d.
  assert (St : forall w f, stored d w f -> exists n, (3 <= n <= 12)%Z /\ f = lit_64 n 0).
  { intros w f (v & t & _ & N & <-). apply (map_nth_error (@t_freq demo_lg)) in N. rewrite Hf in N. destruct v as [|[|[|[|v]]]]; cbn [nth_error] in N; [..|destruct v; discriminate N]; (eexists; split; [|symmetry; apply (f_equal (fun o => match o with Some x => x | None => lit_64 3 0 end)) in N; exact N]); lia. }
  assert (LO : log2_ok (E := demo_lg) eq_refl d 24).
  { constructor.
    - rewrite Ht. apply real_lit_105. lia.
    - lra.
    - intros w f K. destruct (St w f K) as (n & Hn & ->). exists (IZR n). split; [apply real_lit_105; lia|]. assert (3 <= IZR n <= 12)%R by (split; apply IZR_le; lia). lra.
    - intros f a K Ha. assert (Q : exists n, (1 <= n <= 24)%Z /\ f = lit_64 n 0) by (destruct K as [-> |(w & K)]; [exists 24%Z; split; [lia|exact Ht]|destruct (St w f K) as (n & Hn & ->); exists n; split; [lia|reflexivity]]).
      destruct Q as (n & Hn & ->). rewrite real_lit_105 in Ha by lia. injection Ha as <-. exact (lg_105 n Hn). }
  destruct (C105_nearly_most_probable demo_lg eq_refl cfg0 d_105 d 24 (str "你好世界") (map str ["你"; "好"; "世"; "界"]) reach_105 Hc LO) as (qs & p & Q1 & Q2 & Q3); [vm_compute; reflexivity|cbn [length map INR]; lra|].
  exists qs, p. split; [exact Hc|]. split; [exact Q1|]. split; [exact Q2|]. replace 4%R with (INR 4) by (cbn [INR]; lra). apply (Q3 (map str ["你好"; "世界"])).
  assert (V : (dict_value d_105 (str "你好"), dict_value d_105 (str "世界")) = (Some 0, Some 1)) by (vm_compute; reflexivity). rewrite !dict_value_get, <- Htr, <- !dict_value_get in V. injection V as V1 V2.
  assert (Sd : forall w v f, dict_value d w = Some v -> nth_error (map (@t_freq demo_lg) (d_tokens d)) v = Some f -> stored d w f).
  { intros w v f H1 H2. rewrite nth_error_map in H2. destruct (nth_error (d_tokens d) v) as [t|] eqn:N; [|discriminate H2]. exists v, t. split; [exact H1|]. split; [exact N|]. apply (f_equal (fun o => match o with Some x => x | None => f end)) in H2. exact H2. }
  replace (1 / 12)%R with (12 / 24 * (4 / 24 * 1))%R by lra.
  apply (@lk_word demo_lg _ d 24 (map str ["你"; "好"]) (map str ["世"; "界"]) (map str ["世界"]) _ (lit_64 12 0)); [discriminate|apply (Sd _ 0); [exact V1|rewrite Hf; reflexivity]|apply real_lit_105; lia|].
  apply (@lk_word demo_lg _ d 24 (map str ["世"; "界"]) [] [] _ (lit_64 4 0)); [discriminate|apply (Sd _ 1); [exact V2|rewrite Hf; reflexivity]|apply real_lit_105; lia|constructor].
Qed.
