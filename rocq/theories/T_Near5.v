(** C107: the ranking of ExtractTags against exact weights. *)
From Verif Require Import S_Near5 Ieee P_Ieee P_Idf P_Idf2 P_Near6 Demo T_Split T_Seg T_Hmm T_Dag T_Load T_Idf.
From Coq Require Import Reals Lra.
From Flocq Require Import Core IEEE754.BinarySingleNaN.
Local Open Scope lit_scope.

(** Every returned weight is the exact weight up to a relative 2^-51. A tag is never ranked below, or left out for, a tag whose exact weight is
    smaller by more than a relative 2^-50. *)
Theorem C107_nearly_exact_ranking : forall (E : env) (H : ar E = ieee) c0 (di : dict E) (i : idf E) srt o1 o2 d c em l text topK ws,
  reachable c0 di -> s_dict (i_seg i) = Some di -> sorts srt -> same_keys_in_any_order o1 -> same_keys_in_any_order o2 ->
  cut d c em text (Some true) = Ok ws -> (Z.of_nat (length ws) <= 2 ^ 53)%Z -> (0 <= topK)%Z ->
  let k := S_Idf.kept E l ws in
  let nearly_above a b := forall ra rb, exact_weight H i k a ra -> exact_weight H i k b rb -> (rb <= ra * (1 + / 2 ^ 50))%R in
  sane_idf H i k ->
  exists out, extract_tags srt o1 o2 d c em (Some l) (Some i) text topK = Ok out /\
    (forall t, In t out -> exists v r, real64 H (snd t) = Some v /\ exact_weight H i k (fst t) r /\ (Rabs (v - r) <= r / 2 ^ 51)%R) /\
    StronglySorted nearly_above (map fst out) /\ forall w a, In w k -> ~ In w (map fst out) -> In a (map fst out) -> nearly_above a w.
Proof. intros E H c0 di i srt o1 o2 d c em l text topK ws. exact (@c107 E H c0 di i srt o1 o2 d c em l text topK ws). Qed.
Print Assumptions C107_nearly_exact_ranking.

Definition text_107 : bytes := str "你好世界, 你好 你好 go the 世界 啊".
Definition ws_107 : list bytes := match cut d_dag cfg0 demo_emit text_107 (Some true) with Ok l => l | _ => [] end.
Definition k_107 : list bytes := S_Idf.kept demo default_stops ws_107.
(** The IDF value of [w] is the number [n], as a computation. *)
Definition same_107 (x : b64) (n : Z) : bool := match B2SF x, B2SF (lit_64 n 0) with
  | SpecFloat.S754_finite a m e, SpecFloat.S754_finite a' m' e' => Bool.eqb a a' && (m =? m')%positive && (e =? e')%Z
  | SpecFloat.S754_zero a, SpecFloat.S754_zero a' => Bool.eqb a a' | _, _ => false end.
Definition idf_107 (w : bytes) (n : Z) : bool := match s_dict (i_seg i_ex) with
  | Some d => match dict_find d w with Ok (f, _, b) => same_107 (if b then f else i_median i_ex) n | _ => false end | None => false end.
Lemma same_107_eq : forall x n, same_107 x n = true -> x = lit_64 n 0.
Proof.
  intros x n K. unfold same_107 in K. apply B2SF_inj. destruct (B2SF x) as [a| | |a m e]; try discriminate K; destruct (B2SF (lit_64 n 0)) as [a'| | |a' m' e']; try discriminate K; [apply Bool.eqb_prop in K; subst; reflexivity|].
  apply andb_prop in K as [K K3]. apply andb_prop in K as [K1 K2]. apply Bool.eqb_prop in K1. apply Pos.eqb_eq in K2. apply Z.eqb_eq in K3. subst. reflexivity.
Qed.
Lemma idf_107_is : forall w n, idf_107 w n = true -> idf_is i_ex w (lit_64 n 0).
Proof.
  intros w n K. unfold idf_107 in K. destruct (s_dict (i_seg i_ex)) as [d|] eqn:Ed; [|discriminate K]. destruct (dict_find d w) as [[[f p] b]| |] eqn:Ef; try discriminate K. apply same_107_eq in K.
  exists d, f, p, b. split; [exact Ed|]. split; [exact Ef|]. symmetry. exact K.
Qed.
Lemma idf_107_only : forall w n x, idf_107 w n = true -> idf_is i_ex w x -> x = lit_64 n 0.
Proof.
  intros w n x K (d2 & f2 & p2 & b2 & Q1 & Q2 & Q3). unfold idf_107 in K. rewrite Q1, Q2 in K. apply same_107_eq in K. rewrite Q3. exact K.
Qed.
Lemma real_lit_107 : forall n, (0 <= n <= 2 ^ 53)%Z -> real64 (A := ar demo) eq_refl (lit_64 n 0) = Some (IZR n).
Proof. intros n Hn. destruct (lit_int Hn) as (K1 & K2 & _). unfold real64. cbn [eq_rect]. rewrite K2, K1. reflexivity. Qed.
Lemma words_107 : forallb (fun w => idf_107 w 2 || idf_107 w 8 || idf_107 w 0) k_107 = true.
Proof. vm_compute. reflexivity. Qed.
Lemma sane_107 : sane_idf (E := demo) eq_refl i_ex k_107.
Proof.
  intros w x Iw Hx. pose proof words_107 as K. rewrite forallb_forall in K. specialize (K w Iw). assert (P : (1 <= 2 ^ 900)%R) by (apply pow_R1_Rle; lra). assert (P2 : (8 <= 2 ^ 900)%R) by (replace 900%nat with (3 + 897)%nat by reflexivity; rewrite pow_add; assert (1 <= 2 ^ 897)%R by (apply pow_R1_Rle; lra); lra).
  assert (P3 : (/ 2 ^ 900 <= 1)%R) by (rewrite <- Rinv_1; apply Rinv_le; lra).
  apply orb_prop in K as [K|K]; [apply orb_prop in K as [K|K]|]; pose proof (idf_107_only _ _ _ K Hx) as ->; eexists; (split; [apply real_lit_107; lia|]); [right; lra|right; lra|left; reflexivity].
Qed.
(** 世界 twice with the value 8, 你好 three times with the default value 2, go once with the value 0, among six words. *)
Example C107_ex : reachable cfg0 (dict_of cfg0 [add (str "世界") 8 (str "n"); add (str "go语言") 9 (str "n"); OpCalc]) /\ sane_idf (E := demo) eq_refl i_ex k_107 /\
  exact_weight (E := demo) eq_refl i_ex k_107 (str "世界") (8 / 3) /\ exact_weight (E := demo) eq_refl i_ex k_107 (str "你好") 1 /\ exact_weight (E := demo) eq_refl i_ex k_107 (str "go") 0 /\
  tags_of (extract_tags ins_sort (fun m => m) (@rev _) d_dag cfg0 demo_emit (Some default_stops) (Some i_ex) text_107 2) = Some (map str ["世界"; "你好"]).
Proof.
  split; [apply dict_of_reachable|]. split; [exact sane_107|].
  assert (W : forall w n m (r : R), idf_107 w n = true -> (0 <= n <= 2 ^ 53)%Z -> tally w k_107 = m -> r = (IZR n * INR m / 6)%R -> exact_weight (E := demo) eq_refl i_ex k_107 w r).
  { intros w n m r K1 K2 K3 ->. exists (lit_64 n 0), (IZR n). split; [apply idf_107_is, K1|]. split; [apply real_lit_107, K2|]. rewrite K3. assert (L : length k_107 = 6) by (vm_compute; reflexivity). rewrite L. cbn [INR]. f_equal. f_equal. lra. }
  split; [apply (W _ 8%Z 2); [vm_compute; reflexivity|lia|vm_compute; reflexivity|cbn [INR]; lra]|].
  split; [apply (W _ 2%Z 3); [vm_compute; reflexivity|lia|vm_compute; reflexivity|cbn [INR]; lra]|].
  split; [apply (W _ 0%Z 1); [vm_compute; reflexivity|lia|vm_compute; reflexivity|cbn [INR]; lra]|].
  exact (proj1 C51_ex).
Qed.
