(** C108: the ranking of TextRank against exact scores. *)
From Verif Require Import S_Near6 Ieee P_Idf P_Idf2 P_Rank P_Rank4 P_Near7 Demo T_Split T_Seg T_Pos T_Idf T_Rank.
From Coq Require Import Reals Lra.
Local Open Scope lit_scope.

(** The pairs of near words determine the exact scores. *)
Theorem C108_exact_scores : forall ns, exists X, exact_scores ns X /\ forall Y, exact_scores ns Y -> forall x w, In w (members ns) -> Y x w = X x w.
Proof. intro ns. eexists. split; [apply exact_exist|]. intros Y HY x w Hw. exact (exact_unique HY (@exact_exist ns) x Hw). Qed.
Print Assumptions C108_exact_scores.
(** [all] is in decreasing or in increasing order of the exact scores after ten rounds, up to a relative n/2^42, n being the number of words cut; the
    signs of the weights tell which. *)
Theorem C108_nearly_exact_ranking : forall E, ar E = ieee -> forall srt oc o1 o2 (d : dict E) tb od text topK allow ps X,
  sorts srt -> (forall m, Permutation m (oc m)) -> same_keys_in_any_order o1 -> same_keys_in_any_order o2 ->
  pos_cut d tb od text true = Ok ps -> (Z.of_nat (length ps) <= 2 ^ 40)%Z -> exact_scores (nears allow ps) X ->
  let not_below a b := (X 10%nat b <= X 10%nat a * (1 + INR (length ps) / 2 ^ 42))%R in
  exists all, text_rank_pos srt oc o1 o2 d tb od text topK allow = Ok (if (0 <? topK)%Z then firstn (Z.to_nat topK) all else all) /\
    NoDup (map fst all) /\ (forall w, In w (map fst all) <-> ranked allow ps w) /\
    ((forall t, In t all -> ltb64 E (lit64 E 0 0) (snd t) = true) /\ StronglySorted not_below (map fst all) \/
     (forall t, In t all -> ltb64 E (snd t) (lit64 E 0 0) = true) /\ StronglySorted (fun a b => not_below b a) (map fst all)).
Proof.
  intros E HE srt oc o1 o2 d tb od text topK allow ps X Hs Hoc Ho1 Ho2 Hps Hb HX.
  destruct E as [A u1 u2 u3 u4 u5 u6 u7 u8 u9 u10 u11 u12 u13 u14]. cbn [ar] in HE. subst A.
  exact (c108 topK Hs Hoc Ho1 Ho2 Hps Hb HX).
Qed.
Print Assumptions C108_nearly_exact_ranking.
(** Two words: the exact scores differ, the ranking is right in one order of the visits and wrong in the other. *)
Definition ps_108 : list (bytes * bytes) := [(str "你好", str "l"); (str "纽约", str "ns")].
Definition allow_108 : list bytes := map str ["l"; "ns"].
Example C108_ex : pos_cut d_tr ntab ods (str "你好纽约") true = Ok ps_108 /\
  (exists X, exact_scores (nears allow_108 ps_108) X /\ (X 10%nat (str "你好") * (1 + / 1000) < X 10%nat (str "纽约") < 1)%R) /\
  tags_of (tr (fun m => m) ["l"; "ns"] (str "你好纽约") 0) = Some (map str ["纽约"; "你好"]) /\
  tags_of (tr (@rev _) ["l"; "ns"] (str "你好纽约") 0) = Some (map str ["你好"; "纽约"]).
Proof.
  split; [vm_compute; reflexivity|]. split; [|split; vm_compute; reflexivity].
  destruct (C108_exact_scores (nears allow_108 ps_108)) as (X & HX & _). exists X. split; [exact HX|].
  set (a := str "你好") in *. set (b := str "纽约") in *. assert (Hn : nears allow_108 ps_108 = [(a, b)]) by (vm_compute; reflexivity). rewrite Hn in HX.
  destruct (HX a) as [A0 A1]; [left; reflexivity|]. destruct (HX b) as [B0 B1]; [right; left; reflexivity|].
  assert (L : length (words [(a, b)]) = 2) by (vm_compute; reflexivity). rewrite L in A0, B0. cbn [INR] in A0, B0.
  assert (EA : forall x, X (S x) a = (15 / 100 + 85 / 100 * X x b)%R).
  { intro x. rewrite A1. cbn [map fold_right fst snd]. replace (beqb a a) with true by reflexivity. replace (beqb b a) with false by (vm_compute; reflexivity). replace (ltb_str b a) with false by (vm_compute; reflexivity). replace (degree [(a, b)] b) with 1 by (vm_compute; reflexivity). cbn [INR]. lra. }
  assert (EB : forall x, X (S x) b = (15 / 100 + 85 / 100 * X (S x) a)%R).
  { intro x. rewrite B1. cbn [map fold_right fst snd]. replace (beqb b b) with true by reflexivity. replace (beqb a b) with false by (vm_compute; reflexivity). replace (ltb_str a b) with true by (vm_compute; reflexivity). replace (degree [(a, b)] a) with 1 by (vm_compute; reflexivity). cbn [INR]. lra. }
  clear A1 B1 HX. rewrite (EB 9). do 9 rewrite EA, EB. rewrite EA, B0. lra.
Qed.
