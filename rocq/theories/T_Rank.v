(** C54: TextRank. *)
From Verif Require Import S_Rank Ieee P_Ieee P_Idf P_Idf2 P_Rank P_Rank2 P_Rank3 P_Rank4 Demo T_Split T_Seg T_Pos T_Idf.
Local Open Scope lit_scope.

(** [vs]: the scores in the order in which the loop for minRank and maxRank visits them. If some score comes after one that is not larger, the weights
    are positive and ordered as the scores; otherwise they are negative and the order is reversed. If a largest score is not visited first, the weights
    are at most 1, and 1 exactly for the best words. *)
Theorem C54_text_rank : forall E, ar E = ieee -> forall srt oc o1 o2 (d : dict E) tb od text topK allow ps,
  sorts srt -> (forall m, Permutation m (oc m)) -> same_keys_in_any_order o1 -> same_keys_in_any_order o2 ->
  pos_cut d tb od text true = Ok ps -> (Z.of_nat (length ps) <= 2 ^ 45)%Z ->
  exists l sc vs lo hi all, ranking (nears allow ps) l sc vs lo hi all /\
    text_rank_pos srt oc o1 o2 d tb od text topK allow = Ok (if (0 <? topK)%Z then firstn (Z.to_nat topK) all else all) /\
    NoDup (map fst all) /\ (forall w, In w (map fst all) <-> ranked allow ps w) /\
    ((exists x, after vs x) -> forall t u, In t all -> In u all -> ltb64 E (lit64 E 0 0) (snd t) = true /\ (ltb64 E (sc 10 (fst u)) (sc 10 (fst t)) = false -> ltb64 E (snd u) (snd t) = false)) /\
    ((forall x, ~ after vs x) -> forall t u, In t all -> In u all -> ltb64 E (snd t) (lit64 E 0 0) = true /\ (ltb64 E (sc 10 (fst u)) (sc 10 (fst t)) = false -> ltb64 E (snd t) (snd u) = false)) /\
    (forall v r x, vs = v :: r -> In x r -> greatest vs x ->
       forall t, In t all -> ltb64 E (lit64 E 1 0) (snd t) = false /\ (eqb64 E (snd t) (lit64 E 1 0) = true <-> forall u, In u all -> ltb64 E (snd t) (snd u) = false)).
Proof.
  intros E HE srt oc o1 o2 d tb od text topK allow ps Hs Hoc Ho1 Ho2 Hps Hb.
  destruct E as [A u1 u2 u3 u4 u5 u6 u7 u8 u9 u10 u11 u12 u13 u14]. cbn [ar] in HE. subst A.
  destruct (rank_ok (srt := srt) (oc := oc) (o1 := o1) (o2 := o2) allow Hs Hoc Ho1 Ho2 Hb) as (sc & lo & hi & ws & _ & Hw & _ & Hr & Hrange & _). cbv zeta in Hr.
  do 6 eexists. split; [exact Hr|]. split; [unfold text_rank_pos; rewrite Hps; cbn [bind]; f_equal; apply cut_top|].
  pose proof Hr as (_ & _ & _ & _ & _ & Hp & _). split; [|split; [|split; [|split]]].
  - eapply Permutation_NoDup; [exact Hp|]. apply NoDup_nodup.
  - intro w. rewrite ranked_in. unfold words in Hp. rewrite <- (nodup_In (list_eq_dec Byte.byte_eq_dec) (members (nears allow ps)) w). split; apply Permutation_in; [symmetry|]; exact Hp.
  - exact (ranking_late Hr Hrange).
  - exact (ranking_none Hr Hrange).
  - intros v r x Hv. revert Hr Hrange. rewrite Hv. intros Hr Hrange Hx Hg. exact (ranking_best Hr Hrange Hx Hg).
Qed.
Print Assumptions C54_text_rank.
(** TextRank ranks place names, nouns, verbal nouns and verbs. *)
Theorem C54_default_tags : forall E, ar E = ieee -> forall srt oc o1 o2 (d : dict E) tb od text ps,
  sorts srt -> (forall m, Permutation m (oc m)) -> same_keys_in_any_order o1 -> same_keys_in_any_order o2 ->
  pos_cut d tb od text true = Ok ps -> (Z.of_nat (length ps) <= 2 ^ 45)%Z ->
  exists all, NoDup (map fst all) /\ (forall w, In w (map fst all) <-> ranked [str "n"; str "v"; str "ns"; str "vn"] ps w) /\
    forall topK, text_rank srt oc o1 o2 d tb od text topK = Ok (if (0 <? topK)%Z then firstn (Z.to_nat topK) all else all).
Proof.
  intros E HE srt oc o1 o2 d tb od text ps Hs Hoc Ho1 Ho2 Hps Hb. destruct (C54_text_rank E HE srt oc o1 o2 d tb od text 0 default_pos ps Hs Hoc Ho1 Ho2 Hps Hb) as (l & sc & vs & lo & hi & all & _ & H1 & H2 & H3 & _).
  exists all. split; [exact H2|]. split.
  - intro w. rewrite H3. assert (K : forall p, In p default_pos <-> In p [str "n"; str "v"; str "ns"; str "vn"]) by (intro p; unfold default_pos; cbn [map In]; tauto).
    unfold ranked. split; intros (i & j & p & q & b & G1 & G2 & G3 & G4 & G5); exists i, j, p, q, b; apply K in G3; apply K in G4; auto.
  - intro topK. unfold text_rank. unfold text_rank_pos, rank_pieces in *. rewrite Hps in *. cbn [bind] in *. cbv zeta in *. change ((0 <? 0)%Z) with false in H1. cbn [andb] in H1. injection H1 as H1. rewrite H1. f_equal. apply cut_top.
Qed.
Print Assumptions C54_default_tags.
(** The order in which the result is built, and the sorting algorithm, do not matter. *)
Theorem C54_result_order_irrelevant : forall E, ar E = ieee -> forall srt srt' oc o1 o2 o2' (d : dict E) tb od text topK allow ps,
  sorts srt -> sorts srt' -> (forall m, Permutation m (oc m)) -> same_keys_in_any_order o1 -> same_keys_in_any_order o2 -> same_keys_in_any_order o2' ->
  pos_cut d tb od text true = Ok ps -> (Z.of_nat (length ps) <= 2 ^ 45)%Z ->
  text_rank_pos srt oc o1 o2 d tb od text topK allow = text_rank_pos srt' oc o1 o2' d tb od text topK allow.
Proof.
  intros E HE srt srt' oc o1 o2 o2' d tb od text topK allow ps Hs Hs' Hoc Ho1 Ho2 Ho2' Hps Hb.
  destruct E as [A u1 u2 u3 u4 u5 u6 u7 u8 u9 u10 u11 u12 u13 u14]. cbn [ar] in HE. subst A.
  unfold text_rank_pos, rank_pieces. rewrite Hps. cbn [bind].
  rewrite (rank_same (srt := srt) (srt' := srt') (oc := oc) (o1 := o1) (o2 := o2) (o2' := o2') allow Hs Hs' Hoc Ho1 Ho2 Ho2' Hb). reflexivity.
Qed.
Print Assumptions C54_result_order_irrelevant.
(** 'The ranking does not depend on the iteration order of maps' is false: two words of a text are ranked either way. *)
Definition d_tr := dict_of cfg0 [add (str "世界") 8 (str "n"); add (str "你好") 9 (str "l"); add (str "纽约") 9 (str "ns"); add (str "上海") 9 (str "n"); OpCalc].
Definition tr o1 allow text topK := text_rank_pos ins_sort (fun m => m) o1 (fun m => m) d_tr ntab ods text topK (map str allow).
Theorem C54_map_order_matters_refuted : exists o1 o1', same_keys_in_any_order o1 /\ same_keys_in_any_order o1' /\
  tags_of (tr o1 ["l"; "ns"] (str "你好纽约") 1) = Some [str "纽约"] /\ tags_of (tr o1' ["l"; "ns"] (str "你好纽约") 1) = Some [str "你好"].
Proof.
  exists (fun m => m), (@rev _). split; [intro m; reflexivity|]. split; [intro m; apply Permutation_rev|]. split; vm_compute; reflexivity.
Qed.
Print Assumptions C54_map_order_matters_refuted.
(** 'Weights are positive' is false: a text with one repeated word. *)
Theorem C54_positive_weights_refuted : exists text t, tr (fun m => m) ["ns"] text 0 = Ok [t] /\ ltb64 demo (snd t) (lit_64 0 0) = true.
Proof.
  exists (str "纽约纽约").
  assert (match tr (fun m => m) ["ns"] (str "纽约纽约") 0 with Ok [t] => ltb64 demo (snd t) (lit_64 0 0) | _ => false end = true) as H by (vm_compute; reflexivity).
  destruct (tr _ _ _ _) as [[|t [|? ?]]| |]; try discriminate. exists t. auto.
Qed.
Print Assumptions C54_positive_weights_refuted.
(** Two words four positions apart are near each other, five positions apart they are not; the order of the visits may reverse the ranking. *)
Definition best_is_1 (r : res (list (wseg demo))) : bool := match r with Ok (t :: _) => eqb64 demo (snd t) (lit_64 1 0) | _ => false end.
Example C54_ex : tags_of (tr (fun m => m) ["l"; "ns"; "n"] (str "你好纽约上海你好") 0) = Some (map str ["上海"; "纽约"; "你好"]) /\
  tags_of (tr (@rev _) ["l"; "ns"; "n"] (str "你好纽约上海你好") 2) = Some (map str ["你好"; "纽约"]) /\
  best_is_1 (tr (@rev _) ["l"; "ns"; "n"] (str "你好纽约上海你好") 2) = true /\
  tags_of (tr (fun m => m) ["l"; "ns"] (str "你好,,,,纽约") 0) = Some [] /\ tags_of (tr (fun m => m) ["l"; "ns"] (str "你好,,,纽约") 5) = Some (map str ["纽约"; "你好"]).
Proof. repeat apply conj; vm_compute; reflexivity. Qed.
Example C54_default_ex : tags_of (text_rank ins_sort (fun m => m) (fun m => m) (fun m => m) d_tr ntab ods (str "你好纽约上海你好") 0) = Some (map str ["上海"; "纽约"]).
Proof. vm_compute. reflexivity. Qed.
