(** C84: the case of Latin letters. *)
From Verif Require Import S_Case S_Seg M_Out M_Dag M_Pos P_Utf8 P_Split P_Case P_Seg2 Ieee Demo T_Split T_Seg T_Dag T_Pos.
Local Open Scope lit_scope.

(** C84 *)
Theorem C84_segmenting_ignores_case : forall E c (od : option (dict E)) a b m, c_lower c = true -> c_alpha c = false -> same_letters a b ->
  internal_segment c od a m = internal_segment c od b m /\ seg_slice c od a m = seg_slice c od b m /\
  seg_pos c od a m = seg_pos c od b m /\ seg_string c od a m = seg_string c od b m.
Proof.
  intros E c od a b m H1 H2 H. assert (K : internal_segment c od a m = internal_segment c od b m).
  { unfold internal_segment. rewrite (same_split E H1 H2 H). destruct H; reflexivity. }
  unfold seg_slice, seg_pos, seg_string, depth. rewrite K, (same_length H). auto.
Qed.
Print Assumptions C84_segmenting_ignores_case.
Theorem C84_dag_cuts_ignore_case : forall E (d : dict E) c em reg a b h, c_lower c = true -> same_letters a b ->
  cut d c em a (Some h) = cut d c em b (Some h) /\ cut_dag d c em a reg = cut_dag d c em b reg /\
  cut_all d c a = cut_all d c b /\ cut_search d c em a (Some h) = cut_search d c em b (Some h).
Proof.
  intros E d c em reg a b h H1 H. assert (K : dag_runes E c a = dag_runes E c b) by (unfold dag_runes; rewrite H1, (same_lower E H); reflexivity).
  assert (K1 : cut_dag_nohmm d c a = cut_dag_nohmm d c b) by (unfold cut_dag_nohmm; rewrite K; reflexivity).
  assert (K2 : forall reg, cut_dag d c em a reg = cut_dag d c em b reg) by (intro; unfold cut_dag; rewrite K; reflexivity).
  assert (K3 : cut d c em a (Some h) = cut d c em b (Some h)) by (destruct h; cbn; auto).
  split; [exact K3|]. split; [apply K2|]. split; [unfold cut_all; rewrite K; reflexivity|]. unfold cut_search, cut_for_search. rewrite K3. reflexivity.
Qed.
Print Assumptions C84_dag_cuts_ignore_case.
Theorem C84_dictionary_ignores_case : forall E c (d : dict E) a b f p, c_lower c = true -> c_alpha c = false -> same_letters a b ->
  seg_add_token c d a f p = seg_add_token c d b f p /\ seg_remove_token c d a = seg_remove_token c d b /\
  seg_readd_token c d a f p = seg_readd_token c d b f p.
Proof.
  intros E c d a b f p H1 H2 H. unfold seg_add_token, seg_remove_token, seg_readd_token, to_token. rewrite (same_split E H1 H2 H). auto.
Qed.
Print Assumptions C84_dictionary_ignores_case.

Definition cfg_alpha : cfg := {| c_alphanum := false; c_alpha := true; c_num := false; c_lower := true |}.
Definition d_case (c : cfg) : dict demo := dict_of c [add (str "你好") 9 (str "l"); add (str "Go") 8 (str "n"); add (str "go") 8 (str "n"); add (str "Go语言") 9 (str "n"); OpCalc].
Definition ends (r : res (list segment)) : option (list nat) := match r with Ok l => Some (map (@sg_end) l) | _ => None end.
Lemma same_letters_dec : forall a b, forallb (fun p => Byte.eqb (small (fst p)) (small (snd p))) (combine a b) = true -> length a = length b -> same_letters a b.
Proof.
  induction a as [|x a IH]; intros [|y b] H Hl; try discriminate; [constructor|]. cbn in H. apply andb_prop in H as [H1 H2]. constructor; [apply Byte.byte_dec_bl; exact H1|apply IH; [exact H2|cbn in Hl; congruence]].
Qed.
(** With the option Alpha the case matters. *)
Theorem C84_option_alpha_refuted : exists c (d : dict demo) a b, c_lower c = true /\ reachable c d /\ same_letters a b /\
  internal_segment c (Some d) a false <> internal_segment c (Some d) b false.
Proof.
  exists cfg_alpha, (d_case cfg_alpha), (str "GO"), (str "go"). split; [reflexivity|]. split; [apply dict_of_reachable|]. split; [apply same_letters_dec; reflexivity|].
  intro H. apply (f_equal ends) in H. vm_compute in H. discriminate H.
Qed.
Print Assumptions C84_option_alpha_refuted.
(** Package pos does not find words with capital letters. *)
Theorem C84_package_pos_refuted : exists c (d : dict demo) a b, c_lower c = true /\ c_alpha c = false /\ reachable c d /\ same_letters a b /\
  (do l <- pos_cut d ntab ods a false ; Ok (map fst l)) = Ok (map str ["Go"; "语"; "言"]) /\ (do l <- pos_cut d ntab ods b false ; Ok (map fst l)) = Ok [str "go语言"].
Proof.
  exists cfg0, (d_case cfg0), (str "Go语言"), (str "go语言"). split; [reflexivity|]. split; [reflexivity|]. split; [apply dict_of_reachable|]. split; [apply same_letters_dec; reflexivity|]. split; vm_compute; reflexivity.
Qed.
Print Assumptions C84_package_pos_refuted.
Example C84_ex : same_letters (str "GO语言iS") (str "go语言Is") /\ (do l <- seg_slice cfg0 (Some (d_case cfg0)) (str "GO语言iS") false ; Ok l) = Ok (map str ["go语言"; "is"]) /\
  cut_all (d_case cfg0) cfg0 (str "GO语言") = cut_all (d_case cfg0) cfg0 (str "go语言") /\ cut_all (d_case cfg0) cfg0 (str "gO语言") = Ok (map str ["go"; "go语言"]).
Proof.
  split; [apply same_letters_dec; reflexivity|]. split; [vm_compute; reflexivity|]. split; vm_compute; reflexivity.
Qed.
