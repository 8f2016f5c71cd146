(** C111: removing a word that a segmentation does not use. *)
From Verif Require Import S_Dict S_Seg P_Split P_Dict P_Seg2 P_Seg3 P_Hist P_Meta4 P_Exact2 P_Raise P_Unused M_Out Ieee P_Ieee Demo T_Split T_Seg T_Hmm T_Dag T_Dict T_Exact.
Local Open Scope lit_scope.

Lemma removed : forall (E : env) c (d d' : dict E) text v, reachable c d -> dict_value d (norm E c text) = Some v -> seg_remove_token c d text = Ok (d', false) ->
  reachable c d' /\ dict_value d' (norm E c text) = None /\ (forall w, w <> norm E c text -> dict_value d' w = dict_value d w) /\
  d_tokens d' = d_tokens d /\ d_total d' = d_total d.
Proof.
  intros E c d d' text v Hr Hv H. destruct (c18_remove Hr Hv) as (d1 & A1 & A2 & A3). rewrite H in A1. injection A1 as <-.
  split. { destruct Hr as (os & Ho). exists (os ++ [OpRemove text]). rewrite run_ops_app, Ho. cbn [bind run_ops run_op]. rewrite H. reflexivity. }
  split; [exact A2|]. split; [intros w Hw; apply A3; exact Hw|]. unfold seg_remove_token in H. rewrite split_words_eq in H. cbn [bind] in H.
  destruct (remove_token d (wsplit E c text)) as [d1|] eqn:Er; [|discriminate]. injection H as <-. destruct (remove_facts Er) as (R1 & R2 & _). auto.
Qed.

(** A word of more than one unit that the segmentation of a text does not use can be removed without changing that segmentation. *)
Theorem C111_unused_word : forall E, ar E = ieee -> forall c (d d' : dict E) text v s m segs, reachable c d ->
  (forall w v t, dict_value d w = Some v -> nth_error (d_tokens d) v = Some t -> ltb32 E (lit32 E 0 0) (t_dist t) = true) ->
  dict_value d (norm E c text) = Some v -> length (words_of E c text) <> 1 -> seg_remove_token c d text = Ok (d', false) ->
  internal_segment c (Some d) s m = Ok segs -> ~ In (InDict v) (map sg_tok segs) -> internal_segment c (Some d') s m = Ok segs.
Proof.
  intros E HA c d d' text v s m segs Hr Hp Hv Hl H Hs Hn. destruct (removed E c d d' text v Hr Hv H) as (R1 & R2 & R3 & R4 & R5).
  assert (L : laws32 E) by (rewrite HA; exact ieee_laws32).
  apply (unused (text := text) (v := v) L Hr R1 Hp Hv Hl R2 R3); [|rewrite R4; reflexivity|exact Hs|exact Hn].
  intros u t Hu. exists t. rewrite R4. auto.
Qed.
Print Assumptions C111_unused_word.

(** Nor does it change when CalcToken runs again afterwards. *)
Theorem C111_unused_word_recomputed : forall E, ar E = ieee -> forall c (d0 d d' d2 : dict E) text v s m segs, reachable c d0 -> calc_token d0 = Ok d ->
  (forall w v t, dict_value d w = Some v -> nth_error (d_tokens d) v = Some t -> ltb32 E (lit32 E 0 0) (t_dist t) = true) ->
  dict_value d (norm E c text) = Some v -> length (words_of E c text) <> 1 -> seg_remove_token c d text = Ok (d', false) -> calc_token d' = Ok d2 ->
  internal_segment c (Some d) s m = Ok segs -> ~ In (InDict v) (map sg_tok segs) -> internal_segment c (Some d2) s m = Ok segs.
Proof.
  intros E HA c d0 d d' d2 text v s m segs Hr0 Hc Hp Hv Hl H Hc2 Hs Hn. pose proof (calc_reachable Hr0 Hc) as Hr.
  destruct (removed E c d d' text v Hr Hv H) as (R1 & R2 & R3 & R4 & R5).
  assert (L : laws32 E) by (rewrite HA; exact ieee_laws32).
  destruct (calc_stored R1 Hc2) as (T1 & T2 & _). pose proof (calc_reachable R1 Hc2) as Hr2.
  destruct (calc_token_spec (inv_ok (reachable_inv R1))) as (dx & C1 & _ & _ & _ & _ & C2 & _ & _ & C3). rewrite Hc2 in C1. injection C1 as <-.
  destruct (calc_token_spec (inv_ok (reachable_inv Hr0))) as (dy & B1 & _ & _ & _ & B2 & _ & B3 & _ & B4). rewrite Hc in B1. injection B1 as <-.
  assert (K : map (@t_dist E) (d_tokens d2) = map (@t_dist E) (d_tokens d)).
  { rewrite C3, B4, R4, R5, B2. rewrite <- !(map_map (@t_freq E) (fun f => sub32 E (to32 E (m_log2 E (d_total d0))) (to32 E (m_log2 E f)))), B3. reflexivity. }
  assert (Len : length (d_tokens d2) = length (d_tokens d)) by (rewrite <- (map_length (@t_dist E)), K, map_length; reflexivity).
  apply (unused (text := text) (v := v) L Hr Hr2 Hp Hv Hl); [rewrite T2; exact R2|intros w Hw; rewrite T2; apply R3; exact Hw| |exact Len|exact Hs|exact Hn].
  intros u t Hu. destruct (nth_error (d_tokens d2) u) as [t'|] eqn:Hu'; [|apply nth_error_None in Hu'; assert (u < length (d_tokens d)) by (apply nth_error_Some; congruence); lia].
  exists t'. split; [reflexivity|]. split.
  - apply (map_nth_error (@t_text E)) in Hu, Hu'. rewrite C2, R4 in Hu'. congruence.
  - apply (map_nth_error (@t_dist E)) in Hu, Hu'. rewrite K in Hu'. congruence.
Qed.
Print Assumptions C111_unused_word_recomputed.

(** Not for a single character: once 甲, which has frequency 0 as 甲乙 has, is removed, it counts as an unknown character with distance 32 and 甲乙 is cut. *)
Definition os_111 : list (dop demo) := [add (str "甲") 0 []; add (str "乙") 10 []; add (str "甲乙") 0 []; add (str "丁") 10 []; @OpCalc demo].
Theorem C111_single_character_refuted : exists (os : list (dop demo)) text v s, let d := dict_of cfg0 os in let d' := dict_of cfg0 (os ++ [@OpRemove demo text]) in
  (forall w v t, dict_value d w = Some v -> nth_error (d_tokens d) v = Some t -> ltb32 demo (lit32 demo 0 0) (t_dist t) = true) /\
  dict_value d (norm demo cfg0 text) = Some v /\ dict_value d' (norm demo cfg0 text) = None /\ words_of demo cfg0 text = [text] /\
  (exists segs, internal_segment cfg0 (Some d) s false = Ok segs /\ map sg_tok segs = [InDict 2] /\ v = 0) /\
  seg_slice cfg0 (Some d) s false = Ok [str "甲乙"] /\ seg_slice cfg0 (Some d') s false = Ok (map str ["甲"; "乙"]).
Proof.
  exists os_111, (str "甲"), 0, (str "甲乙"). cbv zeta. split.
  { intros w v t _ Ht. assert (K : forallb (fun t : token demo => ltb32 demo (lit32 demo 0 0) (t_dist t)) (d_tokens (dict_of cfg0 os_111)) = true) by (vm_compute; reflexivity).
    rewrite forallb_forall in K. exact (K t (nth_error_In _ _ Ht)). }
  split; [vm_compute; reflexivity|]. split; [vm_compute; reflexivity|]. split; [vm_compute; reflexivity|].
  split; [exists [{| sg_start := 0; sg_end := 6; sg_tok := InDict 2 |}]; repeat split; vm_compute; reflexivity|]. split; vm_compute; reflexivity.
Qed.
Print Assumptions C111_single_character_refuted.

(** 乙丙 overlaps the words found and is removed. *)
Definition os_111e : list (dop demo) := [add (str "甲乙") 12 []; add (str "丙丁") 12 []; add (str "乙丙") 6 []; @OpCalc demo].
Example C111_ex : let d := dict_of cfg0 os_111e in let d' := dict_of cfg0 (os_111e ++ [@OpRemove demo (str "乙丙")]) in
  dict_value d (str "乙丙") = Some 2 /\ dict_value d' (str "乙丙") = None /\
  (forall s m segs, internal_segment cfg0 (Some d) s m = Ok segs -> ~ In (InDict 2) (map sg_tok segs) -> internal_segment cfg0 (Some d') s m = Ok segs) /\
  seg_slice cfg0 (Some d) (str "甲乙丙丁") false = Ok (map str ["甲乙"; "丙丁"]) /\ seg_slice cfg0 (Some d) (str "甲甲乙丙") false = Ok (map str ["甲"; "甲乙"; "丙"]) /\
  seg_slice cfg0 (Some d) (str "乙丙") false = Ok (map str ["乙丙"]) /\ seg_slice cfg0 (Some d') (str "乙丙") false = Ok (map str ["乙"; "丙"]).
Proof.
  cbv zeta. split; [vm_compute; reflexivity|]. split; [vm_compute; reflexivity|]. split; [|repeat split; vm_compute; reflexivity].
  intros s m segs. assert (Hr : reachable cfg0 (dict_of cfg0 os_111e)) by apply dict_of_reachable.
  assert (Hrem : seg_remove_token cfg0 (dict_of cfg0 os_111e) (str "乙丙") = Ok (dict_of cfg0 (os_111e ++ [@OpRemove demo (str "乙丙")]), false)).
  { destruct (c18_remove (text := str "乙丙") (v := 2) Hr ltac:(vm_compute; reflexivity)) as (d1 & H1 & _). rewrite H1. do 2 f_equal.
    unfold dict_of at 1. rewrite run_ops_app. unfold dict_of in H1 |- *. destruct (run_ops_inv os_111e (new_dict_inv demo cfg0)) as (d2 & H2 & _). rewrite H2 in *. cbn [bind run_ops run_op]. rewrite H1. reflexivity. }
  apply (C111_unused_word demo eq_refl cfg0 _ _ (str "乙丙") 2 s m segs Hr); [|vm_compute; reflexivity|vm_compute; discriminate|exact Hrem].
  intros w v t _ Ht. assert (K : forallb (fun t : token demo => ltb32 demo (lit32 demo 0 0) (t_dist t)) (d_tokens (dict_of cfg0 os_111e)) = true) by (vm_compute; reflexivity).
  rewrite forallb_forall in K. exact (K t (nth_error_In _ _ Ht)).
Qed.
