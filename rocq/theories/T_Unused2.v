(** C112: removing a word that a cut does not use. *)
From Verif Require Import P_Utf8b P_Chars S_Dict S_Seg S_Dag P_Split P_Dict P_Seg2 P_Seg3 P_Hist P_Dag P_Dag2 P_Dag3 P_Meta4 P_Exact2 P_Unused2 M_Out Ieee P_Ieee Demo T_Split T_Seg T_Hmm T_Dag T_Dict T_Exact T_Unused.
Local Open Scope lit_scope.

(** A word of more than one character, whose first character is itself a word, can be removed without changing a cut that does not use it. *)
Theorem C112_unused_word_cut : forall E, ar E = ieee -> forall c (d d' : dict E) c' em text v s out, reachable c d ->
  dict_value d (norm E c text) = Some v -> seg_remove_token c d text = Ok (d', false) ->
  (forall r x, norm E c text = string_of_runes [r] ++ x -> x <> [] /\ pos_word d (string_of_runes [r])) ->
  (forall k qs, tiles d (skipn k (dag_runes E c' s)) qs -> num64 (weight d (m_log E (d_total d)) qs)) ->
  cut d c' em s (Some false) = Ok out -> ~ In (norm E c text) out -> cut d' c' em s (Some false) = Ok out.
Proof.
  intros E HA c d d' c' em text v s out Hr Hv H Hf Hn Hc Hnot. destruct (removed E c d d' text v Hr Hv H) as (R1 & R2 & R3 & R4 & R5).
  destruct (c18_remove Hr Hv) as (d1 & A1 & _ & A3). rewrite H in A1. injection A1 as <-.
  exact (unused_cut HA Hr R1 R2 A3 R4 R5 Hf Hn Hc Hnot).
Qed.
Print Assumptions C112_unused_word_cut.

(** With the HMM as well, if the word does not occur in the text; its beginnings may (compare C91). *)
Theorem C112_absent_word_hmm : forall E, ar E = ieee -> forall c (d d' : dict E) c' em text v s, reachable c d ->
  dict_value d (norm E c text) = Some v -> seg_remove_token c d text = Ok (d', false) ->
  (forall r x, norm E c text = string_of_runes [r] ++ x -> x <> [] /\ pos_word d (string_of_runes [r])) ->
  (forall k qs, tiles d (skipn k (dag_runes E c' s)) qs -> num64 (weight d (m_log E (d_total d)) qs)) ->
  (forall a m b, dag_runes E c' s = a ++ m ++ b -> string_of_runes m <> norm E c text) ->
  cut d' c' em s (Some true) = cut d c' em s (Some true).
Proof.
  intros E HA c d d' c' em text v s Hr Hv H Hf Hn Ha. destruct (removed E c d d' text v Hr Hv H) as (R1 & R2 & R3 & R4 & R5).
  destruct (c18_remove Hr Hv) as (d1 & A1 & _ & A3). rewrite H in A1. injection A1 as <-.
  exact (absent_cut em HA Hr R1 R2 A3 R4 R5 Hf Hn Ha).
Qed.
Print Assumptions C112_absent_word_hmm.

(** CutSearch without the HMM. *)
Theorem C112_absent_word_search : forall E, ar E = ieee -> forall c (d d' : dict E) c' em text v s, reachable c d ->
  dict_value d (norm E c text) = Some v -> seg_remove_token c d text = Ok (d', false) ->
  (forall r x, norm E c text = string_of_runes [r] ++ x -> x <> [] /\ pos_word d (string_of_runes [r])) ->
  (forall k qs, tiles d (skipn k (dag_runes E c' s)) qs -> num64 (weight d (m_log E (d_total d)) qs)) ->
  (forall a m b, dag_runes E c' s = a ++ m ++ b -> string_of_runes m <> norm E c text) ->
  cut_search d' c' em s (Some false) = cut_search d c' em s (Some false).
Proof.
  intros E HA c d d' c' em text v s Hr Hv H Hf Hn Ha. destruct (removed E c d d' text v Hr Hv H) as (R1 & R2 & R3 & R4 & R5).
  destruct (c18_remove Hr Hv) as (d1 & A1 & _ & A3). rewrite H in A1. injection A1 as <-.
  exact (absent_search em HA Hr R1 R2 A3 R4 R5 Hf Hn Ha).
Qed.
Print Assumptions C112_absent_word_search.

(** No weight is positive or NaN: decided by looking at the tokens. *)
Definition fine (x : f64 demo) : bool := eqb64 demo x x && negb (ltb64 demo (lit64 demo 0 0) x).
Lemma fine_num : forall os, let d := dict_of cfg0 os in let T := m_log demo (d_total d) in
  fine (sub64 demo (m_log demo (lit64 demo 0 0)) T) = true -> fine (sub64 demo (m_log demo (lit64 demo 1 0)) T) = true ->
  forallb (fun t : token demo => fine (sub64 demo (m_log demo (t_freq t)) T)) (d_tokens d) = true ->
  forall ps, num64 (A := demo) (weight d T ps).
Proof.
  intros os d T H0 H1 H ps. apply C26_weights_comparable; [reflexivity|].
  assert (Hok : forall x, fine x = true -> le64 (A := demo) x (lit64 demo 0 0)).
  { intros x K. unfold fine in K. apply andb_prop in K as [K1 K2]. apply negb_true_iff in K2. split; [exact K1|]. split; [reflexivity|exact K2]. }
  intro w. apply Hok. unfold edge. pose proof (find_eq w (reachable_inv (dict_of_reachable cfg0 os))) as Hf. fold d in Hf. rewrite Hf.
  destruct (t_get (d_trie d) w) as [v|].
  - destruct (nth_error (d_tokens d) v) as [t|] eqn:Et; [|first [exact H0|exact H1]]. rewrite forallb_forall in H. apply H. eapply nth_error_In; exact Et.
  - destruct w as [|b w]; [first [exact H0|exact H1]|]. destruct (t_path (d_trie d) (b :: w)); [exact H0|exact H1].
Qed.

(** Not when the first character is no word: 甲乙 does not occur in the text, but as long as it is in the dictionary 甲 begins a word, counts as
    found with frequency 0 and has weight -Inf; without 甲乙 it counts as an unknown character of frequency 1. *)
Definition os_112 : list (dop demo) := [add (str "子") 30 []; add (str "丙丁") 30 []; add (str "子甲丙") 1 []; add (str "丁") 1 []; add (str "甲乙") 1 []; add (str "戊") 1 []].
Theorem C112_first_character_refuted : exists (os : list (dop demo)) text v s out out', let d := dict_of cfg0 os in let d' := dict_of cfg0 (os ++ [@OpRemove demo text]) in
  dict_value d (norm demo cfg0 text) = Some v /\ dict_value d' (norm demo cfg0 text) = None /\ length (runes_of text) = 2 /\
  (forall ps, num64 (A := demo) (weight d (m_log demo (d_total d)) ps)) /\
  cut d cfg0 demo_emit s (Some false) = Ok out /\ ~ In (norm demo cfg0 text) out /\ ~ In (nth 1 (runes_of text) 0%Z) (runes_of s) /\
  cut d' cfg0 demo_emit s (Some false) = Ok out' /\ out' <> out.
Proof.
  exists os_112, (str "甲乙"), 4, (str "子甲丙丁"), (map str ["子甲丙"; "丁"]), (map str ["子"; "甲"; "丙丁"]). cbv zeta.
  split; [vm_compute; reflexivity|]. split; [vm_compute; reflexivity|]. split; [vm_compute; reflexivity|]. split; [apply fine_num; vm_compute; reflexivity|].
  split; [vm_compute; reflexivity|]. split; [vm_compute; intros [K|[K|[]]]; discriminate K|]. split; [vm_compute; intros [K|[K|[K|[K|[]]]]]; discriminate K|].
  split; [vm_compute; reflexivity|vm_compute; discriminate].
Qed.
Print Assumptions C112_first_character_refuted.

(** Not with the HMM: 时代 is found in the dictionary, so its two characters, more likely as words of their own, are left apart; once it is
    removed, they go to the HMM, which joins them. *)
Definition os_112h : list (dop demo) := [add (str "时") 10 []; add (str "代") 10 []; add (str "时代") 1 []].
Theorem C112_hmm_refuted : exists (os : list (dop demo)) text v, let d := dict_of cfg0 os in let d' := dict_of cfg0 (os ++ [@OpRemove demo text]) in
  dict_value d (norm demo cfg0 text) = Some v /\ dict_value d' (norm demo cfg0 text) = None /\
  (forall r, In r (runes_of text) -> dict_value d (string_of_runes [r]) <> None) /\
  (forall ps, num64 (A := demo) (weight d (m_log demo (d_total d)) ps)) /\
  cut d cfg0 demo_emit text (Some true) = Ok (map string_of_rune (runes_of text)) /\ length (runes_of text) = 2 /\
  cut d' cfg0 demo_emit text (Some true) = Ok [text].
Proof.
  exists os_112h, (str "时代"), 2. cbv zeta.
  split; [vm_compute; reflexivity|]. split; [vm_compute; reflexivity|]. split; [replace (runes_of (str "时代")) with [26102; 20195]%Z by (vm_compute; reflexivity); intros r [<-|[<-|[]]]; vm_compute; discriminate|]. split; [apply fine_num; vm_compute; reflexivity|].
  split; [vm_compute; reflexivity|]. split; vm_compute; reflexivity.
Qed.
Print Assumptions C112_hmm_refuted.

(** 乙丙 overlaps the words found and is removed; 乙 is a word too. *)
Definition os_112e : list (dop demo) := [add (str "甲乙") 12 []; add (str "丙丁") 12 []; add (str "乙丙") 6 []; add (str "乙") 2 []; add (str "丙") 2 []; add (str "甲") 2 []].
Example C112_ex : let d := dict_of cfg0 os_112e in let d' := dict_of cfg0 (os_112e ++ [@OpRemove demo (str "乙丙")]) in
  dict_value d (str "乙丙") = Some 2 /\ dict_value d' (str "乙丙") = None /\
  (forall em s out, cut d cfg0 em s (Some false) = Ok out -> ~ In (str "乙丙") out -> cut d' cfg0 em s (Some false) = Ok out) /\
  cut d cfg0 demo_emit (str "甲乙丙丁") (Some false) = Ok (map str ["甲乙"; "丙丁"]) /\
  cut d cfg0 demo_emit (str "甲乙丙") (Some false) = Ok (map str ["甲乙"; "丙"]) /\
  cut d cfg0 demo_emit (str "乙丙") (Some false) = Ok [str "乙丙"] /\ cut d' cfg0 demo_emit (str "乙丙") (Some false) = Ok (map str ["乙"; "丙"]).
Proof.
  cbv zeta. split; [vm_compute; reflexivity|]. split; [vm_compute; reflexivity|]. split; [|repeat split; vm_compute; reflexivity].
  intros em s out. assert (Hr : reachable cfg0 (dict_of cfg0 os_112e)) by apply dict_of_reachable.
  assert (Hrem : seg_remove_token cfg0 (dict_of cfg0 os_112e) (str "乙丙") = Ok (dict_of cfg0 (os_112e ++ [@OpRemove demo (str "乙丙")]), false)).
  { destruct (c18_remove (text := str "乙丙") (v := 2) Hr ltac:(vm_compute; reflexivity)) as (d1 & H1 & _). rewrite H1. do 2 f_equal.
    unfold dict_of at 1. rewrite run_ops_app. unfold dict_of in H1 |- *. destruct (run_ops_inv os_112e (new_dict_inv demo cfg0)) as (d2 & H2 & _). rewrite H2 in *. cbn [bind run_ops run_op]. rewrite H1. reflexivity. }
  assert (Hn : norm demo cfg0 (str "乙丙") = str "乙丙") by (vm_compute; reflexivity).
  intros Hc Hnot. apply (C112_unused_word_cut demo eq_refl cfg0 _ _ cfg0 em (str "乙丙") 2 s out Hr ltac:(vm_compute; reflexivity) Hrem); [| |exact Hc|rewrite Hn; exact Hnot].
  - rewrite Hn. intros r x K. set (r' := if scalar r then r else RuneError). assert (Sr : scalar r' = true) by (unfold r'; destruct (scalar r) eqn:Es; [exact Es|reflexivity]).
    assert (K0 : string_of_runes [r] = enc r') by (unfold string_of_runes; cbn [map concat]; apply app_nil_r).
    assert (K1 : runes_of (str "乙丙") = r' :: runes_of x) by (rewrite K, K0; apply runes_enc; exact Sr).
    replace (runes_of (str "乙丙")) with [20057; 19993]%Z in K1 by (vm_compute; reflexivity). injection K1 as K1 K2. split; [intro Kx; rewrite Kx in K2; discriminate K2|].
    rewrite K0, <- K1. replace (enc 20057) with (str "乙") by (vm_compute; reflexivity).
    assert (St : match nth_error (d_tokens (dict_of cfg0 os_112e)) 3 with Some t => ltb64 demo (lit64 demo 0 0) (t_freq t) | None => false end = true) by (vm_compute; reflexivity).
    destruct (nth_error (d_tokens (dict_of cfg0 os_112e)) 3) as [t|] eqn:Et; [|discriminate]. exists (t_freq t). split; [exists 3, t; split; [vm_compute; reflexivity|auto]|exact St].
  - intros k qs _. apply fine_num; vm_compute; reflexivity.
Qed.

(** 时代 does not occur in a text without 代; the HMM is asked before and after the removal. *)
Example C112_ex_hmm : let d := dict_of cfg0 os_112h in let d' := dict_of cfg0 (os_112h ++ [@OpRemove demo (str "时代")]) in
  (forall em s, ~ In 20195%Z (dag_runes demo cfg0 s) -> cut d' cfg0 em s (Some true) = cut d cfg0 em s (Some true)) /\ runes_of (str "代") = [20195%Z] /\
  cut d cfg0 demo_emit (str "广场时") (Some true) = Ok (map str ["广场"; "时"]) /\ cut d' cfg0 demo_emit (str "广场时") (Some true) = Ok (map str ["广场"; "时"]).
Proof.
  cbv zeta. split; [|repeat split; vm_compute; reflexivity].
  intros em s Hs. assert (Hr : reachable cfg0 (dict_of cfg0 os_112h)) by apply dict_of_reachable.
  assert (Hrem : seg_remove_token cfg0 (dict_of cfg0 os_112h) (str "时代") = Ok (dict_of cfg0 (os_112h ++ [@OpRemove demo (str "时代")]), false)).
  { destruct (c18_remove (text := str "时代") (v := 2) Hr ltac:(vm_compute; reflexivity)) as (d1 & H1 & _). rewrite H1. do 2 f_equal.
    unfold dict_of at 1. rewrite run_ops_app. unfold dict_of in H1 |- *. destruct (run_ops_inv os_112h (new_dict_inv demo cfg0)) as (d2 & H2 & _). rewrite H2 in *. cbn [bind run_ops run_op]. rewrite H1. reflexivity. }
  assert (Hn : norm demo cfg0 (str "时代") = str "时代") by (vm_compute; reflexivity).
  apply (C112_absent_word_hmm demo eq_refl cfg0 _ _ cfg0 em (str "时代") 2 s Hr ltac:(vm_compute; reflexivity) Hrem).
  - rewrite Hn. intros r x K. set (r' := if scalar r then r else RuneError). assert (Sr : scalar r' = true) by (unfold r'; destruct (scalar r) eqn:Es; [exact Es|reflexivity]).
    assert (K0 : string_of_runes [r] = enc r') by (unfold string_of_runes; cbn [map concat]; apply app_nil_r).
    assert (K1 : runes_of (str "时代") = r' :: runes_of x) by (rewrite K, K0; apply runes_enc; exact Sr).
    replace (runes_of (str "时代")) with [26102; 20195]%Z in K1 by (vm_compute; reflexivity). injection K1 as K1 K2. split; [intro Kx; rewrite Kx in K2; discriminate K2|].
    rewrite K0, <- K1. replace (enc 26102) with (str "时") by (vm_compute; reflexivity).
    assert (St : match nth_error (d_tokens (dict_of cfg0 os_112h)) 0 with Some t => ltb64 demo (lit64 demo 0 0) (t_freq t) | None => false end = true) by (vm_compute; reflexivity).
    destruct (nth_error (d_tokens (dict_of cfg0 os_112h)) 0) as [t|] eqn:Et; [|discriminate]. exists (t_freq t). split; [exists 0, t; split; [vm_compute; reflexivity|auto]|exact St].
  - intros k qs _. apply fine_num; vm_compute; reflexivity.
  - rewrite Hn. intros a m b Em K. apply Hs. rewrite Em. apply in_or_app. right. apply in_or_app. left. apply (f_equal runes_of) in K. rewrite runes_fix in K.
    replace (runes_of (str "时代")) with [26102; 20195]%Z in K by (vm_compute; reflexivity). destruct m as [|x [|y [|]]]; try discriminate K. injection K as _ K.
    destruct (scalar y); [subst y; right; left; reflexivity|discriminate K].
Qed.

(** The word must not occur in the text, though the cut does not use it: CutSearch finds 乙丙 within 甲乙丙. *)
Definition os_112s : list (dop demo) := [add (str "甲乙丙") 12 []; add (str "乙丙") 6 []; add (str "乙") 2 []; add (str "丙") 2 []; add (str "甲") 2 []].
Example C112_ex_search : let d := dict_of cfg0 os_112s in let d' := dict_of cfg0 (os_112s ++ [@OpRemove demo (str "乙丙")]) in
  cut d cfg0 demo_emit (str "甲乙丙") (Some false) = Ok [str "甲乙丙"] /\ cut d' cfg0 demo_emit (str "甲乙丙") (Some false) = Ok [str "甲乙丙"] /\
  cut_search d cfg0 demo_emit (str "甲乙丙") (Some false) = Ok (map str ["乙丙"; "甲乙丙"]) /\ cut_search d' cfg0 demo_emit (str "甲乙丙") (Some false) = Ok [str "甲乙丙"].
Proof. repeat split; vm_compute; reflexivity. Qed.
