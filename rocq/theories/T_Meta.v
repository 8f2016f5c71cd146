(** C75-C78: how results for different texts and different dictionaries relate. *)
From Verif Require Import S_Split S_Meta P_Seg2 P_Hist P_Meta2 P_Meta3 P_Meta5 P_Meta6 P_Meta7 Ieee Demo T_Split T_Seg T_Hmm T_Dict T_Dag.
From Coq Require Import Sorting.Permutation.
Local Open Scope lit_scope.

(** C75 *)
Theorem C75_segment_prefix : forall E c (d : dict E) s a sg b, reachable c d ->
  internal_segment c (Some d) s false = Ok (a ++ sg :: b) ->
  internal_segment c (Some d) (firstn (sg_start sg) s) false = Ok a /\
  internal_segment c (Some d) (firstn (sg_end sg) s) false = Ok (a ++ [sg]).
Proof. intros E c d s a sg b H K. eapply c75_segment; eassumption. Qed.
Print Assumptions C75_segment_prefix.
Theorem C75_cut_prefix : forall E c (d : dict E) s a b, reachable c d ->
  seg_slice c (Some d) s false = Ok (a ++ b) -> seg_slice c (Some d) (concat a) false = Ok a.
Proof. intros E c d s a b H K. eapply c75_cut; eassumption. Qed.
Print Assumptions C75_cut_prefix.
(** Cutting the lower-cased text gives the segments of the text itself, in both modes. *)
Theorem C75_case_is_forgotten : forall E c (d : dict E) s s' m, norm E c s = norm E c s' ->
  internal_segment c (Some d) s m = internal_segment c (Some d) s' m.
Proof. intros E c d s s' m H. rewrite <- (segment_norm c d s m), <- (segment_norm c d s' m), H. reflexivity. Qed.
Print Assumptions C75_case_is_forgotten.
Example C75_ex : seg_slice cfg0 (Some d1) (str "你好世界,HELLO世界") false = Ok (map str ["你好世界"; ","; "hello"; "世界"]) /\
  seg_slice cfg0 (Some d1) (str "你好世界,hello") false = Ok (map str ["你好世界"; ","; "hello"]) /\
  norm demo cfg0 (str "HELLO") = norm demo cfg0 (str "hello").
Proof. split; [|split]; vm_compute; reflexivity. Qed.
(** Not in search mode: 你好世界 is one segment of the longer text, but two of itself. *)
Theorem C75_search_prefix_refuted : exists c (d : dict demo) s a sg b, reachable c d /\
  internal_segment c (Some d) s true = Ok (a ++ sg :: b) /\ internal_segment c (Some d) (firstn (sg_end sg) s) true <> Ok (a ++ [sg]).
Proof.
  exists cfg0, d1, (str "你好世界我"), [], {| sg_start := 0; sg_end := 12; sg_tok := InDict 2 |}, [{| sg_start := 12; sg_end := 15; sg_tok := Fallback (str "我") |}].
  split; [exact d1_reachable|]. split; [vm_compute; reflexivity|]. intro H. vm_compute in H. discriminate H.
Qed.
Print Assumptions C75_search_prefix_refuted.

(** C76 *)
Theorem C76_cut_suffix : forall E c0 (d : dict E) c em s a b, reachable c0 d ->
  (c_lower c = true -> forall r, rune_lower E (rune_lower E r) = rune_lower E r) ->
  cut d c em s (Some false) = Ok (a ++ b) -> cut d c em (concat b) (Some false) = Ok b.
Proof. intros E c0 d c em s a b H Hl. exact (@c76 E c0 d c s a b H Hl). Qed.
Print Assumptions C76_cut_suffix.
Example C76_ex : cut d_dag cfg0 demo_emit (str "你好世界, 3aGo啊") (Some false) = Ok (map str ["你好"; "世界"; ","; " "; "3a"; "go"; "啊"]) /\
  cut d_dag cfg0 demo_emit (str ", 3ago啊") (Some false) = Ok (map str [","; " "; "3a"; "go"; "啊"]).
Proof. split; vm_compute; reflexivity. Qed.
(** Not for prefixes: the last character of a text weighs less than it should (C27), so that 世界 at the end is cut in two. *)
Theorem C76_cut_prefix_refuted : exists c (d : dict demo) s a b, reachable c d /\
  cut d c demo_emit s (Some false) = Ok (a ++ b) /\ cut d c demo_emit (concat a) (Some false) <> Ok a.
Proof.
  exists cfg0, (dict_of cfg0 os_27), (str "世界你"), [str "世界"], [str "你"]. split; [apply dict_of_reachable|]. split; [vm_compute; reflexivity|].
  intro H. vm_compute in H. discriminate H.
Qed.
Print Assumptions C76_cut_prefix_refuted.

(** C77 *)
Theorem C77_same_words_same_results : forall E c (e1 e2 d1 d2 : dict E), reachable c e1 -> reachable c e2 ->
  calc_token e1 = Ok d1 -> calc_token e2 = Ok d2 -> d_total d1 = d_total d2 -> same_words d1 d2 -> same_results c d1 d2.
Proof. intros E c e1 e2 d1 d2. apply c77. Qed.
Print Assumptions C77_same_words_same_results.
Theorem C77_histories : forall E c os1 os2 (d1 d2 : dict E), safe_ops c (wempty E) os1 -> safe_ops c (wempty E) os2 ->
  run_ops c (new_dict E) (os1 ++ [OpCalc]) = Ok d1 -> run_ops c (new_dict E) (os2 ++ [OpCalc]) = Ok d2 ->
  (forall w, spec_ops c (wempty E) os1 w = spec_ops c (wempty E) os2 w) -> d_total d1 = d_total d2 -> same_results c d1 d2.
Proof. intros E c os1 os2 d1 d2. apply c77_histories. Qed.
Print Assumptions C77_histories.
Theorem C77_insertion_order : forall E c l l', ar E = ieee -> NoDup (map (fun x => norm E c (fst (fst x))) l) ->
  Forall (fun x => 0 <= snd (fst x))%Z l -> (freq_sum l <= 2 ^ 53)%Z -> Permutation l l' ->
  exists d1 d2, run_ops c (new_dict E) (adds E l ++ [OpCalc]) = Ok d1 /\ run_ops c (new_dict E) (adds E l' ++ [OpCalc]) = Ok d2 /\
    same_results c d1 d2.
Proof. intros E c l l' H1 H2 H3 H4 H5. apply c77_order; assumption. Qed.
Print Assumptions C77_insertion_order.

Definition l77 : list (bytes * Z * bytes) :=
  [(str "你好世界", 2, str "l"); (str "你好", 100, str "l"); (str "世界", 100, str "n"); (str "Go", 1, str "e")]%Z.
Definition l77' : list (bytes * Z * bytes) :=
  [(str "Go", 1, str "e"); (str "世界", 100, str "n"); (str "你好", 100, str "l"); (str "你好世界", 2, str "l")]%Z.
Definition d77 (l : list (bytes * Z * bytes)) : dict demo := dict_of cfg0 (adds demo l ++ [OpCalc]).
Example C77_ex : NoDup (map (fun x => norm demo cfg0 (fst (fst x))) l77) /\ Forall (fun x => 0 <= snd (fst x))%Z l77 /\ (freq_sum l77 <= 2 ^ 53)%Z /\
  Permutation l77 l77' /\ dict_value (d77 l77) (str "go") = Some 3 /\ dict_value (d77 l77') (str "go") = Some 0 /\
  seg_pos cfg0 (Some (d77 l77)) (str "你好世界go") false = Ok [(str "你好", str "l"); (str "世界", str "n"); (str "go", str "e")] /\
  seg_pos cfg0 (Some (d77 l77')) (str "你好世界go") false = Ok [(str "你好", str "l"); (str "世界", str "n"); (str "go", str "e")].
Proof.
  split. { repeat constructor; cbn; intro H; repeat (destruct H as [H|H]; [vm_compute in H; discriminate H|]); exact H. }
  split. { repeat constructor; cbn; lia. } split. { vm_compute. discriminate. }
  split. { exact (Permutation_rev l77). } split; [|split; [|split]]; vm_compute; reflexivity.
Qed.

(** The total counts: RemoveToken does not subtract from it, so that adding and removing a word changes the results. *)
Definition os77 : list (dop demo) := adds demo l77.
Definition os77' : list (dop demo) := adds demo l77 ++ [add (str "天下") 19797 (str "n"); OpRemove (str "天下")].
Theorem C77_total_matters_refuted : exists c os1 os2 (d1 d2 : dict demo) s, safe_ops c (wempty demo) os1 /\ safe_ops c (wempty demo) os2 /\
  run_ops c (new_dict demo) (os1 ++ [OpCalc]) = Ok d1 /\ run_ops c (new_dict demo) (os2 ++ [OpCalc]) = Ok d2 /\
  (forall w, spec_ops c (wempty demo) os1 w = spec_ops c (wempty demo) os2 w) /\
  seg_slice c (Some d1) s false <> seg_slice c (Some d2) s false.
Proof.
  exists cfg0, os77, os77', (dict_of cfg0 (os77 ++ [OpCalc])), (dict_of cfg0 (os77' ++ [OpCalc])), (str "你好世界").
  assert (R : forall os, run_ops cfg0 (new_dict demo) os = Ok (dict_of cfg0 os)).
  { intros os. unfold dict_of. destruct (run_ops_inv os (new_dict_inv demo cfg0)) as (d & H & _). rewrite H. reflexivity. }
  assert (A : forall os os2 m, spec_ops cfg0 m (os ++ os2) = spec_ops (E := demo) cfg0 (spec_ops cfg0 m os) os2).
  { induction os as [|o os IH]; intros os2 m; [reflexivity|apply IH]. }
  assert (N : spec_ops cfg0 (wempty demo) os77 (norm demo cfg0 (str "天下")) = None).
  { destruct (spec_ops cfg0 (wempty demo) os77 (norm demo cfg0 (str "天下"))) eqn:K; [|reflexivity]. exfalso.
    assert (K' : match spec_ops cfg0 (wempty demo) os77 (norm demo cfg0 (str "天下")) with Some _ => true | None => false end = false) by (vm_compute; reflexivity).
    rewrite K in K'. discriminate K'. }
  split; [cbn; tauto|]. split.
  { unfold os77', os77, adds, l77. cbn [map app safe_ops safe_op add fst snd]. repeat apply conj; try exact I.
    left. apply is_some_neq. vm_compute. reflexivity. }
  split; [apply R|]. split; [apply R|]. split.
  - intros w. unfold os77'. change (adds demo l77) with os77. rewrite A. set (m := spec_ops cfg0 (wempty demo) os77) in *.
    cbn [spec_ops spec_op add]. rewrite N. unfold wset. destruct (beqb w (norm demo cfg0 (str "天下"))) eqn:Ew; [|reflexivity].
    apply beqb_eq in Ew. subst w. exact N.
  - intro H. vm_compute in H. discriminate H.
Qed.
Print Assumptions C77_total_matters_refuted.
Example C77_total_ex : seg_slice cfg0 (Some (dict_of cfg0 (os77 ++ [OpCalc]))) (str "你好世界") false = Ok (map str ["你好"; "世界"]) /\
  seg_slice cfg0 (Some (dict_of cfg0 (os77' ++ [OpCalc]))) (str "你好世界") false = Ok (map str ["你好世界"]).
Proof. split; vm_compute; reflexivity. Qed.

(** C78 *)
Theorem C78_words_of_the_text_decide : forall E c (d1 d2 : dict E) s, reachable c d1 -> reachable c d2 ->
  (forall w p x, w <> [] -> occurs w (norm E c s) -> (weighs d1 w p x <-> weighs d2 w p x)) ->
  seg_pos c (Some d1) s false = seg_pos c (Some d2) s false /\ seg_slice c (Some d1) s false = seg_slice c (Some d2) s false /\
  seg_string c (Some d1) s false = seg_string c (Some d2) s false /\
  forall m, spans (internal_segment c (Some d1) s m) = spans (internal_segment c (Some d2) s m).
Proof. intros E c d1 d2 s H1 H2 H3. apply c78_local; assumption. Qed.
Print Assumptions C78_words_of_the_text_decide.
Theorem C78_adding_other_words : forall E c (d d' : dict E) text f p s, reachable c d -> seg_add_token c d text f p = Ok d' ->
  (text = [] \/ ~ occurs (norm E c text) (norm E c s)) ->
  forall m, internal_segment c (Some d') s m = internal_segment c (Some d) s m /\ seg_pos c (Some d') s m = seg_pos c (Some d) s m /\
    seg_slice c (Some d') s m = seg_slice c (Some d) s m /\ seg_string c (Some d') s m = seg_string c (Some d) s m.
Proof. intros E c d d' text f p s H K. eapply c78_add; eassumption. Qed.
Print Assumptions C78_adding_other_words.
Lemma occurs_at : forall w s, occurs w s -> existsb (fun i => beqb (firstn (length w) (skipn i s)) w) (seq 0 (S (length s))) = true.
Proof.
  intros w s (a & b & ->). apply existsb_exists. exists (length a). split; [apply in_seq; rewrite app_length; lia|].
  apply beqb_eq. rewrite skipn_app, skipn_all, Nat.sub_diag. cbn [app skipn]. rewrite firstn_app, firstn_all, Nat.sub_diag, firstn_O, app_nil_r. reflexivity.
Qed.
Example C78_ex : ~ occurs (norm demo cfg0 (str "天下")) (norm demo cfg0 (str "你好世界")) /\
  seg_slice cfg0 (Some (dict_of cfg0 (os77 ++ [OpCalc; add (str "天下") 19797 (str "n")]))) (str "你好世界") false = Ok (map str ["你好"; "世界"]).
Proof. split; [|vm_compute; reflexivity]. intro H. apply occurs_at in H. vm_compute in H. discriminate H. Qed.
(** After the next CalcToken it is different: the new total changes every path length. *)
Theorem C78_after_calc_refuted : exists c (e d d' : dict demo) text f p s, reachable c e /\ calc_token e = Ok d /\
  (do e' <- seg_add_token c d text f p ; calc_token e') = Ok d' /\ ~ occurs (norm demo c text) (norm demo c s) /\
  seg_slice c (Some d') s false <> seg_slice c (Some d) s false.
Proof.
  assert (R : forall os, run_ops cfg0 (new_dict demo) os = Ok (dict_of cfg0 os)).
  { intros os. unfold dict_of. destruct (run_ops_inv os (new_dict_inv demo cfg0)) as (d & H & _). rewrite H. reflexivity. }
  set (os2 := os77 ++ [OpCalc; add (str "天下") 19797 (str "n")] ++ [OpCalc]).
  exists cfg0, (dict_of cfg0 os77), (dict_of cfg0 (os77 ++ [OpCalc])), (dict_of cfg0 os2), (str "天下"), (lit_64 19797 0), (str "n"), (str "你好世界").
  split; [apply dict_of_reachable|].
  assert (C : calc_token (dict_of cfg0 os77) = Ok (dict_of cfg0 (os77 ++ [OpCalc]))).
  { pose proof (R (os77 ++ [OpCalc])) as H. rewrite run_ops_app, R in H. cbn [bind run_ops run_op] in H.
    destruct (calc_token (dict_of cfg0 os77)) eqn:K; cbn [bind] in H; [rewrite <- H; reflexivity|discriminate H|discriminate H]. }
  split; [exact C|]. split.
  { pose proof (R os2) as H. unfold os2 in H at 1. rewrite run_ops_app, R in H. cbn [app bind run_ops run_op add] in H. rewrite C in H. cbn [bind] in H.
    destruct (seg_add_token cfg0 (dict_of cfg0 (os77 ++ [OpCalc])) (str "天下") (lit_64 19797 0) (str "n")) as [e'| |]; cbn [bind] in H |- *; [|discriminate H|discriminate H].
    destruct (calc_token e'); cbn [bind] in H; [rewrite <- H; reflexivity|discriminate H|discriminate H]. }
  split; [exact (proj1 C78_ex)|]. intro H. vm_compute in H. discriminate H.
Qed.
Print Assumptions C78_after_calc_refuted.

(** C79 *)
Theorem C79_runs_cut_again : forall E c (d : dict E) s a b z M, reachable c d -> ar E = ieee ->
  (32 <= M)%Z -> (Z.of_nat (length s) * M <= 2 ^ 24)%Z ->
  (forall w p x, w <> [] -> occurs w (norm E c s) -> weighs d w p x -> exists n, x = lit32 E n 0 /\ (1 <= n <= M)%Z) ->
  seg_pos c (Some d) s false = Ok (a ++ b ++ z) -> seg_pos c (Some d) (concat (map fst b)) false = Ok b.
Proof. intros E c d s a b z M Hr HE H1 H2 H3. eapply (c79_pos Hr); eassumption. Qed.
Print Assumptions C79_runs_cut_again.
Theorem C79_one_unit : forall E c (d : dict E) s a x z w, reachable c d ->
  seg_pos c (Some d) s false = Ok (a ++ x :: z) -> split_words E c (fst x) = Ok [w] -> seg_pos c (Some d) (fst x) false = Ok [x].
Proof. intros E c d s a x z w Hr H Hw. eapply (c79_unit Hr); eassumption. Qed.
Print Assumptions C79_one_unit.

Definition os79 : list (dop demo) :=
  [add (str "你好") 32 (str "l"); add (str "世界") 32 (str "n"); add (str "你好世界") 32 (str "i"); add (str "啊") 32 (str "y"); OpCalc].
Definition d79 : dict demo := dict_of cfg0 os79.
Lemma d79_weights : forall w p x, weighs d79 w p x -> exists n, x = lit32 demo n 0 /\ (1 <= n <= 32)%Z.
Proof.
  intros w p x (v & t & _ & N & _ & <-). exists 2%Z. split; [|lia].
  assert (K : map (fun t : token demo => BinarySingleNaN.B2SF (t_dist t : b32)) (d_tokens d79) = repeat (BinarySingleNaN.B2SF (lit_32 2 0)) 4) by (vm_compute; reflexivity).
  apply (map_nth_error (fun t : token demo => BinarySingleNaN.B2SF (t_dist t : b32))) in N. rewrite K in N. apply nth_error_In, repeat_spec in N.
  apply BinarySingleNaN.B2SF_inj. exact N.
Qed.
Example C79_ex : seg_pos cfg0 (Some d79) (str "我,你好世界啊Go") false =
    Ok [(str "我", str "x"); (str ",", str "x"); (str "你好世界", str "i"); (str "啊", str "y"); (str "go", str "x")] /\
  seg_pos cfg0 (Some d79) (str "你好世界啊") false = Ok [(str "你好世界", str "i"); (str "啊", str "y")] /\
  split_words demo cfg0 (str "go") = Ok [str "go"] /\ seg_pos cfg0 (Some d79) (str "go") false = Ok [(str "go", str "x")].
Proof. split; [|split; [|split]]; vm_compute; reflexivity. Qed.

(** With rounding it fails: 世界 weighs as much as its two characters (3 * 100 = 6 * 50), and which of the two sums is smaller
    in float32 depends on what precedes. *)
Definition os79r : list (dop demo) :=
  [add (str "我") 1 (str "r"); add (str "世") 6 (str "n"); add (str "界") 50 (str "n"); add (str "世界") 3 (str "n"); add (str "天下") 40 (str "n"); OpCalc].
Theorem C79_recut_refuted : exists c (d : dict demo) s a x z, reachable c d /\
  seg_pos c (Some d) s false = Ok (a ++ x :: z) /\ seg_pos c (Some d) (fst x) false <> Ok [x].
Proof.
  exists cfg0, (dict_of cfg0 os79r), (str "我世界"), [(str "我", str "r")], (str "世界", str "n"), [].
  split; [apply dict_of_reachable|]. split; [vm_compute; reflexivity|]. intro H. vm_compute in H. discriminate H.
Qed.
Print Assumptions C79_recut_refuted.
