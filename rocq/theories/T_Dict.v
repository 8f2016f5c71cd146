(** C13-C18: the dictionary. *)
From Coq Require Import Sorted.
From Verif Require Import S_Split S_Seg S_Dict P_Seg2 P_Hist Ieee Demo T_Split T_Seg.
Local Open Scope lit_scope.

Definition os4 : list (dop demo) :=
  [add (str "世界") 10 (str "n"); add (str "世") 20 (str "j"); add (str "世界") 7 (str "x"); OpRemove (str "世");
   add (str "世") 3 (str "k"); OpReAdd (E := demo) (str "世界") (lit_64 5 0) (str "v"); OpCalc; add (str "Hello") 4 (str "e")].
Definition d4 : dict demo := dict_of cfg0 os4.

(** C13: after any (safe) history, Find returns what the finite map [spec_ops] says. *)
Theorem C13_dictionary_is_a_map : forall E c os (d : dict E), safe_ops c (wempty E) os -> run_ops c (new_dict E) os = Ok d ->
  forall w,
    match spec_ops c (wempty E) os w with
    | Some (freq, pos) => dict_find d w = Ok (freq, pos, true)
    | None => exists b, dict_find d w = Ok (lit64 E 0 0, [], b)
    end.
Proof. exact c13. Qed.
Print Assumptions C13_dictionary_is_a_map.

(** Every history runs without panic. *)
Theorem C13_histories_run : forall E c os, exists d, run_ops c (new_dict E) os = Ok d.
Proof. exact run_ops_total. Qed.
Print Assumptions C13_histories_run.

Definition is_some {A} (x : option A) : bool := match x with Some _ => true | None => false end.
Lemma is_some_neq : forall A (x : option A), is_some x = true -> x <> None.
Proof. intros A [a|] H; [discriminate|discriminate H]. Qed.

Example C13_example : safe_ops cfg0 (wempty demo) os4 /\
  map (fun w => option_map snd (spec_ops cfg0 (wempty demo) os4 w)) (map str ["hello"; "世界"; "世"; "界"; "Hello"]) =
  [Some (str "e"); Some (str "v"); Some (str "k"); None; None].
Proof.
  split.
  - cbn [safe_ops os4 safe_op add]. repeat apply conj; try exact I; left; apply is_some_neq; vm_compute; reflexivity.
  - vm_compute. reflexivity.
Qed.

(** C14 *)
Theorem C14_find_flag : forall E c (d : dict E) w, reachable c d -> exists freq pos b, dict_find d w = Ok (freq, pos, b) /\
  (b = true <-> (exists v, dict_value d w = Some v) \/
                (w <> [] /\ exists x v, x <> [] /\ dict_value d (w ++ x) = Some v)).
Proof. exact c14. Qed.
Print Assumptions C14_find_flag.

(** The flag is not word membership: after AddToken of 世界 only, Find of 世 (and of a lone first byte) says true. *)
Theorem C14_flag_is_membership_refuted : exists c (d : dict demo) w, reachable c d /\ dict_value d w = None /\
  exists freq pos, dict_find d w = Ok (freq, pos, true).
Proof.
  exists cfg0, (dict_of cfg0 os2), (str "世"). split; [apply dict_of_reachable|]. split; [vm_compute; reflexivity|].
  destruct (dict_find (dict_of cfg0 os2) (str "世")) as [[[f p] b]| |] eqn:Ef.
  - exists f, p. f_equal. f_equal. change b with (match @Ok (f64 demo * bytes * bool) (f, p, b) with Ok x => snd x | _ => false end).
    rewrite <- Ef. vm_compute. reflexivity.
  - exfalso. enough (false = true) by discriminate.
    change false with (match @Panic (f64 demo * bytes * bool) with Ok x => snd x | _ => false end). rewrite <- Ef. vm_compute. reflexivity.
  - exfalso. enough (false = true) by discriminate.
    change false with (match @Hang (f64 demo * bytes * bool) with Ok x => snd x | _ => false end). rewrite <- Ef. vm_compute. reflexivity.
Qed.
Print Assumptions C14_flag_is_membership_refuted.

(** C15: [effective_ops] is the list of (words, frequency, part of speech) of the additions that took effect. *)
Theorem C15_counters : forall E c os (d : dict E), run_ops c (new_dict E) os = Ok d ->
  let added := effective_ops c (new_dict E) os in
  length (d_tokens d) = length added /\
  d_total d = fold_left (add64 E) (map (fun a => snd (fst a)) added) (lit64 E 0 0) /\
  d_max d = max_len (map (fun a => fst (fst a)) added) /\
  map (@info E) (d_tokens d) = added.
Proof. exact c15. Qed.
Print Assumptions C15_counters.

(** Each operation adds its effective token at the end, or nothing: NumTokens never decreases. *)
Theorem C15_step : forall E c (d : dict E) o d', reachable c d -> run_op c d o = Ok d' ->
  map (@info E) (d_tokens d') = map (@info E) (d_tokens d) ++ effective c d o.
Proof. exact c15_step_reachable. Qed.
Print Assumptions C15_step.

Example C15_example : map (fun t => t_text t) (d_tokens d4) =
  [map str ["世"; "界"]; [str "世"]; [str "世"]; map str ["世"; "界"]; [str "hello"]] /\ d_max d4 = 2 /\
  eqb64 demo (d_total d4) (lit_64 42 0) = true.
Proof. repeat split; vm_compute; reflexivity. Qed.

(** C16 *)
Theorem C16_lookup_prefixes : forall E c (d : dict E) cap words, reachable c d -> Forall (fun w => w <> []) words -> length words <= cap ->
  exists vs, lookup_tokens d cap words = Ok vs /\
    (forall v, In v vs <-> exists k, 1 <= k <= length words /\ dict_value d (concat (firstn k words)) = Some v) /\
    StronglySorted (fun v v' => tok_size d v < tok_size d v') vs.
Proof. exact c16. Qed.
Print Assumptions C16_lookup_prefixes.

Example C16_example : lookup_tokens d4 (d_max d4) (map str ["世"; "界"]) = Ok [2; 3].
Proof. vm_compute. reflexivity. Qed.

(** C17 *)
Theorem C17_add_stores_normal_form : forall E c (d d' : dict E) text freq pos, reachable c d ->
  seg_add_token c d text freq pos = Ok d' ->
  (exists v, dict_value d' (norm E c text) = Some v) /\
  (dict_value d (norm E c text) = None -> dict_find d' (norm E c text) = Ok (freq, pos, true)) /\
  (dict_value d (norm E c text) <> None -> d' = d).
Proof. exact c17_add. Qed.
Print Assumptions C17_add_stores_normal_form.
Theorem C17_stored_words_are_normal : forall E c (d : dict E) w v, reachable c d -> dict_value d w = Some v -> norm E c w = w.
Proof. exact c17_normal. Qed.
Print Assumptions C17_stored_words_are_normal.

(** So a spelling that is not its own normal form is not found under itself. *)
Theorem C17_find_own_spelling_refuted : exists c (d : dict demo) w freq pos, reachable c d /\ dict_value d w = None /\
  forall d', seg_add_token c d w freq pos = Ok d' -> dict_value d' w = None /\ reachable c d'.
Proof.
  exists cfg0, (dict_of cfg0 os2), (str "Hello"), (lit_64 4 0), (str "e"). split; [apply dict_of_reachable|].
  split; [vm_compute; reflexivity|]. intros d' H.
  assert (Hr : reachable cfg0 d').
  { destruct (dict_of_reachable cfg0 os2) as [os Ho]. exists (os ++ [add (str "Hello") 4 (str "e")]).
    rewrite run_ops_app, Ho. cbn [bind run_ops run_op add]. rewrite H. reflexivity. }
  split; [|exact Hr]. destruct (dict_value d' (str "Hello")) as [v|] eqn:Ev; [|reflexivity]. exfalso.
  pose proof (C17_stored_words_are_normal demo cfg0 d' (str "Hello") v Hr Ev) as Hn. vm_compute in Hn. discriminate.
Qed.
Print Assumptions C17_find_own_spelling_refuted.

(** C18 *)
Theorem C18_remove_only_its_word : forall E c (d : dict E) text v, reachable c d -> dict_value d (norm E c text) = Some v ->
  exists d', seg_remove_token c d text = Ok (d', false) /\ dict_value d' (norm E c text) = None /\
    forall w, w <> norm E c text -> dict_value d' w = dict_value d w /\
      (dict_value d w <> None -> dict_find d' w = dict_find d w).
Proof. exact c18_remove. Qed.
Print Assumptions C18_remove_only_its_word.
Theorem C18_readd_missing_word : forall E c (d : dict E) text freq pos, reachable c d -> text <> [] ->
  (forall x, dict_value d (norm E c text ++ x) = None) -> seg_readd_token c d text freq pos = Ok (d, true).
Proof. exact c18_readd_missing. Qed.
Print Assumptions C18_readd_missing_word.
Theorem C18_readd_stored_word : forall E c (d : dict E) text freq pos v, reachable c d -> dict_value d (norm E c text) = Some v ->
  exists d', seg_readd_token c d text freq pos = Ok (d', false) /\ dict_find d' (norm E c text) = Ok (freq, pos, true) /\
    forall w, w <> norm E c text -> dict_value d w <> None -> dict_find d' w = dict_find d w.
Proof. exact c18_readd. Qed.
Print Assumptions C18_readd_stored_word.

Example C18_example : dict_value d4 (norm demo cfg0 (str "世")) = Some 2 /\ dict_value d4 (norm demo cfg0 (str "HELLO")) = Some 4 /\
  (forall x, dict_value d4 (norm demo cfg0 (str "好") ++ x) = None).
Proof.
  split; [vm_compute; reflexivity|]. split; [vm_compute; reflexivity|]. intro x. vm_compute. reflexivity.
Qed.
