(** C95: what CalcToken has done when it returns, while other goroutines run. *)
From Verif Require Import S_Conc S_Split S_Meta P_Split P_Seg P_Seg2 P_Hist P_Dict P_Conc P_Conc2 P_Conc3 Ieee Demo T_Split T_Seg T_Conc T_Meta T_Local T_Conc2.
Local Open Scope lit_scope.

(** From the moment a CalcToken has returned, every distance is the one for the frequency and the total, whatever Segment, Find, RemoveToken and other CalcToken
    calls do at the same time. *)
Theorem C95_distances : forall E c (d : dict E) ks sched i a, reachable c d -> (forall text freq pos, ~ In (CAdd text freq pos) ks) -> nth_error ks i = Some CCalc ->
  let m := run sched (start c d ks) in nth_error (snd m) i = Some (Ret a) ->
  Forall (fun t => t_dist t = sub32 E (to32 E (m_log2 E (d_total d))) (to32 E (m_log2 E (t_freq t)))) (d_tokens (fst m)).
Proof.
  intros E c d ks sched i a Hr Hk Hi m Ha. pose proof (inv_ok (reachable_inv Hr)) as Hd.
  assert (Hn : forall k, In k ks -> no_add k) by (intros [| |text freq pos| |] Hin; try exact I; exact (Hk _ _ _ Hin)).
  apply Forall_forall. intros t Ht. apply In_nth_error in Ht as [j Hj]. exact (dist_done Hd Hn Hi Ha Hj).
Qed.
Print Assumptions C95_distances.

(** With Segment, Find and other CalcToken calls only, the dictionary is then exactly the one a single CalcToken gives, and it stays so. *)
Theorem C95_complete : forall E c (d d' : dict E) ks sched i a, reachable c d -> calc_token d = Ok d' ->
  (forall k, In k ks -> match k with CSegment _ _ | CFind _ | CCalc => True | CAdd _ _ _ | CRemove _ => False end) -> nth_error ks i = Some CCalc ->
  let m := run sched (start c d ks) in nth_error (snd m) i = Some (Ret a) -> fst m = d'.
Proof.
  intros E c d d' ks sched i a Hr Hc Hk Hi m Ha. pose proof (inv_ok (reachable_inv Hr)) as Hd. refine (calc_done Hd Hc _ Hi Ha). intros k Hin. specialize (Hk k Hin). destruct k; exact Hk.
Qed.
Print Assumptions C95_complete.

(** Hence a Segment or Find that makes its first step later returns what it returns alone on that dictionary. *)
Theorem C95_later_calls : forall E c (d d' : dict E) ks sched sched' i a j k b, reachable c d -> calc_token d = Ok d' ->
  (forall k, In k ks -> match k with CSegment _ _ | CFind _ | CCalc => True | CAdd _ _ _ | CRemove _ => False end) ->
  nth_error ks i = Some CCalc -> nth_error (snd (run sched (start c d ks))) i = Some (Ret a) ->
  reads_only k -> nth_error ks j = Some k -> ~ In j sched -> nth_error (snd (run (sched ++ sched') (start c d ks))) j = Some (Ret b) -> alone c d' k = Ok (d', b).
Proof.
  intros E c d d' ks sched sched' i a j k b Hr Hc Hk Hi Ha Hro Hj Hn Hb. pose proof (inv_ok (reachable_inv Hr)) as Hd. refine (after_calc Hd Hc _ Hi Ha Hro _ Hb).
  - intros k' Hin. specialize (Hk k' Hin). destruct k'; exact Hk.
  - assert (K : nth_error (snd (start c d ks)) j = Some (call_p c k)) by (apply map_nth_error; exact Hj). revert K Hn. clear. generalize (start c d ks). induction sched as [|x s IH]; intros m K Hn; [exact K|].
    cbn [run]. apply IH; [|intro Hin; apply Hn; right; exact Hin]. rewrite step_other; [exact K|]. intros ->. apply Hn. left. reflexivity.
Qed.
Print Assumptions C95_later_calls.

(** With RemoveToken this is false: the sub-segments can be those of neither order of the two calls. *)
Definition os_95 : list (dop demo) := [add (str "甲乙") 9 []; add (str "甲乙丙") 4 []; add (str "甲乙丁") 8 []].
Definition d_95 := dict_of cfg0 os_95.
(** The texts of the sub-segments of every token. *)
Definition subs_of (d : dict demo) : list (list bytes) :=
  map (fun t => map (fun s => match deref d (sg_tok s) with Ok u => concat (t_text u) | _ => [] end) (t_segs t)) (d_tokens d).
Definition m_95 := start cfg0 d_95 [CCalc (E := demo); CRemove (str "甲乙")].
Definition outcome (m : dict demo * list (prog demo (answer demo))) : bool * bool * list (list bytes) := (returned m 0, returned m 1, subs_of (fst m)).
Theorem C95_calc_during_remove_refuted :
  outcome (run ([1; 1] ++ repeat 0 200) m_95) = (true, true, [map str ["甲"; "乙"]; map str ["甲"; "乙"; "丙"]; map str ["甲"; "乙"; "丁"]]) /\
  outcome (run (repeat 0 200 ++ [1; 1]) m_95) = (true, true, [map str ["甲"; "乙"]; map str ["甲乙"; "丙"]; map str ["甲乙"; "丁"]]) /\
  outcome (run (repeat 0 45 ++ [1; 1] ++ repeat 0 200) m_95) = (true, true, [map str ["甲"; "乙"]; map str ["甲乙"; "丙"]; map str ["甲"; "乙"; "丁"]]).
Proof. repeat apply conj; vm_compute; reflexivity. Qed.
Print Assumptions C95_calc_during_remove_refuted.

(** Two CalcToken calls in turn with a Segment that starts when the first has returned. *)
Definition ks_95 : list (call demo) := [CCalc; CCalc; CSegment (str "甲乙丙") false].
Definition s_95 : list nat := concat (repeat [1; 0; 0] 40).
Example C95_ex : reachable cfg0 d_95 /\ (match calc_token d_95 with Ok d' => subs_of d' | _ => [] end) = [map str ["甲"; "乙"]; map str ["甲乙"; "丙"]; map str ["甲乙"; "丁"]] /\
  returned (run s_95 (start cfg0 d_95 ks_95)) 0 = true /\ returned (run s_95 (start cfg0 d_95 ks_95)) 1 = false /\ ~ In 2 s_95 /\ texts (run (s_95 ++ repeat 2 200) (start cfg0 d_95 ks_95)) 2 = Some [str "甲乙丙"] /\
  texts (run (repeat 2 200) (start cfg0 d_95 ks_95)) 2 = Some (map str ["甲"; "乙"; "丙"]) /\ subs_of (fst (run s_95 (start cfg0 d_95 ks_95))) = [map str ["甲"; "乙"]; map str ["甲乙"; "丙"]; map str ["甲乙"; "丁"]].
Proof.
  split; [apply dict_of_reachable|]. repeat apply conj; try (vm_compute; reflexivity).
  intro H. assert (K : existsb (Nat.eqb 2) s_95 = true) by (apply existsb_exists; exists 2; auto). vm_compute in K. discriminate K.
Qed.
