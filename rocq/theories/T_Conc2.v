(** C92: Segment and Find while other goroutines remove words and recompute the distances. *)
From Verif Require Import S_Conc S_Split S_Meta P_Split P_Seg P_Seg2 P_Hist P_Dict P_Conc P_Conc2 Ieee Demo T_Split T_Seg T_Conc T_Meta T_Local.
Local Open Scope lit_scope.

(** Any number of Segment, Find, RemoveToken and CalcToken calls under any schedule: none panics, and what has been returned is a tiling of the text by
    tokens of the initial dictionary, and for Find the entry of the initial dictionary or nothing. *)
Theorem C92_safe : forall E c (d : dict E) ks sched i k, reachable c d -> (forall text freq pos, ~ In (CAdd text freq pos) ks) -> nth_error ks i = Some k ->
  exists p, nth_error (snd (run sched (start c d ks))) i = Some p /\ p <> Crash /\ p <> Stuck /\ forall a, p = Ret a ->
    match k with
    | CSegment s m => exists l, a = ASegs l /\ ((m = true /\ l = [] /\ exists w, split_words E c s = Ok [w]) \/ covers d (norm E c s) 0 (length s) l)
    | CFind w => exists r, a = AFound r /\ (dict_value d w <> None /\ dict_find d w = Ok r \/ fst r = (lit64 E 0 0, []))
    | CRemove _ => exists e, a = ARemoved e
    | CCalc => a = ACalc
    | CAdd _ _ _ => False
    end.
Proof.
  intros E c d ks sched i k Hr Hk Hi. pose proof (inv_ok (reachable_inv Hr)) as Hd.
  assert (Hn : forall k, In k ks -> no_add k) by (intros [| |text freq pos| |] Hin; try exact I; exact (Hk _ _ _ Hin)).
  destruct (proj2 (conc_state Hd sched Hn) i k Hi) as (p & P1 & P2 & P3 & P4). exists p. split; [exact P1|]. split; [exact P2|]. split; [exact P3|].
  intros a Ha. specialize (P4 a Ha). destruct k as [s m|w|text freq pos|text|]; cbn in P4; try exact P4.
  - destruct P4 as (l & L1 & [(L2 & L3 & L4)|L2]); exists l; (split; [exact L1|]); [left|right; exact L2]. split; [exact L2|]. split; [exact L3|].
    rewrite split_words_eq. destruct (wsplit E c s) as [|w [|]]; try discriminate. eauto.
  - destruct P4 as (r & R1 & [(R2 & R3)|R2]); exists r; auto.
Qed.
Print Assumptions C92_safe.

(** Every call that is given a step again and again returns. *)
Theorem C92_returns : forall E c (d : dict E) ks i k s, reachable c d -> (forall text freq pos, ~ In (CAdd text freq pos) ks) -> nth_error ks i = Some k ->
  (forall n, exists l, n <= l /\ s l = i) -> exists n a, nth_error (snd (run (map s (seq 0 n)) (start c d ks))) i = Some (Ret a).
Proof.
  intros E c d ks i k s Hr Hk Hi Hs. pose proof (inv_ok (reachable_inv Hr)) as Hd.
  assert (Hn : forall k, In k ks -> no_add k) by (intros [| |text freq pos| |] Hin; try exact I; exact (Hk _ _ _ Hin)).
  destruct (conc_ends Hd Hn Hi Hs) as (n & a & H & _). exists n, a. exact H.
Qed.
Print Assumptions C92_returns.

(** The words: a word whose RemoveToken has returned is gone and stays away, no word appears, and a word that does not begin with a removed one stays. *)
Theorem C92_words : forall E c (d : dict E) ks sched, (forall text freq pos, ~ In (CAdd text freq pos) ks) -> let m := run sched (start c d ks) in
  (forall i text a, nth_error ks i = Some (CRemove text) -> nth_error (snd m) i = Some (Ret a) -> dict_value (fst m) (norm E c text) = None) /\
  (forall w v, dict_value (fst m) w = Some v -> dict_value d w = Some v) /\
  (forall w, (forall text x, In (CRemove text) ks -> w <> norm E c text ++ x) -> dict_value (fst m) w = dict_value d w) /\ d_total (fst m) = d_total d.
Proof.
  intros E c d ks sched Hk m.
  assert (Hn : forall k, In k ks -> no_add k) by (intros [| |text freq pos| |] Hin; try exact I; exact (Hk _ _ _ Hin)).
  destruct (conc_shrink c Hn d sched) as (S1 & S2 & S3). fold m in S1, S2, S3. repeat apply conj.
  - intros i text a Hi Ha. rewrite dict_value_get. exact (conc_gone Hn Hi Ha).
  - intros w v Hv. rewrite dict_value_get in *. apply S1, Hv.
  - intros w Hw. rewrite !dict_value_get. apply S2. intros text Ht [x ->]. exact (Hw _ _ Ht eq_refl).
  - exact S3.
Qed.
Print Assumptions C92_words.

(** If only words that do not occur in the text are removed, and nothing is recomputed, Segment returns what it returns alone; likewise Find of a stored word. *)
Theorem C92_unaffected : forall E c (d : dict E) ks sched i s m a, reachable c d ->
  (forall k, In k ks -> match k with CSegment _ _ | CFind _ => True | CRemove text => ~ occurs (norm E c text) (norm E c s) | CAdd _ _ _ | CCalc => False end) ->
  nth_error ks i = Some (CSegment s m) -> nth_error (snd (run sched (start c d ks))) i = Some (Ret a) -> alone c d (CSegment s m) = Ok (d, a).
Proof.
  intros E c d ks sched i s m a Hr Hk Hi Ha. pose proof (inv_ok (reachable_inv Hr)) as Hd.
  refine (quiet_state (txt := norm E c s) Hd _ _ Hi Ha eq_refl).
  - intros k Hin. specialize (Hk k Hin). destruct k; exact Hk.
  - intros s' m'. destruct (c01 s' m' Hr) as (l & Hl & _). eauto.
Qed.
Print Assumptions C92_unaffected.
Theorem C92_find_unaffected : forall E c (d : dict E) ks sched i w a, reachable c d ->
  (forall k, In k ks -> match k with CSegment _ _ | CFind _ => True | CRemove text => ~ occurs (norm E c text) w | CAdd _ _ _ | CCalc => False end) ->
  dict_value d w <> None -> nth_error ks i = Some (CFind w) -> nth_error (snd (run sched (start c d ks))) i = Some (Ret a) -> alone c d (CFind w) = Ok (d, a).
Proof.
  intros E c d ks sched i w a Hr Hk Hv Hi Ha. pose proof (inv_ok (reachable_inv Hr)) as Hd.
  refine (quiet_state (txt := w) Hd _ _ Hi Ha eq_refl Hv).
  - intros k Hin. specialize (Hk k Hin). destruct k; exact Hk.
  - intros s' m'. destruct (c01 s' m' Hr) as (l & Hl & _). eauto.
Qed.
Print Assumptions C92_find_unaffected.

(** 'Find returns what it returns before or after a concurrent RemoveToken of the word' is false for every stored word that begins no other stored word:
    it can say that the word exists, with frequency 0 and no tag. *)
Theorem C92_find_during_remove_refuted : forall E c (d : dict E) w f p, reachable c d -> norm E c w = w -> w <> [] -> dict_find d w = Ok (f, p, true) -> dict_value d w <> None ->
  (forall x, x <> [] -> dict_value d (w ++ x) = None) ->
  exists sched d', run sched (start c d [CRemove w; CFind w]) = (d', [Ret (ARemoved false); Ret (AFound (lit64 E 0 0, [], true))]) /\
    alone c d (CFind w) = Ok (d, AFound (f, p, true)) /\ alone c d' (CFind w) = Ok (d', AFound (lit64 E 0 0, [], false)).
Proof.
  intros E c d w f p Hr Hn Hw Hf Hv Hx. rewrite dict_value_get in Hv. destruct (t_get (d_trie d) w) as [v|] eqn:Hg; [|congruence]. pose proof (t_path_key Hg) as Hp.
  destruct w as [|b w']; [congruence|]. set (w := b :: w') in *.
  assert (HJ : t_jump (d_trie d) w [] = Some w) by (unfold t_jump, w; cbn [app]; fold w; rewrite Hp; reflexivity).
  destruct (t_delete (q_drop E) (d_trie d) w) as [t|] eqn:Hx'; [|unfold t_delete in Hx'; rewrite Hp, Hg in Hx'; discriminate].
  assert (HT : t_get t w = None) by (rewrite (t_delete_get w Hx'), Hg, beqb_refl; reflexivity).
  assert (HP : t_path t w = false).
  { destruct (t_path t w) eqn:HP; [|reflexivity]. exfalso. apply t_path_spec in HP as [HP|(k & v' & Hk & HP)]; [discriminate HP|]. apply is_prefix_spec in HP as [x ->].
    destruct x as [|y x]; [rewrite app_nil_r in Hk; congruence|]. apply (t_delete_sub Hx') in Hk. specialize (Hx (y :: x) ltac:(discriminate)). rewrite dict_value_get in Hx. congruence. }
  exists [1; 0; 0; 1]. eexists. split; [|split].
  - unfold start. cbn [map call_p]. unfold seg_remove_token_p. rewrite split_words_eq. cbn [local bnd]. unfold remove_token_p, text_bytes. rewrite split_concat, Hn.
    unfold find_p. cbn [bnd]. erewrite run_read by reflexivity. cbn [upd]. rewrite HJ. cbn [bnd]. erewrite run_read by reflexivity. cbn [upd]. rewrite Hx'. cbn [bnd].
    erewrite run_write by reflexivity. cbn [upd]. rewrite Hx'. erewrite run_read by reflexivity. cbn [upd d_trie]. unfold t_value. rewrite HT. unfold w at 1. cbn [bnd run]. reflexivity.
  - cbn [alone]. rewrite Hf. reflexivity.
  - cbn [alone]. unfold dict_find. cbn [d_trie]. unfold t_jump, w. cbn [app]. fold w. rewrite HP. reflexivity.
Qed.
Print Assumptions C92_find_during_remove_refuted.

(** 'Segment returns what it returns before or after a concurrent CalcToken' is false: it can see some distances of before and some of after. *)
Definition os_92 : list (dop demo) := [add (str "甲乙") 9 []; add (str "丙") 4 []; add (str "甲") 8 []; add (str "乙丙") 4 []; OpCalc; add (str "丁") 25 []].
Definition d_92 := dict_of cfg0 os_92.
Definition recalc := start cfg0 d_92 [CCalc (E := demo); CSegment (str "甲乙丙") false].
Theorem C92_segment_during_calc_refuted : texts (run (repeat 1 200) recalc) 1 = Some (map str ["甲乙"; "丙"]) /\
  texts (run (repeat 0 200 ++ repeat 1 200) recalc) 1 = Some (map str ["甲乙"; "丙"]) /\ returned (run (repeat 0 200) recalc) 0 = true /\
  texts (run (repeat 0 4 ++ repeat 1 200) recalc) 1 = Some (map str ["甲"; "乙丙"]).
Proof. repeat apply conj; vm_compute; reflexivity. Qed.
Print Assumptions C92_segment_during_calc_refuted.

Definition both := start cfg0 d_92 [CRemove (str "甲乙"); CSegment (str "甲乙丙") false; CFind (str "甲乙"); CCalc (E := demo); CRemove (str "丁")].
Definition find_answer (m : dict demo * list (prog demo (answer demo))) (i : nat) : option (bool * bool) :=
  match nth_error (snd m) i with Some (Ret (AFound (f, p, b))) => Some (eqb64 demo f (lit_64 9 0), b) | _ => None end.
Example C92_ex : reachable cfg0 d_92 /\ (forall text freq pos, ~ In (CAdd (E := demo) text freq pos) [CRemove (str "甲乙"); CSegment (str "甲乙丙") false; CFind (str "甲乙"); CCalc (E := demo); CRemove (str "丁")]) /\
  texts (run (repeat 1 200) both) 1 = Some (map str ["甲乙"; "丙"]) /\ texts (run (repeat 0 2 ++ repeat 1 200) both) 1 = Some (map str ["甲"; "乙丙"]) /\
  texts (run (repeat 1 8 ++ repeat 0 2 ++ repeat 1 200) both) 1 = Some (map str ["甲乙"; "丙"]) /\
  texts (run (concat (repeat [0; 1; 2; 3; 4] 300)) both) 1 <> None /\ returned (run (concat (repeat [0; 1; 2; 3; 4] 300)) both) 3 = true /\
  find_answer (run (repeat 2 9) both) 2 = Some (true, true) /\ find_answer (run ([2] ++ repeat 0 2 ++ repeat 2 9) both) 2 = Some (false, true) /\
  find_answer (run (repeat 0 2 ++ repeat 2 9) both) 2 = Some (false, false).
Proof.
  split; [apply dict_of_reachable|]. split; [intros text freq pos [H|[H|[H|[H|[H|[]]]]]]; discriminate H|]. repeat apply conj; try (vm_compute; reflexivity).
  intro H. vm_compute in H. discriminate H.
Qed.
Example C92_ex_quiet : ~ occurs (norm demo cfg0 (str "丁")) (norm demo cfg0 (str "甲乙丙")) /\
  texts (run (concat (repeat [4; 1] 300)) both) 1 = Some (map str ["甲乙"; "丙"]).
Proof. split; [apply no_occurs; vm_compute; reflexivity|vm_compute; reflexivity]. Qed.
