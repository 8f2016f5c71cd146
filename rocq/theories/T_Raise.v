(** C110: changing one frequency with ReAddToken. *)
From Verif Require Import S_Dict S_Raise P_Dict P_Seg2 P_Hist P_Exact P_Exact2 P_Raise M_Out Demo T_Split T_Seg T_Hmm T_Dag T_Dict T_Exact.
From Coq Require Import Reals Lra.
Local Open Scope lit_scope.

(** Without rounding: after a word's frequency is raised from [a] to [a'] with ReAddToken and CalcToken has run again, Segment (Slice) finds
    the word in every text at least as often as before, or reads the text with fewer dictionary words; lowered, not more often, or fewer
    words; unchanged, with no more words than before, because ReAddToken adds [a'] to the total without taking [a] off. *)
Theorem C110_changed_frequency : forall (E : env) (val : f64 E -> option R) (val32 : f32 E -> option R) c (d0 d d1 d' : dict E) t w f a f' a' pos s ps qs,
  exact val -> exact32 val val32 -> reachable c d0 -> val (d_total d0) = Some t ->
  (forall x g, stored d0 x g -> exists b, val g = Some b /\ (0 < b < t)%R) ->
  norm E c w = w -> stored d0 w f -> val f = Some a -> val f' = Some a' -> (0 < a')%R ->
  calc_token d0 = Ok d -> seg_readd_token c d0 w f' pos = Ok (d1, false) -> calc_token d1 = Ok d' ->
  seg_slice c (Some d) s false = Ok ps -> seg_slice c (Some d') s false = Ok qs ->
  ((a < a')%R -> times w ps <= times w qs \/ dict_words d qs < dict_words d ps) /\
  ((a' < a)%R -> times w qs <= times w ps \/ dict_words d qs < dict_words d ps) /\
  (a' = a -> dict_words d qs <= dict_words d ps).
Proof.
  intros E val val32 c d0 d d1 d' t w f a f' a' pos s ps qs X X32 Hr Ht Hs Hn Hst Ha Ha' Pa' Hc Hre Hc' Hps Hqs.
  destruct (raised X X32 Hr Ht Hs Hn Hst Ha Ha' Pa' Hc Hre Hc' Hps Hqs) as (K1 & K2 & K3). split; [|split; [|exact K3]]; intro G.
  - destruct (Nat.le_gt_cases (times w ps) (times w qs)) as [L|L]; [left; exact L|right; exact (K1 G L)].
  - destruct (Nat.le_gt_cases (times w qs) (times w ps)) as [L|L]; [left; exact L|right; exact (K2 G L)].
Qed.
Print Assumptions C110_changed_frequency.

(** The second case of the first line happens: with 甲, 乙, 丙 10 each and 甲乙丙 1, the text 甲乙丙 is read as three words. Once 甲 is raised to 19 it is
    read as one, so that the word made more frequent is no longer found; by Cut as well. *)
Definition os_110 : list (dop demo) := [add (str "甲") 10 []; add (str "乙") 10 []; add (str "丙") 10 []; add (str "甲乙丙") 1 []].
Definition readd (w : bytes) (n : Z) : dop demo := OpReAdd w (lit64 demo n 0) [].
Theorem C110_raised_word_lost_refuted : exists (os : list (dop demo)) w n n' s, (0 < n < n')%Z /\
  let d := dict_of cfg0 (os ++ [@OpCalc demo]) in let d' := dict_of cfg0 (os ++ [readd w n'; @OpCalc demo]) in
  is_freq (do r <- dict_find d w ; Ok (fst (fst r))) n = true /\ is_freq (do r <- dict_find d' w ; Ok (fst (fst r))) n' = true /\
  seg_slice cfg0 (Some d) s false = Ok (map str ["甲"; "乙"; "丙"]) /\ times w (map str ["甲"; "乙"; "丙"]) = 1 /\
  seg_slice cfg0 (Some d') s false = Ok [str "甲乙丙"] /\ times w [str "甲乙丙"] = 0 /\
  (forall em, cut d cfg0 em s (Some false) = Ok (map str ["甲"; "乙"; "丙"])) /\ (forall em, cut d' cfg0 em s (Some false) = Ok [str "甲乙丙"]).
Proof.
  exists os_110, (str "甲"), 10%Z, 19%Z, (str "甲乙丙"). split; [lia|]. cbv zeta. repeat split; try (vm_compute; reflexivity); intro em; vm_compute; reflexivity.
Qed.
Print Assumptions C110_raised_word_lost_refuted.

(** Added again with the frequency it has already, 甲 can disappear as well (20 each, 甲乙丙 1, 丁 19: the total becomes 100). *)
Definition os_110s : list (dop demo) := [add (str "甲") 20 []; add (str "乙") 20 []; add (str "丙") 20 []; add (str "甲乙丙") 1 []; add (str "丁") 19 []].
Example C110_ex_same : seg_slice cfg0 (Some (dict_of cfg0 (os_110s ++ [@OpCalc demo]))) (str "甲乙丙") false = Ok (map str ["甲"; "乙"; "丙"]) /\
  seg_slice cfg0 (Some (dict_of cfg0 (os_110s ++ [readd (str "甲") 20; @OpCalc demo]))) (str "甲乙丙") false = Ok [str "甲乙丙"].
Proof. split; vm_compute; reflexivity. Qed.

(** Raised, 甲乙丙 is found where it was not. *)
Example C110_ex : seg_slice cfg0 (Some (dict_of cfg0 (os_110 ++ [readd (str "甲乙丙") 2; @OpCalc demo]))) (str "甲乙丙") false = Ok [str "甲乙丙"].
Proof. vm_compute; reflexivity. Qed.

(** Over exact numbers: whatever the frequencies of 你好 and 世界 and the new, larger one of 你好. *)
Example C110_ex_exact : forall (x y z : R) d0 d d1 d' s ps qs, (0 < x < z)%R -> (0 < y)%R -> run_ops cfg0 (new_dict xdemo) (os_x (Some x) (Some y)) = Ok d0 ->
  calc_token d0 = Ok d -> seg_readd_token cfg0 d0 (str "你好") (Some z : f64 xdemo) [] = Ok (d1, false) -> calc_token d1 = Ok d' ->
  seg_slice cfg0 (Some d) s false = Ok ps -> seg_slice cfg0 (Some d') s false = Ok qs ->
  times (str "你好") ps <= times (str "你好") qs \/ dict_words d qs < dict_words d ps.
Proof.
  intros x y z d0 d d1 d' s ps qs Hx Hy Hd0 Hd Hd1 Hd' Hps Hqs. assert (Hr0 : reachable cfg0 d0) by (eexists; exact Hd0).
  destruct (C15_counters xdemo cfg0 _ d0 Hd0) as (_ & K1 & _ & K2). cbv zeta in *.
  assert (Ke : effective_ops cfg0 (new_dict xdemo) (os_x (Some x) (Some y)) = [(map str ["你"; "好"], Some x, []); (map str ["世"; "界"], Some y, [])]) by (vm_compute; reflexivity).
  rewrite Ke in *. cbn [map fst snd fold_left] in K1.
  assert (HT : d_total d0 = (Some (x + y)%R : f64 xdemo)) by (rewrite K1; change (Some (0 * 1 + x + y)%R = Some (x + y)%R); f_equal; lra).
  assert (K3 : map (@t_freq xdemo) (d_tokens d0) = [Some x; Some y]) by (apply (f_equal (map (fun i => snd (fst i)))) in K2; rewrite map_map in K2; exact K2).
  assert (Hv : match run_ops cfg0 (new_dict xdemo) (os_x (Some x) (Some y)) with Ok d => dict_value d (str "你好") | _ => None end = Some 0) by (vm_compute; reflexivity).
  rewrite Hd0 in Hv.
  assert (Hs : forall w f, stored d0 w f -> exists a, f = (Some a : f64 xdemo) /\ (0 < a < x + y)%R).
  { intros w f (v & t & _ & H2 & H3). apply (map_nth_error (@t_freq xdemo)) in H2. rewrite K3, H3 in H2.
    destruct v as [|[|v]]; cbn [nth_error] in H2.
    + injection H2 as <-. exists x. split; [reflexivity|lra].
    + injection H2 as <-. exists y. split; [reflexivity|lra].
    + destruct v; discriminate. }
  assert (St : stored d0 (str "你好") (Some x : f64 xdemo)).
  { assert (H2 : nth_error (map (@t_freq xdemo) (d_tokens d0)) 0 = Some (Some x : f64 xdemo)) by (rewrite K3; reflexivity).
    rewrite nth_error_map in H2. destruct (nth_error (d_tokens d0) 0) as [t|] eqn:Ht; [|discriminate]. injection H2 as H2. exists 0, t. auto. }
  destruct (C110_changed_frequency xdemo _ _ cfg0 d0 d d1 d' (x + y) (str "你好") (Some x) x (Some z) z [] s ps qs C86_exact_exists C87_exact_exists Hr0 HT Hs
    ltac:(vm_compute; reflexivity) St eq_refl eq_refl ltac:(lra) Hd Hd1 Hd' Hps Hqs) as (H & _). apply H. lra.
Qed.
