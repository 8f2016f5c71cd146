(** C93: the output of String can be read back. *)
From Verif Require Import S_Read S_Split P_Split P_Seg2 P_Out P_Read Ieee Demo T_Split T_Seg.
Local Open Scope lit_scope.

(** If no token of the dictionary has a slash behind the first byte of its text, or a space in its tag, then the pairs of Pos can be read off the output of String,
    whatever the text is. *)
Theorem C93_read_back : forall E c (d : dict E) s m out, reachable c d -> plain_dict d -> seg_string c (Some d) s m = Ok out ->
  exists l, seg_pos c (Some d) s m = Ok l /\ forall fuel, length out <= fuel -> read_tags fuel out = Some l.
Proof. exact c93_read. Qed.
Print Assumptions C93_read_back.
(** Hence different texts print differently, also with different dictionaries and options. *)
Theorem C93_injective : forall E c1 c2 (d1 d2 : dict E) s1 s2 out, reachable c1 d1 -> reachable c2 d2 -> plain_dict d1 -> plain_dict d2 ->
  seg_string c1 (Some d1) s1 false = Ok out -> seg_string c2 (Some d2) s2 false = Ok out ->
  norm E c1 s1 = norm E c2 s2 /\ seg_pos c1 (Some d1) s1 false = seg_pos c2 (Some d2) s2 false.
Proof.
  intros E c1 c2 d1 d2 s1 s2 out H1 H2 P1 P2 O1 O2. destruct (c93_read H1 P1 O1) as (l1 & L1 & R1). destruct (c93_read H2 P2 O2) as (l2 & L2 & R2).
  assert (l1 = l2) by (specialize (R1 _ (le_n _)); specialize (R2 _ (le_n _)); congruence). subst l2. split; [|congruence].
  destruct (c05 s1 H1) as (t1 & T1 & _ & C1 & _). destruct (c05 s2 H2) as (t2 & T2 & _ & C2 & _).
  assert (K : forall c (d : dict E) s l t, seg_pos c (Some d) s false = Ok l -> seg_slice c (Some d) s false = Ok t -> t = map fst l).
  { intros c d s l t Hl Ht. unfold seg_pos in Hl. unfold seg_slice in Ht. destruct (internal_segment c (Some d) s false) as [segs| |]; try discriminate. cbn [bind] in *. rewrite c09_slice, Hl in Ht. cbn in Ht. congruence. }
  rewrite <- C1, <- C2, (K _ _ _ _ _ L1 T1), (K _ _ _ _ _ L2 T2). reflexivity.
Qed.
Print Assumptions C93_injective.
(** Without the condition this is false: two texts and one dictionary. *)
Definition os_93 : list (dop demo) := [add (str "甲") 4 (str "n"); add (str "乙") 4 (str "n"); add (str "甲/n 乙") 8 (str "n"); OpCalc].
Theorem C93_any_words_refuted : exists c (d : dict demo) s1 s2 out, reachable c d /\ seg_string c (Some d) s1 false = Ok out /\ seg_string c (Some d) s2 false = Ok out /\
  seg_slice c (Some d) s1 false = Ok (map str ["甲"; "乙"]) /\ seg_slice c (Some d) s2 false = Ok [str "甲/n 乙"].
Proof.
  exists cfg0, (dict_of cfg0 os_93), (str "甲乙"), (str "甲/n 乙"), (str "甲/n 乙/n "). split; [apply dict_of_reachable|]. repeat apply conj; vm_compute; reflexivity.
Qed.
Print Assumptions C93_any_words_refuted.

Lemma plain_bool : forall d : dict demo, forallb (fun t => negb (existsb (Byte.eqb x2f) (tl (concat (t_text t)))) && negb (existsb (Byte.eqb x20) (t_pos t))) (d_tokens d) = true -> plain_dict d.
Proof.
  intros d H t Ht. rewrite forallb_forall in H. specialize (H t Ht). apply andb_prop in H as [H1 H2]. apply negb_true_iff in H1, H2. split.
  - intro K. assert (existsb (Byte.eqb x2f) (tl (concat (t_text t))) = true) by (apply existsb_exists; eexists; split; [exact K|reflexivity]). congruence.
  - intro K. assert (existsb (Byte.eqb x20) (t_pos t) = true) by (apply existsb_exists; eexists; split; [exact K|reflexivity]). congruence.
Qed.
(** A text with slashes and spaces of its own. *)
Example C93_ex : plain_dict d1 /\ seg_string cfg0 (Some d1) (str "你好世界 /n a/b") true = Ok (str "你好/l 世界/n 你好世界/l  /x //x n/x  /x a/x //x b/x ") /\
  read_tags 99 (str "你好/l 世界/n 你好世界/l  /x //x n/x  /x a/x //x b/x ") =
    Some [(str "你好", str "l"); (str "世界", str "n"); (str "你好世界", str "l"); (str " ", str "x"); (str "/", str "x"); (str "n", str "x"); (str " ", str "x"); (str "a", str "x"); (str "/", str "x"); (str "b", str "x")].
Proof. split; [apply plain_bool; vm_compute; reflexivity|]. split; vm_compute; reflexivity. Qed.
