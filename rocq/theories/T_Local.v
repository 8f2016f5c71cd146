(** C91: the DAG cutters read the dictionary only at the words of the text and at their continuations. *)
From Verif Require Import S_Split S_Meta P_Utf8 P_Utf8b P_Seg2 P_Hist P_Dag P_Local Ieee Demo T_Split T_Seg T_Hmm T_Dict T_Dag T_Meta.
Local Open Scope lit_scope.

(** CutAll depends on which parts of the text are dictionary words of positive frequency, and on nothing else. *)
Theorem C91_cut_all : forall E c1 c2 c (d1 d2 : dict E) s, reachable c1 d1 -> reachable c2 d2 ->
  (forall w, w <> [] -> valid w -> occurs w (if c_lower c then to_lower_str E s else reencode s) -> (pos_word d1 w <-> pos_word d2 w)) ->
  cut_all d1 c s = cut_all d2 c s.
Proof. intros E c1 c2 c d1 d2 s H1 H2. apply (c91_all H1 H2). Qed.
Print Assumptions C91_cut_all.
Theorem C91_cut_all_add : forall E c (d d' : dict E) text f p s, reachable c d -> seg_add_token c d text f p = Ok d' ->
  ~ occurs (norm E c text) (if c_lower c then to_lower_str E s else reencode s) -> cut_all d' c s = cut_all d c s.
Proof. intros E c d d' text f p s H. apply c91_add, H. Qed.
Print Assumptions C91_cut_all_add.
Theorem C91_cut_all_remove : forall E c (d d' : dict E) text b s, reachable c d -> seg_remove_token c d text = Ok (d', b) ->
  ~ occurs (norm E c text) (if c_lower c then to_lower_str E s else reencode s) -> cut_all d' c s = cut_all d c s.
Proof. intros E c d d' text b s H. apply c91_remove, H. Qed.
Print Assumptions C91_cut_all_remove.

(** The other cutters: also on the frequencies of these words, on whether a dictionary word begins with them, and on the total. *)
Theorem C91_cutters : forall E c1 c2 c (d1 d2 : dict E) s, reachable c1 d1 -> reachable c2 d2 -> d_total d1 = d_total d2 ->
  (forall w, w <> [] -> valid w -> occurs w (if c_lower c then to_lower_str E s else reencode s) ->
    (forall f, stored d1 w f <-> stored d2 w f) /\ ((exists x f, stored d1 (w ++ x) f) <-> (exists x f, stored d2 (w ++ x) f))) ->
  forall em, (forall h, cut d1 c em s (Some h) = cut d2 c em s (Some h)) /\ (forall reg, cut_dag d1 c em s reg = cut_dag d2 c em s reg) /\
    (forall h, cut_search d1 c em s (Some h) = cut_search d2 c em s (Some h)).
Proof.
  intros E c1 c2 c d1 d2 s H1 H2 Ht H em. split; [intro h; apply (c91_cut H1 H2 Ht H)|]. split; [intro reg; apply (c91_reg H1 H2 Ht H)|intro h; apply (c91_search H1 H2 Ht H)].
Qed.
Print Assumptions C91_cutters.
(** RemoveToken leaves the total: removing a word of which no beginning occurs in the text changes nothing. *)
Theorem C91_cutters_remove : forall E c (d d' : dict E) text b s, reachable c d -> seg_remove_token c d text = Ok (d', b) -> text <> [] ->
  (forall w x, norm E c text = w ++ x -> w <> [] -> valid w \/ x = [] -> ~ occurs w (if c_lower c then to_lower_str E s else reencode s)) ->
  forall em h, cut d' c em s (Some h) = cut d c em s (Some h) /\ cut_search d' c em s (Some h) = cut_search d c em s (Some h).
Proof.
  intros E c d d' text b s H Hd Hne Hp em h. pose proof (removed_reachable H Hd) as H'. pose proof (removed_total Hd) as Ht.
  assert (Hn : norm E c text <> []) by (intro K; apply norm_nil in K; congruence).
  pose proof (@removed_local E c d d' text b _ H Hd Hne (fun w x A B C => Hp w x A B (or_introl C)) (Hp _ [] (eq_sym (app_nil_r _)) Hn (or_intror eq_refl))) as K.
  split; [apply (c91_cut H' H Ht K)|apply (c91_search H' H Ht K)].
Qed.
Print Assumptions C91_cutters_remove.

Definition os_91 : list (dop demo) := [add (str "甲乙") 9 []; add (str "甲") 2 []; add (str "乙丙") 2 []; add (str "丁戊") 2 []; OpCalc].
Definition d_91 : dict demo := dict_of cfg0 os_91.
Lemma no_occurs : forall w s, existsb (fun i => beqb (firstn (length w) (skipn i s)) w) (seq 0 (S (length s))) = false -> ~ occurs w s.
Proof. intros w s H K. apply occurs_at in K. congruence. Qed.

Example C91_ex : cut_all (dict_of cfg0 (os_91 ++ [add (str "丙丁") 7 []])) cfg0 (str "甲乙丙") = Ok (map str ["甲乙"; "乙丙"]) /\
  cut_all d_91 cfg0 (str "甲乙丙") = Ok (map str ["甲乙"; "乙丙"]) /\
  ~ occurs (norm demo cfg0 (str "丙丁")) (if c_lower cfg0 then to_lower_str demo (str "甲乙丙") else reencode (str "甲乙丙")).
Proof. split; [vm_compute; reflexivity|]. split; [vm_compute; reflexivity|]. apply no_occurs. vm_compute. reflexivity. Qed.
Lemma add_zero : forall x : b64, BinarySingleNaN.is_finite_strict x = true -> add64 ieee x (lit_64 0 0) = x.
Proof. intros x H. replace (lit_64 0 0) with (@BinarySingleNaN.B754_zero 53 1024 false) by (vm_compute; reflexivity). destruct x; try discriminate. reflexivity. Qed.
Lemma added_total : forall (d d' : dict demo) f, (exists p, seg_add_token cfg0 d (str "丙丁") f p = Ok d') -> d_total d' = d_total d \/ d_total d' = add64 demo (d_total d) f.
Proof.
  intros d d' f (p & H). unfold seg_add_token, to_token in H. destruct (split_words demo cfg0 (str "丙丁")) as [ws| |]; cbn [bind] in H; try discriminate H.
  injection H as <-. unfold add_token. destruct (t_get _ _); [left|right]; reflexivity.
Qed.
(** Only what occurs in the text would be too little: after AddToken of 丙丁 with frequency 0 (the total stays) the character 丙 is
    known as the beginning of a word, with frequency 0, and no longer counts as frequency 1: 甲乙丙 is cut differently. *)
Theorem C91_only_occurring_words_refuted : exists c (d d' : dict demo) text f p em s a b, reachable c d /\ seg_add_token c d text f p = Ok d' /\ d_total d' = d_total d /\
  ~ occurs (norm demo c text) (if c_lower c then to_lower_str demo s else reencode s) /\
  cut d c em s (Some false) = Ok a /\ cut d' c em s (Some false) = Ok b /\ a <> b.
Proof.
  assert (R : forall os, run_ops cfg0 (new_dict demo) os = Ok (dict_of cfg0 os)).
  { intros os. unfold dict_of. destruct (run_ops_inv os (new_dict_inv demo cfg0)) as (d & H & _). rewrite H. reflexivity. }
  exists cfg0, d_91, (dict_of cfg0 (os_91 ++ [add (str "丙丁") 0 []])), (str "丙丁"), (lit_64 0 0), [], demo_emit, (str "甲乙丙"), (map str ["甲乙"; "丙"]), (map str ["甲"; "乙丙"]).
  assert (A : seg_add_token cfg0 d_91 (str "丙丁") (lit_64 0 0) [] = Ok (dict_of cfg0 (os_91 ++ [add (str "丙丁") 0 []]))).
  { pose proof (R (os_91 ++ [add (str "丙丁") 0 []])) as H. rewrite run_ops_app, R in H. fold d_91 in H. set (D := dict_of cfg0 (os_91 ++ _)) in *. clearbody D. unfold add in H. cbn [bind run_ops run_op] in H.
    change (lit64 demo 0 0) with (lit_64 0 0) in H.
    destruct (seg_add_token cfg0 d_91 (str "丙丁") (lit_64 0 0) []) as [e| |]; cbn [bind] in H |- *; [exact H|discriminate H|discriminate H]. }
  split; [apply dict_of_reachable|]. split; [exact A|]. split.
  { destruct (@added_total _ _ _ (ex_intro _ _ A)) as [->| ->]; [reflexivity|]. apply add_zero. vm_compute. reflexivity. }
  split; [apply no_occurs; vm_compute; reflexivity|]. split; [vm_compute; reflexivity|]. split; [vm_compute; reflexivity|]. vm_compute. discriminate.
Qed.
Print Assumptions C91_only_occurring_words_refuted.

(** Removing 丁戊, of which no beginning occurs in 甲乙丙, changes nothing; 丁 occurs in 甲丁. *)
Example C91_ex_remove : cut (dict_of cfg0 (os_91 ++ [OpRemove (str "丁戊")])) cfg0 demo_emit (str "甲乙丙") (Some false) = Ok (map str ["甲乙"; "丙"]) /\
  (forall w x, norm demo cfg0 (str "丁戊") = w ++ x -> w <> [] -> valid w \/ x = [] -> ~ occurs w (if c_lower cfg0 then to_lower_str demo (str "甲乙丙") else reencode (str "甲乙丙"))).
Proof.
  split; [vm_compute; reflexivity|]. intros w x Hw Hn Hv.
  assert (He : norm demo cfg0 (str "丁戊") = str "丁戊") by (vm_compute; reflexivity). rewrite He in Hw. clear He.
  assert (K : forallb (fun n => (n =? 0) || negb (beqb (string_of_runes (runes_of (firstn n (str "丁戊")))) (firstn n (str "丁戊"))) ||
    negb (existsb (fun i => beqb (firstn n (skipn i (str "甲乙丙"))) (firstn n (str "丁戊"))) (seq 0 10))) (seq 0 7) = true) by (vm_compute; reflexivity).
  assert (Hl : length w <= 6) by (apply (f_equal (@length byte)) in Hw; rewrite app_length in Hw; change (length (str "丁戊")) with 6 in Hw; lia).
  assert (Hf : firstn (length w) (str "丁戊") = w) by (rewrite Hw, firstn_app, firstn_all, Nat.sub_diag, firstn_O, app_nil_r; reflexivity).
  rewrite forallb_forall in K. specialize (K (length w)). rewrite in_seq, Hf in K. specialize (K ltac:(lia)).
  assert (Hd : beqb (string_of_runes (runes_of w)) w = true).
  { apply beqb_eq. apply roundtrip_iff. destruct Hv as [Hv| ->]; [exact Hv|]. rewrite app_nil_r in Hw. subst w. apply roundtrip_iff. vm_compute. reflexivity. }
  rewrite Hd in K. destruct w as [|a w]; [congruence|]. cbn [length Nat.eqb negb orb] in K. apply negb_true_iff in K. apply no_occurs. exact K.
Qed.
