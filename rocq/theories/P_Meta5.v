(** Dictionaries with the same words give the same results; words that do not occur in a text. *)
From Verif Require Import S_Split S_Meta P_Utf8 P_Split P_Dict P_Seg P_Seg2 P_Hist P_Out M_Out P_Meta P_Meta2 P_Meta4 P_Idf Ieee.
From Coq Require Import Sorting.Permutation.
Set Implicit Arguments. Unset Strict Implicit.

(** *** The DAG cutters read the dictionary through Find and the total only. *)
Section Find.
  Variable E : env.
  Variables d1 d2 : dict E.
  Hypothesis Hf : forall w, exists f p1 p2 b, dict_find d1 w = Ok (f, p1, b) /\ dict_find d2 w = Ok (f, p2, b).
  Ltac find := unfold seg_find; match goal with |- context [dict_find d1 ?w] => let f := fresh "f" in let p1 := fresh "p1" in let p2 := fresh "p2" in let b := fresh "b" in
    let H1 := fresh in let H2 := fresh in destruct (Hf w) as (f & p1 & p2 & b & H1 & H2); rewrite H1, H2; clear H1 H2 end; cbn [bind fst snd].
  Hypothesis Ht : d_total d1 = d_total d2.

  Lemma x_row : forall fuel rs k i acc, dag_row d1 fuel rs k i acc = dag_row d2 fuel rs k i acc.
  Proof. induction fuel as [|fuel IH]; intros; cbn [dag_row]; [reflexivity|]. find. destruct (negb _); [reflexivity|]. destruct (_ <=? _); auto. Qed.
  Lemma x_rows : forall ks rs, dag_rows d1 rs ks = dag_rows d2 rs ks.
  Proof. induction ks as [|k ks IH]; intros; cbn [dag_rows]; [reflexivity|]. rewrite x_row, IH. reflexivity. Qed.
  Lemma x_dag : forall rs, get_dag d1 rs = get_dag d2 rs.
  Proof. intros; apply x_rows. Qed.
  Lemma x_calc_row : forall rs T idx row tl cur, calc_row d1 rs T idx row tl cur = calc_row d2 rs T idx row tl cur.
  Proof. intros rs T idx. induction row as [|i row IH]; intros; cbn [calc_row]; [reflexivity|]. find. apply IH. Qed.
  Lemma x_calc_rows : forall rs T rows idx, calc_rows d1 rs T idx rows = calc_rows d2 rs T idx rows.
  Proof. intros rs T. induction rows as [|row rows IH]; intros; cbn [calc_rows]; [reflexivity|]. rewrite IH. destruct (calc_rows d2 _ _ _ _) as [tl| |]; cbn [bind]; try reflexivity. rewrite x_calc_row. reflexivity. Qed.
  Lemma x_calc : forall rs, calc d1 rs = calc d2 rs.
  Proof. intros. unfold calc, calc_with. rewrite x_dag, Ht. destruct (get_dag d2 rs) as [dag| |]; cbn [bind]; try reflexivity. apply x_calc_rows. Qed.
  Lemma x_nohmm : forall c s, cut_dag_nohmm d1 c s = cut_dag_nohmm d2 c s.
  Proof. intros. unfold cut_dag_nohmm. rewrite x_calc. reflexivity. Qed.
  Lemma x_flush : forall em reg buf, M_Dag.flush d1 em reg buf = M_Dag.flush d2 em reg buf.
  Proof. intros. unfold M_Dag.flush, dag_hmm. destruct buf as [|a [|b buf]]; auto. find. reflexivity. Qed.
  Lemma x_loop : forall fuel em reg rs (tl : list (route E)) x buf r, dag_loop d1 fuel em reg rs tl x buf r = dag_loop d2 fuel em reg rs tl x buf r.
  Proof.
    induction fuel as [|fuel IH]; intros; cbn [dag_loop]; [reflexivity|]. destruct (_ <=? _); [reflexivity|]. destruct (rslice _ _ _) as [fr| |]; cbn [bind]; try reflexivity.
    destruct (_ =? 1); [apply IH|]. rewrite x_flush. destruct (M_Dag.flush d2 em reg buf); cbn [bind]; auto.
  Qed.
  Lemma x_cut_dag : forall c em s reg, cut_dag d1 c em s reg = cut_dag d2 c em s reg.
  Proof.
    intros. unfold cut_dag. rewrite x_calc. destruct (calc d2 _) as [tl| |]; cbn [bind]; try reflexivity. rewrite x_loop. destruct (dag_loop d2 _ _ _ _ _ _ _ _) as [r| |]; cbn [bind]; try reflexivity.
    rewrite x_flush. reflexivity.
  Qed.
  Lemma x_all : forall c s, cut_all d1 c s = cut_all d2 c s.
  Proof. intros. unfold cut_all. rewrite x_dag. reflexivity. Qed.
  Lemma x_grams : forall rs n is r, grams d1 rs n is r = grams d2 rs n is r.
  Proof. intros rs n. induction is as [|i is IH]; intros; cbn [grams]; [reflexivity|]. find. apply IH. Qed.
  Lemma x_grams_of : forall rs n r, grams_of d1 rs n r = grams_of d2 rs n r.
  Proof. intros. unfold grams_of. destruct (_ <=? _); [reflexivity|]. apply x_grams. Qed.
  Lemma x_search : forall ws r, search_loop d1 ws r = search_loop d2 ws r.
  Proof.
    induction ws as [|w ws IH]; intros; cbn [search_loop]; [reflexivity|]. rewrite x_grams_of. destruct (grams_of d2 _ _ _) as [a| |]; cbn [bind]; try reflexivity.
    rewrite x_grams_of. destruct (grams_of d2 _ _ _) as [b| |]; cbn [bind]; auto.
  Qed.
  Lemma x_suggest_loop : forall T ws f, suggest_loop d1 T ws f = suggest_loop d2 T ws f.
  Proof. intros T. induction ws as [|w ws IH]; intros; cbn [suggest_loop]; [reflexivity|]. find. apply IH. Qed.
  Lemma x_suggest : forall c ws, suggest_freq d1 c ws = suggest_freq d2 c ws.
  Proof.
    intros c [|w [|w2 ws]]; [reflexivity| |].
    - unfold suggest_freq. rewrite x_nohmm, Ht. destruct (cut_dag_nohmm d2 c w) as [segs| |]; cbn [bind]; try reflexivity. rewrite x_suggest_loop. destruct (suggest_loop d2 _ _ _); cbn [bind]; try reflexivity.
      find. reflexivity.
    - unfold suggest_freq. rewrite x_suggest_loop, Ht. destruct (suggest_loop d2 _ _ _); cbn [bind]; try reflexivity. find. reflexivity.
  Qed.
End Find.

Section Same.
  Variable E : env.
  Variable c : cfg.

  Lemma same_keys : forall d1 d2 : dict E, dict_ok c d1 -> dict_ok c d2 -> same_words d1 d2 -> forall w,
    match t_get (d_trie d1) w, t_get (d_trie d2) w with
    | Some v1, Some v2 => exists t1 t2, nth_error (d_tokens d1) v1 = Some t1 /\ nth_error (d_tokens d2) v2 = Some t2 /\ t_freq t1 = t_freq t2 /\ t_pos t1 = t_pos t2
    | None, None => True
    | _, _ => False
    end.
  Proof.
    intros d1 d2 O1 O2 H w. destruct (t_get (d_trie d1) w) as [v1|] eqn:G1.
    - destruct (ok_entry O1 G1) as (t1 & N1 & _). destruct (proj1 (H w (t_freq t1) (t_pos t1))) as (v2 & t2 & V2 & N2 & F & P); [exists v1, t1; rewrite dict_value_get; auto|].
      rewrite dict_value_get in V2. rewrite V2. exists t1, t2. auto.
    - destruct (t_get (d_trie d2) w) as [v2|] eqn:G2; [|exact I]. destruct (ok_entry O2 G2) as (t2 & N2 & _).
      destruct (proj2 (H w (t_freq t2) (t_pos t2))) as (v1 & t1 & V1 & _); [exists v2, t2; rewrite dict_value_get; auto|]. rewrite dict_value_get in V1. congruence.
  Qed.
  Lemma path_le : forall d1 d2 : dict E, (forall w, t_get (d_trie d1) w <> None -> t_get (d_trie d2) w <> None) -> forall p, t_path (d_trie d1) p = true -> t_path (d_trie d2) p = true.
  Proof.
    intros d1 d2 H p Hp. apply t_path_ext in Hp as [->|(x & v & G)]; [reflexivity|]. apply t_path_ext. right. exists x. destruct (t_get (d_trie d2) (p ++ x)) as [v2|] eqn:G2; [eauto|].
    exfalso. apply (H (p ++ x)); congruence.
  Qed.
  Lemma same_find : forall d1 d2 : dict E, dict_inv c d1 -> dict_inv c d2 -> same_words d1 d2 -> forall w, dict_find d1 w = dict_find d2 w.
  Proof.
    intros d1 d2 I1 I2 H w. rewrite (find_eq w I1), (find_eq w I2). pose proof (same_keys (inv_ok I1) (inv_ok I2) H) as K. pose proof (K w) as Kw.
    destruct (t_get (d_trie d1) w) as [v1|] eqn:G1, (t_get (d_trie d2) w) as [v2|] eqn:G2; try contradiction.
    - destruct Kw as (t1 & t2 & -> & -> & -> & ->). reflexivity.
    - do 2 f_equal. destruct w as [|b w]; [reflexivity|].
      assert (A : forall w, t_get (d_trie d1) w <> None <-> t_get (d_trie d2) w <> None).
      { intro w'. specialize (K w'). destruct (t_get (d_trie d1) w'), (t_get (d_trie d2) w'); try contradiction; split; congruence. }
      destruct (t_path (d_trie d1) (b :: w)) eqn:P1, (t_path (d_trie d2) (b :: w)) eqn:P2; auto.
      + rewrite (path_le (d1 := d1) (d2 := d2)) in P2; [discriminate| |exact P1]. intros; apply A; assumption.
      + rewrite (path_le (d1 := d2) (d2 := d1)) in P1; [discriminate| |exact P2]. intros; apply A; assumption.
  Qed.

  Lemma c77 : forall e1 e2 d1 d2 : dict E, reachable c e1 -> reachable c e2 -> calc_token e1 = Ok d1 -> calc_token e2 = Ok d2 ->
    d_total d1 = d_total d2 -> same_words d1 d2 -> same_results c d1 d2.
  Proof.
    intros e1 e2 d1 d2 R1 R2 C1 C2 Ht H. apply reachable_inv in R1, R2.
    assert (I1 : dict_inv c d1). { destruct (calc_token_spec (inv_ok R1)) as (x & X1 & X2 & _). rewrite C1 in X1. injection X1 as <-. exact X2. }
    assert (I2 : dict_inv c d2). { destruct (calc_token_spec (inv_ok R2)) as (x & X1 & X2 & _). rewrite C2 in X1. injection X1 as <-. exact X2. }
    pose proof (same_keys (inv_ok I1) (inv_ok I2) H) as K. pose proof (same_find I1 I2 H) as F.
    assert (F' : forall w, exists f p1 p2 b, dict_find d1 w = Ok (f, p1, b) /\ dict_find d2 w = Ok (f, p2, b)).
    { intro w. rewrite (F w), (find_eq w I2). destruct (t_get (d_trie d2) w) as [v|] eqn:G; [|eauto 10]. destruct (ok_entry (inv_ok I2) G) as (t & -> & _). eauto 10. }
    assert (HS : forall s m, seg_slice c (Some d1) s m = seg_slice c (Some d2) s m) by (intros; eapply (@outs_rel E c e1 e2 d1 d2 eq (@eq_refl bytes) (inv_ok R1) (inv_ok R2) C1 C2 Ht K (fun _ _ H => H))).
    assert (HC : forall em s h, cut d1 c em s h = cut d2 c em s h).
    { intros em s [[|]|]; cbn [cut]; [apply x_cut_dag; assumption|apply x_nohmm; assumption|apply HS]. }
    constructor; auto.
    - intros s m. destruct (@seg_rel E c e1 e2 d1 d2 eq (inv_ok R1) (inv_ok R2) C1 C2 Ht K s m) as (s1 & s2 & -> & -> & HF). cbn [spans]. f_equal.
      induction HF as [|a b l1 l2 (A1 & A2 & _) _ IH]; [reflexivity|]. cbn. rewrite A1, A2, IH. reflexivity.
    - intros. eapply (@pos_rel E c e1 e2 d1 d2 eq (@eq_refl bytes) (inv_ok R1) (inv_ok R2) C1 C2 Ht K (fun _ _ H => H)).
    - intros. eapply (@outs_rel E c e1 e2 d1 d2 eq (@eq_refl bytes) (inv_ok R1) (inv_ok R2) C1 C2 Ht K (fun _ _ H => H)).
    - intros. apply x_all; assumption.
    - intros em s [h|]; cbn [cut_search]; [|apply HS]. unfold cut_for_search. rewrite HC. destruct (cut d2 c em s (Some h)); cbn [bind]; try reflexivity. apply x_search; assumption.
    - intros. apply x_suggest; assumption.
  Qed.

  Lemma rel_same : forall (d1 d2 : dict E) m1 m2, rel d1 m1 -> rel d2 m2 -> (forall w, m1 w = m2 w) -> same_words d1 d2.
  Proof.
    assert (G : forall (d1 d2 : dict E) m1 m2, rel d1 m1 -> rel d2 m2 -> (forall w, m1 w = m2 w) -> forall w f p, entry d1 w f p -> entry d2 w f p).
    { intros d1 d2 m1 m2 R1 R2 Hm w f p (v & t & V & N & <- & <-). rewrite dict_value_get in V. specialize (R1 w). rewrite V in R1. destruct R1 as (t' & N' & M). assert (t' = t) by congruence. subst t'.
      specialize (R2 w). rewrite <- Hm, M in R2. destruct (t_get (d_trie d2) w) as [v2|] eqn:G2; [|discriminate]. destruct R2 as (t2 & N2 & E2). injection E2 as E2 E3. exists v2, t2. rewrite dict_value_get. auto. }
    intros d1 d2 m1 m2 R1 R2 Hm w f p. split; [eapply G; eassumption|]. eapply G; try eassumption. intros; symmetry; apply Hm.
  Qed.

  Lemma run_calc : forall os (d : dict E), run_ops c (new_dict E) (os ++ [OpCalc]) = Ok d -> exists e, run_ops c (new_dict E) os = Ok e /\ calc_token e = Ok d.
  Proof.
    intros os d H. rewrite run_ops_app in H. apply bind_Ok in H as (e & H1 & H2). cbn [run_ops run_op] in H2. apply bind_Ok in H2 as (x & H2 & H3). injection H3 as ->. eauto.
  Qed.
  Lemma safe_app : forall os os' (m : wmap E), safe_ops c m os -> safe_ops c (spec_ops c m os) os' -> safe_ops c m (os ++ os').
  Proof. induction os as [|o os IH]; intros os' m H H'; [exact H'|]. cbn in *. destruct H. auto. Qed.
  Lemma spec_app : forall os os' (m : wmap E), spec_ops c m (os ++ os') = spec_ops c (spec_ops c m os) os'.
  Proof. induction os as [|o os IH]; intros os' m; [reflexivity|]. apply IH. Qed.

  Lemma c77_histories : forall os1 os2 (d1 d2 : dict E), safe_ops c (wempty E) os1 -> safe_ops c (wempty E) os2 ->
    run_ops c (new_dict E) (os1 ++ [OpCalc]) = Ok d1 -> run_ops c (new_dict E) (os2 ++ [OpCalc]) = Ok d2 ->
    (forall w, spec_ops c (wempty E) os1 w = spec_ops c (wempty E) os2 w) -> d_total d1 = d_total d2 -> same_results c d1 d2.
  Proof.
    intros os1 os2 d1 d2 S1 S2 H1 H2 Hm Ht. pose proof (new_dict_inv E c) as I0.
    assert (S1' : safe_ops c (wempty E) (os1 ++ [OpCalc])) by (apply safe_app; [exact S1|cbn; auto]).
    assert (S2' : safe_ops c (wempty E) (os2 ++ [OpCalc])) by (apply safe_app; [exact S2|cbn; auto]).
    pose proof (rel_ops I0 (@rel_new E) S1' H1) as Q1. pose proof (rel_ops I0 (@rel_new E) S2' H2) as Q2.
    destruct (run_calc H1) as (e1 & A1 & B1). destruct (run_calc H2) as (e2 & A2 & B2).
    eapply c77; [exists os1; exact A1|exists os2; exact A2|exact B1|exact B2|exact Ht|]. eapply rel_same; [exact Q1|exact Q2|]. intro w. rewrite !spec_app. cbn. apply Hm.
  Qed.
End Same.
