(** Dictionary histories (C13-C18). *)
From Coq Require Import Sorted.
From Verif Require Import S_Split P_Utf8 P_Split S_Seg S_Dict P_Dict P_Seg P_Seg2.
Set Implicit Arguments. Unset Strict Implicit.

Lemma t_path_ext : forall t p, t_path t p = true <-> p = [] \/ exists x v, t_get t (p ++ x) = Some v.
Proof.
  intros t p. rewrite t_path_spec. split; (intros [H|H]; [left; exact H|right]).
  - destruct H as (k & v & H1 & H2). apply is_prefix_spec in H2 as [x ->]. eauto.
  - destruct H as (x & v & H). exists (p ++ x), v. split; [exact H|]. apply is_prefix_spec. eauto.
Qed.

Section H.
  Variable E : env.
  Variable c : cfg.

  Definition rel (d : dict E) (m : wmap E) : Prop :=
    forall k, match t_get (d_trie d) k with
              | Some v => exists t, nth_error (d_tokens d) v = Some t /\ m k = Some (t_freq t, t_pos t)
              | None => m k = None
              end.

  Lemma rel_new : rel (new_dict E) (wempty E).
  Proof. intro k. reflexivity. Qed.

  Lemma rel_none : forall d m k, rel d m -> (t_get (d_trie d) k = None <-> m k = None).
  Proof.
    intros d m k H. specialize (H k). destruct (t_get (d_trie d) k) as [v|]; [|tauto].
    destruct H as (t & _ & H). split; congruence.
  Qed.

  Lemma rel_add : forall d m t, rel d m -> rel (add_token d t)
    (match m (concat (t_text t)) with None => wset m (concat (t_text t)) (Some (t_freq t, t_pos t)) | Some _ => m end).
  Proof.
    intros d m t H. unfold add_token, text_bytes. set (k0 := concat (t_text t)).
    pose proof (rel_none k0 H) as Hn. pose proof (H k0) as H0.
    destruct (t_get (d_trie d) k0) as [v|] eqn:Eg.
    - destruct (m k0) eqn:Em; [exact H|]. destruct Hn as [_ Hn]. discriminate (Hn eq_refl).
    - rewrite H0. intro k. cbn [d_trie d_tokens]. rewrite t_get_insert. unfold wset.
      destruct (beqb k k0) eqn:Ek.
      + apply beqb_eq in Ek. subst k. rewrite beqb_refl. exists t. split; [|reflexivity].
        rewrite nth_error_app2 by lia. rewrite Nat.sub_diag. reflexivity.
      + assert (Ek' : beqb k0 k = false) by (apply beqb_neq; apply beqb_neq in Ek; congruence).
        rewrite Ek'. specialize (H k). destruct (t_get (d_trie d) k) as [v|]; [|exact H].
        destruct H as (t' & T1 & T2). exists t'. split; [|exact T2].
        rewrite nth_error_app1; [exact T1|]. apply nth_error_Some. congruence.
  Qed.

  (** Removal of a stored word. *)
  Lemma rel_remove : forall d m text, rel d m -> m (concat text) <> None ->
    exists d', remove_token d text = Some d' /\ rel d' (wset m (concat text) None) /\ d_tokens d' = d_tokens d.
  Proof.
    intros d m text H Hm. unfold remove_token, text_bytes, t_delete.
    pose proof (rel_none (concat text) H) as Hn.
    destruct (t_get (d_trie d) (concat text)) as [v|] eqn:Eg; [|tauto].
    rewrite (t_path_key Eg). eexists. split; [reflexivity|]. split; [|reflexivity].
    intro k. cbn [d_trie d_tokens]. rewrite (t_get_filter (fun x => negb (beqb x (concat text)))). unfold wset.
    destruct (beqb k (concat text)) eqn:Ek; cbn [negb]; [reflexivity|]. apply H.
  Qed.

  Lemma no_path : forall d m k, rel d m -> k <> [] -> (forall x, m (k ++ x) = None) -> t_path (d_trie d) k = false.
  Proof.
    intros d m k H Hk Hx. destruct (t_path (d_trie d) k) eqn:Ep; [|reflexivity]. exfalso.
    apply t_path_ext in Ep as [Ep|(x & v & Ep)]; [congruence|].
    specialize (H (k ++ x)). rewrite Ep in H. destruct H as (t & _ & H). rewrite Hx in H. discriminate.
  Qed.

  Lemma wsplit_norm : forall s, concat (wsplit E c s) = norm E c s.
  Proof. intro s. apply split_concat. Qed.

  Lemma norm_nil : forall s, norm E c s = [] -> s = [].
  Proof. intros s H. apply (f_equal (@length _)) in H. rewrite norm_length in H. destruct s; [reflexivity|discriminate]. Qed.

  Lemma rel_ext : forall d m m', (forall k, m k = m' k) -> rel d m -> rel d m'.
  Proof. intros d m m' Hm H k. specialize (H k). rewrite <- Hm. exact H. Qed.

  Lemma rel_op : forall d m o d', dict_inv c d -> rel d m -> safe_op c m o -> run_op c d o = Ok d' -> rel d' (spec_op c m o).
  Proof.
    intros d m o d' Hi H Hs Hr. destruct o as [text freq pos|text freq pos|text|]; cbn [run_op spec_op safe_op] in *.
    - unfold seg_add_token, to_token in Hr. rewrite split_words_eq in Hr. cbn [bind] in Hr. injection Hr as <-.
      rewrite <- (wsplit_norm text). exact (rel_add _ H).
    - unfold seg_readd_token, to_token in Hr. rewrite split_words_eq in Hr. cbn [bind t_text] in Hr.
      destruct Hs as [Hs|[Hne Hs]].
      + destruct (@rel_remove d m (wsplit E c text) H) as (d1 & R1 & R2 & _); [rewrite wsplit_norm; exact Hs|].
        rewrite R1 in Hr. cbn [bind fst] in Hr. injection Hr as <-.
        destruct (m (norm E c text)) eqn:Em; [|congruence].
        set (t := {| t_text := _ |}). pose proof (rel_add t R2) as R3. cbn [t_text t_freq t_pos t] in R3.
        rewrite wsplit_norm in R3. unfold wset at 1 in R3. rewrite beqb_refl in R3.
        eapply rel_ext; [|exact R3]. intro k. unfold wset. destruct (beqb k (norm E c text)); reflexivity.
      + assert (Hp : t_path (d_trie d) (norm E c text) = false).
        { apply (no_path H); [|exact Hs]. intro Hx. apply norm_nil in Hx. congruence. }
        unfold remove_token, t_delete, text_bytes in Hr. rewrite wsplit_norm, Hp in Hr. cbn [bind fst] in Hr. injection Hr as <-.
        pose proof (Hs []) as Hs0. rewrite app_nil_r in Hs0. rewrite Hs0. exact H.
    - unfold seg_remove_token in Hr. rewrite split_words_eq in Hr. cbn [bind] in Hr.
      destruct Hs as [Hs|[Hne Hs]].
      + destruct (@rel_remove d m (wsplit E c text) H) as (d1 & R1 & R2 & _); [rewrite wsplit_norm; exact Hs|].
        rewrite R1 in Hr. cbn [bind fst] in Hr. injection Hr as <-. rewrite wsplit_norm in R2. exact R2.
      + assert (Hp : t_path (d_trie d) (norm E c text) = false).
        { apply (no_path H); [|exact Hs]. intro Hx. apply norm_nil in Hx. congruence. }
        unfold remove_token, t_delete, text_bytes in Hr. rewrite wsplit_norm, Hp in Hr. cbn [bind fst] in Hr. injection Hr as <-.
        pose proof (Hs []) as Hs0. rewrite app_nil_r in Hs0.
        eapply rel_ext; [|exact H]. intro k. unfold wset. destruct (beqb k (norm E c text)) eqn:Ek; [|reflexivity].
        apply beqb_eq in Ek. subst k. exact Hs0.
    - destruct (calc_token_spec (inv_ok Hi)) as (d1 & C1 & _ & C2 & _ & _ & _ & C3 & C4 & _).
      rewrite C1 in Hr. injection Hr as <-. intro k. rewrite C2. specialize (H k).
      destruct (t_get (d_trie d) k) as [v|]; [|exact H]. destruct H as (t & T1 & T2).
      apply (map_nth_error (@t_freq E)) in T1 as F1. apply (map_nth_error (@t_pos E)) in T1 as F2.
      rewrite <- C3 in F1. rewrite <- C4 in F2.
      destruct (nth_error (d_tokens d1) v) as [t'|] eqn:Et.
      + exists t'. split; [reflexivity|]. rewrite (map_nth_error (@t_freq E) _ _ Et) in F1. rewrite (map_nth_error (@t_pos E) _ _ Et) in F2. congruence.
      + exfalso. apply nth_error_None in Et. rewrite <- (map_length (@t_freq E)) in Et. apply nth_error_None in Et. congruence.
  Qed.

  Lemma rel_ops : forall os d m d', dict_inv c d -> rel d m -> safe_ops c m os -> run_ops c d os = Ok d' ->
    rel d' (spec_ops c m os).
  Proof.
    induction os as [|o os IH]; intros d m d' Hi H Hs Hr; cbn [run_ops spec_ops safe_ops] in *.
    - injection Hr as <-. exact H.
    - apply bind_Ok in Hr as (d1 & R1 & R2). destruct Hs as [S1 S2].
      destruct (run_op_inv o Hi) as (d1' & X1 & X2). rewrite R1 in X1. injection X1 as <-.
      exact (IH d1 (spec_op c m o) d' X2 (rel_op Hi H S1 R1) S2 R2).
  Qed.

  (** Find in terms of the trie. *)
  Lemma find_eq : forall (d : dict E) w, dict_inv c d ->
    dict_find d w =
      match t_get (d_trie d) w with
      | Some v => match nth_error (d_tokens d) v with Some t => Ok (t_freq t, t_pos t, true) | None => Panic end
      | None => Ok (lit64 E 0 0, [], match w with [] => false | _ => t_path (d_trie d) w end)
      end.
  Proof.
    intros d w Hi. unfold dict_find, t_jump, t_value. destruct w as [|b w].
    - destruct (t_get (d_trie d) []) as [v|]; [|reflexivity]. unfold get. destruct (nth_error (d_tokens d) v); reflexivity.
    - cbn [app]. destruct (t_path (d_trie d) (b :: w)) eqn:Ep.
      + destruct (t_get (d_trie d) (b :: w)) as [v|]; [|reflexivity]. unfold get. destruct (nth_error (d_tokens d) v); reflexivity.
      + destruct (t_get (d_trie d) (b :: w)) eqn:Eg; [|reflexivity]. apply t_path_key in Eg. congruence.
  Qed.

  Lemma c13 : forall os (d : dict E), safe_ops c (wempty E) os -> run_ops c (new_dict E) os = Ok d -> forall w,
    match spec_ops c (wempty E) os w with
    | Some (freq, pos) => dict_find d w = Ok (freq, pos, true)
    | None => exists b, dict_find d w = Ok (lit64 E 0 0, [], b)
    end.
  Proof.
    intros os d Hs Hr w. assert (H := rel_ops (new_dict_inv E c) rel_new Hs Hr w).
    destruct (run_ops_inv os (new_dict_inv E c)) as (d' & X1 & Hi). rewrite Hr in X1. injection X1 as <-.
    rewrite (find_eq w Hi). destruct (t_get (d_trie d) w) as [v|].
    - destruct H as (t & T1 & T2). rewrite T2, T1. reflexivity.
    - rewrite H. eauto.
  Qed.

  Lemma c14 : forall (d : dict E) w, reachable c d -> exists freq pos b, dict_find d w = Ok (freq, pos, b) /\
    (b = true <-> (exists v, dict_value d w = Some v) \/
                  (w <> [] /\ exists x v, x <> [] /\ dict_value d (w ++ x) = Some v)).
  Proof.
    intros d w Hr. apply reachable_inv in Hr. rewrite (find_eq w Hr).
    destruct (t_get (d_trie d) w) as [v|] eqn:Eg.
    - destruct (ok_entry (inv_ok Hr) Eg) as (t & T1 & _). rewrite T1. do 3 eexists. split; [reflexivity|].
      split; [|reflexivity]. intros _. left. exists v. rewrite dict_value_get. exact Eg.
    - do 3 eexists. split; [reflexivity|]. split.
      + intro H. right. destruct w as [|b w]; [discriminate|]. split; [discriminate|].
        apply t_path_ext in H as [H|(x & v & H)]; [discriminate|]. exists x, v. rewrite dict_value_get. split; [|exact H].
        intros ->. rewrite app_nil_r in H. congruence.
      + intros [[v H]|[Hw (x & v & Hx & H)]]; rewrite dict_value_get in H; [congruence|].
        destruct w as [|b w]; [congruence|]. apply t_path_prefix with (q := x). eapply t_path_key; exact H.
  Qed.

  (* C15 *)
  Definition counters (d : dict E) : Prop :=
    d_total d = sum_freq (map (@t_freq E) (d_tokens d)) /\ d_max d = max_len (map (@t_text E) (d_tokens d)).

  Lemma max_len_app : forall a b, max_len (a ++ b) = Nat.max (max_len a) (max_len b).
  Proof.
    induction a as [|x a IH]; intro b; [reflexivity|].
    change (max_len ((x :: a) ++ b)) with (Nat.max (length x) (max_len (a ++ b))).
    change (max_len (x :: a)) with (Nat.max (length x) (max_len a)). rewrite IH. lia.
  Qed.

  Lemma counters_add : forall d t, counters d -> counters (add_token d t).
  Proof.
    intros d t [H1 H2]. unfold add_token. destruct (t_get _ _); [split; assumption|]. split; cbn [d_total d_tokens d_max].
    - rewrite map_app. unfold sum_freq. rewrite fold_left_app. cbn. rewrite H1. reflexivity.
    - rewrite map_app, max_len_app, <- H2. cbn [map max_len fold_right]. destruct (Nat.ltb_spec (d_max d) (length (t_text t))); lia.
  Qed.

  Lemma add_info : forall d t, map (@info E) (d_tokens (add_token d t)) =
    map (@info E) (d_tokens d) ++ match t_get (d_trie d) (concat (t_text t)) with None => [info t] | Some _ => [] end.
  Proof.
    intros d t. unfold add_token, text_bytes. destruct (t_get _ _); cbn [d_tokens].
    - rewrite app_nil_r. reflexivity.
    - rewrite map_app. reflexivity.
  Qed.

  Lemma remove_facts : forall (d : dict E) text d', remove_token d text = Some d' ->
    d_tokens d' = d_tokens d /\ d_total d' = d_total d /\ d_max d' = d_max d /\ t_get (d_trie d') (concat text) = None.
  Proof.
    intros d text d' H. unfold remove_token, text_bytes in H. destruct (t_delete _ _ _) as [t|] eqn:Ed; [|discriminate].
    injection H as <-. cbn. repeat apply conj; auto.
    unfold t_delete in Ed. destruct (t_path (d_trie d) (concat text)); [|discriminate].
    destruct (t_get (d_trie d) (concat text)) eqn:Eg.
    - injection Ed as <-. rewrite (t_get_filter (fun x => negb (beqb x (concat text)))), beqb_refl. reflexivity.
    - destruct (q_drop E); injection Ed as <-; [|exact Eg].
      rewrite (t_get_filter (fun x => negb (is_prefix (concat text) x))).
      destruct (negb (is_prefix (concat text) (concat text))); auto.
  Qed.

  Lemma c15_step : forall d o d', dict_inv c d -> counters d -> run_op c d o = Ok d' ->
    counters d' /\ map (@info E) (d_tokens d') = map (@info E) (d_tokens d) ++ effective c d o.
  Proof.
    intros d o d' Hi Hc Hr. destruct o as [text freq pos|text freq pos|text|]; cbn [run_op effective] in *; unfold words_of in *; rewrite ?split_words_eq.
    - unfold seg_add_token, to_token in Hr. rewrite split_words_eq in Hr. cbn [bind] in Hr. injection Hr as <-.
      split; [apply counters_add; exact Hc|]. rewrite add_info, dict_value_get. cbn [t_text]. rewrite wsplit_norm. reflexivity.
    - unfold seg_readd_token, to_token in *. rewrite split_words_eq in *. cbn [bind t_text] in *.
      destruct (remove_token d (wsplit E c text)) as [d1|] eqn:Er; cbn [bind fst] in Hr; injection Hr as <-.
      + destruct (remove_facts Er) as (R1 & R2 & R3 & R4). split.
        * apply counters_add. unfold counters. rewrite R1, R2, R3. exact Hc.
        * rewrite add_info, R1. cbn [t_text]. rewrite R4. reflexivity.
      + rewrite app_nil_r. auto.
    - unfold seg_remove_token in Hr. rewrite split_words_eq in Hr. cbn [bind] in Hr. rewrite app_nil_r.
      destruct (remove_token d (wsplit E c text)) as [d1|] eqn:Er; cbn [bind fst] in Hr; injection Hr as <-; [|auto].
      destruct (remove_facts Er) as (R1 & R2 & R3 & R4). unfold counters. rewrite R1, R2, R3. auto.
    - destruct (calc_token_spec (inv_ok Hi)) as (d1 & C1 & _ & _ & C2 & C3 & C4 & C5 & C6 & _).
      rewrite C1 in Hr. injection Hr as <-. unfold counters. rewrite C2, C3, C4, C5, app_nil_r. split; [exact Hc|].
      clear -C4 C5 C6. revert C4 C5 C6. generalize (d_tokens d). induction (d_tokens d1) as [|t l IH]; intros [|t' l'] H1 H2 H3; try discriminate; [reflexivity|].
      cbn in *. injection H1 as A1 B1. injection H2 as A2 B2. injection H3 as A3 B3. unfold info at 1 3. rewrite A1, A2, A3. f_equal. auto.
  Qed.

  Lemma counters_new : counters (new_dict E).
  Proof. split; reflexivity. Qed.

  Lemma c15_run : forall os d d', dict_inv c d -> counters d -> run_ops c d os = Ok d' ->
    counters d' /\ map (@info E) (d_tokens d') = map (@info E) (d_tokens d) ++ effective_ops c d os.
  Proof.
    induction os as [|o os IH]; intros d d' Hi Hc Hr; cbn [run_ops effective_ops] in *.
    - injection Hr as <-. rewrite app_nil_r. auto.
    - apply bind_Ok in Hr as (d1 & R1 & R2). destruct (run_op_inv o Hi) as (d1' & X1 & X2).
      rewrite R1 in X1. injection X1 as <-. destruct (c15_step Hi Hc R1) as [C1 C2].
      destruct (IH d1 d' X2 C1 R2) as [D1 D2]. split; [exact D1|]. rewrite R1, D2, C2, app_assoc. reflexivity.
  Qed.

  Lemma c15 : forall os d, run_ops c (new_dict E) os = Ok d ->
    let added := effective_ops c (new_dict E) os in
    length (d_tokens d) = length added /\
    d_total d = fold_left (add64 E) (map (fun a => snd (fst a)) added) (lit64 E 0 0) /\
    d_max d = max_len (map (fun a => fst (fst a)) added) /\
    map (@info E) (d_tokens d) = added.
  Proof.
    intros os d Hr. destruct (c15_run (new_dict_inv E c) counters_new Hr) as [[H1 H2] H3]. cbn [new_dict d_tokens map app] in H3.
    cbv zeta. rewrite <- H3, map_length, !map_map. auto.
  Qed.

  (* C17 *)
  Lemma c17_normal : forall (d : dict E) w v, reachable c d -> dict_value d w = Some v -> norm E c w = w.
  Proof.
    intros d w v Hr H. apply reachable_inv in Hr. rewrite dict_value_get in H.
    destruct (ok_entry (inv_ok Hr) H) as (t & T1 & T2 & T3 & _). rewrite <- wsplit_norm, <- T2. exact T3.
  Qed.

  Lemma c17_add : forall (d d' : dict E) text freq pos, reachable c d -> seg_add_token c d text freq pos = Ok d' ->
    (exists v, dict_value d' (norm E c text) = Some v) /\
    (dict_value d (norm E c text) = None -> dict_find d' (norm E c text) = Ok (freq, pos, true)) /\
    (dict_value d (norm E c text) <> None -> d' = d).
  Proof.
    intros d d' text freq pos Hr H. unfold seg_add_token, to_token in H. rewrite split_words_eq in H. cbn [bind] in H.
    apply reachable_inv in Hr.
    assert (Hi : dict_inv c d').
    { destruct (run_op_inv (OpAdd text freq pos) Hr) as (d2 & X1 & X2). cbn [run_op] in X1. unfold seg_add_token, to_token in X1.
      rewrite split_words_eq in X1. cbn [bind] in X1. congruence. }
    rewrite (find_eq _ Hi). injection H as <-. rewrite !dict_value_get. unfold add_token, text_bytes. cbn [t_text]. rewrite wsplit_norm.
    destruct (t_get (d_trie d) (norm E c text)) as [v|] eqn:Eg; cbn [d_trie d_tokens].
    - rewrite Eg. repeat apply conj; [eauto|discriminate|reflexivity].
    - rewrite t_get_insert, beqb_refl, nth_error_app2, Nat.sub_diag by lia. cbn.
      repeat apply conj; [eauto|reflexivity|congruence].
  Qed.

  (* C18 *)
  Lemma c18_remove : forall (d : dict E) text v, reachable c d -> dict_value d (norm E c text) = Some v ->
    exists d', seg_remove_token c d text = Ok (d', false) /\ dict_value d' (norm E c text) = None /\
      forall w, w <> norm E c text -> dict_value d' w = dict_value d w /\
        (dict_value d w <> None -> dict_find d' w = dict_find d w).
  Proof.
    intros d text v Hr Hv. apply reachable_inv in Hr. rewrite dict_value_get in Hv.
    unfold seg_remove_token. rewrite split_words_eq. cbn [bind].
    destruct (remove_token d (wsplit E c text)) as [d'|] eqn:Er.
    2:{ exfalso. unfold remove_token, t_delete, text_bytes in Er. rewrite wsplit_norm, (t_path_key Hv), Hv in Er. discriminate. }
    exists d'. split; [reflexivity|]. pose proof (remove_facts Er) as (R1 & _ & _ & R4). rewrite wsplit_norm in R4.
    assert (Hi : dict_inv c d') by (eapply remove_token_inv; eassumption).
    split; [rewrite dict_value_get; exact R4|]. intros w Hw.
    assert (Hg : t_get (d_trie d') w = t_get (d_trie d) w).
    { unfold remove_token, t_delete, text_bytes in Er. rewrite wsplit_norm, (t_path_key Hv), Hv in Er. injection Er as <-. cbn [d_trie].
      rewrite (t_get_filter (fun x => negb (beqb x (norm E c text)))). apply beqb_neq in Hw. rewrite Hw. reflexivity. }
    rewrite !dict_value_get. split; [exact Hg|]. intro Hs. rewrite (find_eq w Hi), (find_eq w Hr), Hg, R1.
    destruct (t_get (d_trie d) w); [reflexivity|congruence].
  Qed.

  Lemma c18_readd_missing : forall (d : dict E) text freq pos, reachable c d -> text <> [] ->
    (forall x, dict_value d (norm E c text ++ x) = None) ->
    seg_readd_token c d text freq pos = Ok (d, true).
  Proof.
    intros d text freq pos Hr Hne Hx. apply reachable_inv in Hr.
    unfold seg_readd_token, to_token. rewrite split_words_eq. cbn [bind t_text].
    assert (Hp : t_path (d_trie d) (norm E c text) = false).
    { destruct (t_path (d_trie d) (norm E c text)) eqn:Ep; [|reflexivity]. exfalso.
      apply t_path_ext in Ep as [Ep|(x & v & Ep)]; [apply norm_nil in Ep; congruence|].
      rewrite <- dict_value_get, Hx in Ep. discriminate. }
    unfold remove_token, t_delete, text_bytes. rewrite wsplit_norm, Hp. reflexivity.
  Qed.

  Lemma c18_readd : forall (d : dict E) text freq pos v, reachable c d -> dict_value d (norm E c text) = Some v ->
    exists d', seg_readd_token c d text freq pos = Ok (d', false) /\ dict_find d' (norm E c text) = Ok (freq, pos, true) /\
      forall w, w <> norm E c text -> dict_value d w <> None -> dict_find d' w = dict_find d w.
  Proof.
    intros d text freq pos v Hr Hv. destruct (c18_remove Hr Hv) as (d1 & A1 & A2 & A3).
    apply reachable_inv in Hr.
    unfold seg_readd_token, to_token. unfold seg_remove_token in A1. rewrite split_words_eq in *. cbn [bind t_text] in *.
    destruct (remove_token d (wsplit E c text)) as [d1'|] eqn:Er; [|discriminate]. injection A1 as ->.
    set (t := {| t_text := _ |}). exists (add_token d1 t). split; [reflexivity|].
    assert (H1 : dict_inv c d1) by (eapply remove_token_inv; eassumption).
    assert (H2 : dict_inv c (add_token d1 t)) by (eapply add_token_inv; [exact H1|reflexivity|reflexivity]).
    rewrite (find_eq _ H2). rewrite dict_value_get in A2.
    assert (Hadd : add_token d1 t = {| d_trie := t_insert (d_trie d1) (norm E c text) (length (d_tokens d1));
         d_tokens := d_tokens d1 ++ [t]; d_total := add64 E (d_total d1) freq;
         d_max := if d_max d1 <? length (t_text t) then length (t_text t) else d_max d1 |}).
    { unfold add_token, text_bytes. cbn [t_text t t_freq]. rewrite wsplit_norm, A2. reflexivity. }
    rewrite Hadd in *. cbn [d_trie d_tokens]. split.
    - rewrite t_get_insert, beqb_refl, nth_error_app2, Nat.sub_diag by lia. reflexivity.
    - intros w Hw Hs. destruct (A3 w Hw) as [B1 B2]. rewrite <- (B2 Hs), (find_eq w H2), (find_eq w H1). cbn [d_trie d_tokens].
      rewrite t_get_insert. assert (Hb : beqb (norm E c text) w = false) by (apply beqb_neq; congruence). rewrite Hb.
      rewrite <- B1, dict_value_get in Hs. destruct (t_get (d_trie d1) w) as [u|] eqn:Eu; [|congruence].
      destruct (ok_entry (inv_ok H1) Eu) as (tu & U1 & _). rewrite nth_error_app1; [reflexivity|]. apply nth_error_Some. congruence.
  Qed.

  (* C16 *)
  Lemma somes_sorted : forall (d : dict E) (words : list bytes) s m, dict_inv c d -> Forall (fun w => w <> []) words ->
    s + m <= S (length words) ->
    StronglySorted (fun v v' => tok_size d v < tok_size d v')
      (somes (map (fun k => t_get (d_trie d) (concat (firstn k words))) (seq s m))).
  Proof.
    intros d words s m Hi Hne. revert s. induction m as [|m IH]; intros s Hs; cbn [seq map somes]; [constructor|].
    destruct (t_get (d_trie d) (concat (firstn s words))) as [v|] eqn:Eg; [|apply IH; lia].
    constructor; [apply IH; lia|]. apply Forall_forall. intros v' Hv'. apply somes_In in Hv'.
    apply in_map_iff in Hv' as (k & Hk & Hin). apply in_seq in Hin.
    destruct (ok_entry (inv_ok Hi) Eg) as (t & T1 & _ & T3 & _). destruct (ok_entry (inv_ok Hi) Hk) as (t' & T1' & _ & T3' & _).
    unfold tok_size. rewrite T1, T1', T3, T3'.
    assert (Hf : firstn k words = firstn s words ++ slice words s k).
    { rewrite <- (firstn_skipn s (firstn k words)). rewrite firstn_firstn, skipn_firstn_comm.
      replace (Nat.min s k) with s by lia. reflexivity. }
    rewrite Hf, concat_app, app_length.
    assert (Hsl : length (slice words s k) = k - s) by (apply slice_length; lia).
    destruct (slice words s k) as [|w l] eqn:Es; [cbn in Hsl; lia|].
    assert (Hw : w <> []).
    { rewrite Forall_forall in Hne. apply Hne. unfold slice in Es.
      assert (Hin' : In w (firstn (k - s) (skipn s words))) by (rewrite Es; left; reflexivity).
      rewrite <- (firstn_skipn s words). apply in_or_app. right. rewrite <- (firstn_skipn (k - s) (skipn s words)).
      apply in_or_app. left. exact Hin'. }
    cbn [concat]. rewrite app_length. destruct w; [congruence|cbn; lia].
  Qed.

  Lemma c16 : forall (d : dict E) cap words, reachable c d -> Forall (fun w => w <> []) words -> length words <= cap ->
    exists vs, lookup_tokens d cap words = Ok vs /\
      (forall v, In v vs <-> exists k, 1 <= k <= length words /\ dict_value d (concat (firstn k words)) = Some v) /\
      StronglySorted (fun v v' => tok_size d v < tok_size d v') vs.
  Proof.
    intros d cap words Hr Hne Hcap. apply reachable_inv in Hr.
    exists (somes (map (fun k => t_get (d_trie d) (concat (firstn k words))) (seq 1 (length words)))). split; [|split].
    - unfold lookup_tokens. rewrite lookup_spec; auto. apply (dict_ok_value (inv_ok Hr)).
    - intro v. rewrite somes_In, in_map_iff. split.
      + intros (k & H1 & H2). apply in_seq in H2. exists k. rewrite dict_value_get. split; [lia|exact H1].
      + intros (k & H1 & H2). exists k. rewrite dict_value_get in H2. split; [exact H2|]. apply in_seq. lia.
    - apply somes_sorted; auto.
  Qed.
End H.

Lemma run_ops_total : forall E c os, exists d, run_ops c (new_dict E) os = Ok d.
Proof. intros E c os. destruct (run_ops_inv os (new_dict_inv E c)) as (d & H & _). eauto. Qed.

Lemma run_ops_app : forall E c os os' (d : dict E), run_ops c d (os ++ os') = (do d' <- run_ops c d os ; run_ops c d' os').
Proof.
  intros E c os os'. induction os as [|o os IH]; intro d; cbn [app run_ops bind]; [reflexivity|].
  destruct (run_op c d o); cbn [bind]; auto.
Qed.

Lemma c15_step_reachable : forall E c (d : dict E) o d', reachable c d -> run_op c d o = Ok d' ->
  map (@info E) (d_tokens d') = map (@info E) (d_tokens d) ++ effective c d o.
Proof.
  intros E c d o d' [os Hr] H. destruct (run_ops_inv os (new_dict_inv E c)) as (d0 & X1 & Hi). rewrite Hr in X1. injection X1 as <-.
  destruct (c15_run (new_dict_inv E c) (counters_new E) Hr) as [Hc _]. destruct (c15_step Hi Hc H) as [_ H2]. exact H2.
Qed.
