(** Package pos: the Viterbi algorithm (C36, C37, C64). *)
From Verif Require Import S_Pos P_Laws64 Ieee.
Set Implicit Arguments. Unset Strict Implicit.

(** ** The largest of a set of candidates *)
Section Max.
  Variable E : env.
  Hypothesis L : laws64 E.

  Definition le_ps (p q : f64 E * Z) : Prop := le64 (fst p) (fst q) /\ (eqb64 E (fst p) (fst q) = true -> (snd p <= snd q)%Z).

  Lemma eq_sym : forall x y : f64 E, eqb64 E x y = true -> eqb64 E y x = true.
  Proof. intros x y H. destruct (eq_le64 L H). apply (le_anti64 L); assumption. Qed.

  Lemma le_ps_refl : forall a, num64 (fst a) -> le_ps a a.
  Proof. intros a H. split; [apply (le_refl64 L); exact H|lia]. Qed.

  Lemma le_ps_trans : forall a b c, le_ps a b -> le_ps b c -> le_ps a c.
  Proof.
    intros a b c [H1 H2] [H3 H4]. split; [eapply (le_trans64 L); eassumption|]. intro He. destruct (eq_le64 L He) as [_ Hca].
    assert (eqb64 E (fst a) (fst b) = true) by (apply (le_anti64 L); [assumption|eapply (le_trans64 L); eassumption]).
    assert (eqb64 E (fst b) (fst c) = true) by (apply (le_anti64 L); [assumption|eapply (le_trans64 L); eassumption]).
    specialize (H2 H). specialize (H4 H0). lia.
  Qed.

  Lemma pmax_ge : forall a b : f64 E * Z, num64 (fst a) -> num64 (fst b) -> le_ps a (pmax a b) /\ le_ps b (pmax a b).
  Proof.
    intros a b Ha Hb. unfold pmax. destruct (ltb64 E (fst a) (fst b)) eqn:El; cbn [orb].
    - split; [|apply le_ps_refl; exact Hb]. split; [apply (lt_le64 L); exact El|]. intro He. destruct (eq_le64 L He) as [_ (_ & _ & Hx)]. congruence.
    - destruct (eqb64 E (fst b) (fst a)) eqn:Ee; cbn [andb].
      + destruct (eq_le64 L Ee). destruct (Z.ltb_spec (snd a) (snd b)).
        * split; [|apply le_ps_refl; exact Hb]. split; [assumption|lia].
        * split; [apply le_ps_refl; exact Ha|]. split; [assumption|lia].
      + split; [apply le_ps_refl; exact Ha|]. split; [split; [exact Hb|split; [exact Ha|exact El]]|]. intro He. congruence.
  Qed.

  Lemma fold_max : forall (l : list (f64 E * Z)) a, num64 (fst a) -> Forall (fun p => num64 (fst p)) l ->
    In (fold_left (@pmax E) l a) (a :: l) /\ Forall (fun p => le_ps p (fold_left (@pmax E) l a)) (a :: l).
  Proof.
    induction l as [|b l IH]; intros a Ha Hl; cbn [fold_left].
    - split; [left; reflexivity|]. constructor; [apply le_ps_refl; exact Ha|constructor].
    - inversion_clear Hl. assert (Hp : pmax a b = a \/ pmax a b = b) by (unfold pmax; destruct (_ || _); auto).
      destruct (IH (pmax a b)) as [K1 K2]; [destruct Hp as [-> | ->]; assumption|assumption|].
      destruct (pmax_ge Ha H) as [G1 G2]. inversion_clear K2. split.
      + destruct K1 as [K1|K1]; [rewrite <- K1; destruct Hp as [-> | ->]; [left|right; left]; reflexivity|right; right; exact K1].
      + constructor; [eapply le_ps_trans; eassumption|]. constructor; [eapply le_ps_trans; eassumption|assumption].
  Qed.

  Definition argmax (f : Z -> f64 E) (l : list Z) : f64 E * Z :=
    match map (fun y => (f y, y)) l with [] => (lit64 E 0 0, 0%Z) | a :: l => fold_left (@pmax E) l a end.

  Lemma argmax_ok : forall f l, l <> [] -> (forall y, In y l -> num64 (f y)) ->
    In (snd (argmax f l)) l /\ fst (argmax f l) = f (snd (argmax f l)) /\ forall y, In y l -> le_ps (f y, y) (argmax f l).
  Proof.
    intros f [|a l] Hne Hn; [congruence|]. unfold argmax. cbn [map].
    destruct (@fold_max (map (fun y => (f y, y)) l) (f a, a)) as [H1 H2].
    - apply Hn. left. reflexivity.
    - apply Forall_forall. intros p Hp. apply in_map_iff in Hp as (y & <- & Hy). apply Hn. right. exact Hy.
    - set (r := fold_left (@pmax E) (map (fun y => (f y, y)) l) (f a, a)) in *. change (In r (map (fun y => (f y, y)) (a :: l))) in H1.
      change (Forall (fun p => le_ps p r) (map (fun y => (f y, y)) (a :: l))) in H2. apply in_map_iff in H1 as (y & Hy & Hi). rewrite <- Hy. cbn [fst snd].
      split; [exact Hi|]. split; [reflexivity|]. intros z Hz. rewrite Hy. rewrite Forall_forall in H2. apply H2. apply in_map_iff. exists z. auto.
  Qed.

  (** The result depends only on the set. *)
  Lemma argmax_set : forall f f' l l', (forall y, In y l <-> In y l') -> (forall y, In y l -> num64 (f y) /\ f y = f' y) -> argmax f l = argmax f' l'.
  Proof.
    intros f f' l l' Hs Hf. destruct l as [|a l].
    - destruct l' as [|b l']; [reflexivity|]. destruct (proj2 (Hs b) (or_introl eq_refl)).
    - assert (Hl' : l' <> []) by (intros ->; destruct (proj1 (Hs a) (or_introl eq_refl))).
      destruct (@argmax_ok f (a :: l)) as (H1 & H2 & H3); [discriminate|intros; apply Hf; assumption|].
      destruct (@argmax_ok f' l' Hl') as (K1 & K2 & K3); [intros y Hy; apply Hs in Hy; destruct (Hf y Hy) as [? <-]; assumption|].
      set (r := argmax f (a :: l)) in *. set (r' := argmax f' l') in *. destruct (Hf _ H1) as [_ E1]. destruct (Hf _ (proj2 (Hs _) K1)) as [_ E2].
      specialize (H3 _ (proj2 (Hs _) K1)). specialize (K3 _ (proj1 (Hs _) H1)). rewrite E2, <- K2, <- surjective_pairing in H3. rewrite <- E1, <- H2, <- surjective_pairing in K3.
      destruct H3 as [L1 T1], K3 as [L2 T2]. pose proof (le_anti64 L L1 L2) as Q. pose proof (T1 Q). pose proof (T2 (eq_sym Q)).
      assert (Es : snd r = snd r') by lia. rewrite (surjective_pairing r), (surjective_pairing r'). rewrite H2, K2, Es. rewrite Es in E1. rewrite E1. reflexivity.
  Qed.
End Max.

(** ** Sets of states *)
Section V.
  Variable E : env.
  Hypothesis HE : ar E = ieee.
  Variable tb : ptab E.

  Lemma lawsE : laws64 E.
  Proof. rewrite HE. exact ieee_laws64. Qed.

  Lemma consts : neg64 (min_float E) /\ neg64 (neg_inf E) /\ neg64 (lit64 E 0 0).
  Proof. unfold neg64, neg_inf, min_float, le64, num64. rewrite HE. vm_compute. repeat split. Qed.

  Lemma inZ_In : forall y l, inZ y l = true <-> In y l.
  Proof. intros y l. unfold inZ. rewrite existsb_exists. split; [intros (x & H & He); apply Z.eqb_eq in He; subst; exact H|intro H; exists y; split; [exact H|apply Z.eqb_refl]]. Qed.

  Lemma char_in : forall od o y, orders_ok od -> (In y (char_get tb od o) <-> allowed tb o y).
  Proof.
    intros od o y (Hk & _). unfold char_get, allowed. destruct (p_char tb o); [reflexivity|]. split; intro H.
    - eapply Permutation_in; [apply Permutation_sym, Hk|exact H].
    - eapply Permutation_in; [apply Hk|exact H].
  Qed.

  Lemma prev_in : forall od t c x, orders_ok od -> (In x (prev_states tb od t c) <-> In x (k_keys c) /\ p_trans tb x <> []).
  Proof.
    intros od t c x (_ & Hp & _). unfold prev_states. rewrite filter_In. split; intros [H1 H2].
    - split; [eapply Permutation_in; [apply Permutation_sym, Hp|exact H1]|]. destruct (p_trans tb x); [discriminate|discriminate].
    - split; [eapply Permutation_in; [apply Hp|exact H1]|]. destruct (p_trans tb x); [congruence|reflexivity].
  Qed.

  Lemma next_in : forall prev y, In y (expect_next tb prev) <-> exists x v, In x prev /\ trans tb x y v.
  Proof.
    intros prev y. unfold expect_next. rewrite nodup_In, in_flat_map. split.
    - intros (x & H1 & H2). apply in_map_iff in H2 as ((y', v) & H2 & H3). cbn in H2. subst y'. exists x, v. auto.
    - intros (x & v & H1 & H2). exists x. split; [exact H1|]. apply in_map_iff. exists (y, v). auto.
  Qed.

  Lemma obs_in : forall od t prev o y, orders_ok od -> let nexts := expect_next tb prev in
    (In y (obs_states tb od t prev o) <->
      (allowed tb o y /\ In y nexts) \/ ((forall z, allowed tb o z -> ~ In z nexts) /\ In y nexts) \/ ((forall z, ~ In z nexts) /\ In y (p_keys tb))).
  Proof.
    intros od t prev o y Ho nexts. unfold obs_states. fold nexts. pose proof (char_in o y Ho) as Hc.
    assert (Hf : forall z, In z (filter (fun y => inZ y nexts) (char_get tb od o)) <-> allowed tb o z /\ In z nexts) by (intro z; rewrite filter_In, inZ_In, (char_in o z Ho); reflexivity).
    destruct (filter (fun y => inZ y nexts) (char_get tb od o)) as [|a l].
    - assert (Hno : forall z, allowed tb o z -> ~ In z nexts) by (intros z H1 H2; apply (proj2 (Hf z)); auto).
      destruct Ho as (Hk & _ & Hn & _). pose proof (Hn t nexts) as P. destruct (o_next od t nexts) as [|b l'] eqn:En.
      + apply Permutation_sym, Permutation_nil in P. rewrite P in *. pose proof (Hk (p_keys tb)) as Pk. split.
        * intro H. right. right. split; [auto|]. eapply Permutation_in; [apply Permutation_sym; exact Pk|exact H].
        * intros [[_ []]|[[_ []]|[_ H]]]. eapply Permutation_in; [exact Pk|exact H].
      + split.
        * intro H. right. left. split; [exact Hno|]. eapply Permutation_in; [apply Permutation_sym; exact P|exact H].
        * intros [[H1 H2]|[[_ H]|[H _]]]; [destruct (Hno _ H1 H2)|eapply Permutation_in; [exact P|exact H]|].
          destruct (H b). eapply Permutation_in; [apply Permutation_sym; exact P|left; reflexivity].
    - rewrite Hf. split; [auto|]. intros [H|[[H _]|[H _]]]; [exact H| |].
      + destruct (proj1 (Hf a) (or_introl eq_refl)) as [H1 H2]. destruct (H _ H1 H2).
      + destruct (proj1 (Hf a) (or_introl eq_refl)) as [_ H2]. destruct (H _ H2).
  Qed.

  Definition score (v : Z -> f64 E) (y : Z) (o : rune) (x : Z) : f64 E := add64 E (add64 E (v x) (trans_get tb x y)) (emit_get tb y o).
  Lemma best_argmax : forall v prev y o, best_prev tb v prev y o = argmax (score v y o) prev.
  Proof. reflexivity. Qed.
  Lemma memo_eq : forall A ys (f : Z -> A) z y, memo ys f z y = if inZ y ys then f y else z.
  Proof.
    intros A ys f z y. unfold memo. induction ys as [|x ys IH]; [reflexivity|]. cbn [map assoc inZ existsb]. rewrite (Z.eqb_sym y x).
    destruct (Z.eqb_spec x y) as [->|]; [reflexivity|]. exact IH.
  Qed.
  Lemma last_argmax : forall od (c : column E), last_state_of od c = match o_last od (k_keys c) with [] => None | l => Some (snd (argmax (k_v c) l)) end.
  Proof. intros od c. unfold last_state_of, argmax. destruct (o_last od (k_keys c)); reflexivity. Qed.

  Section Log.
    Hypothesis Hlog : log_tables tb.

    Lemma neg_num : forall x : f64 E, neg64 x -> num64 x.
    Proof. intros x [H _]. exact H. Qed.
    Lemma neg_add : forall x y : f64 E, neg64 x -> neg64 y -> neg64 (add64 E x y).
    Proof. intros x y. apply (neg_add64 lawsE). Qed.

    Lemma assoc_in : forall A (l : list (Z * A)) k v, assoc l k = Some v -> In (k, v) l.
    Proof.
      induction l as [|[k' a] l IH]; intros k v H; [discriminate|]. cbn [assoc] in H. destruct (Z.eqb_spec k' k); [injection H as <-; subst; left; reflexivity|right; auto].
    Qed.
    Lemma trans_neg : forall x y, neg64 (trans_get tb x y).
    Proof. intros x y. unfold trans_get. destruct (assoc (p_trans tb x) y) eqn:Ea; [|apply consts]. destruct Hlog as (_ & _ & H). apply (H x y). exact (assoc_in Ea). Qed.
    Lemma emit_neg : forall y o, neg64 (emit_get tb y o).
    Proof. intros y o. unfold emit_get. destruct Hlog as (_ & H & _). destruct (p_emit tb y o) eqn:Ee; [eapply H; exact Ee|apply consts]. Qed.
    Lemma score_neg : forall v y o x, neg64 (v x) -> neg64 (score v y o x).
    Proof. intros. unfold score. repeat apply neg_add; auto using trans_neg, emit_neg. Qed.

    Definition col_neg (c : column E) : Prop := forall y, neg64 (k_v c y).
    Lemma init_neg : forall od o, col_neg (pos_init tb od o).
    Proof. intros od o y. cbn [pos_init k_v]. rewrite memo_eq. destruct (inZ _ _); [|apply consts]. apply neg_add; [apply emit_neg|apply Hlog]. Qed.
    Lemma argmax_neg : forall (f : Z -> f64 E) l, (forall y, neg64 (f y)) -> neg64 (fst (argmax f l)).
    Proof.
      intros f l H. destruct l as [|a l]; [apply consts|]. destruct (@argmax_ok E lawsE f (a :: l)) as (_ & -> & _); [discriminate|intros; apply neg_num, H|apply H].
    Qed.
    Lemma step_neg : forall od t c o, col_neg c -> col_neg (pos_step tb od t c o).
    Proof.
      intros od t c o H y. cbn [pos_step k_v]. rewrite memo_eq. destruct (inZ _ _); [|apply consts]. rewrite best_argmax. apply argmax_neg. intro x. apply score_neg, H.
    Qed.

    (** ** C37 *)
    Definition col_eq (c c' : column E) : Prop :=
      (forall y, In y (k_keys c) <-> In y (k_keys c')) /\ (forall y, k_v c y = k_v c' y) /\ (forall y, k_m c y = k_m c' y).

    Lemma inZ_eq : forall y l l', (In y l <-> In y l') -> inZ y l = inZ y l'.
    Proof. intros y l l' H. destruct (inZ y l) eqn:E1, (inZ y l') eqn:E2; auto; [apply inZ_In, H, inZ_In in E1|apply inZ_In, H, inZ_In in E2]; congruence. Qed.

    Variables od od' : orders.
    Hypothesis Ho : orders_ok od.
    Hypothesis Ho' : orders_ok od'.

    Lemma init_eq : forall o, col_eq (pos_init tb od o) (pos_init tb od' o).
    Proof.
      intro o. assert (H : forall y, In y (char_get tb od o) <-> In y (char_get tb od' o)) by (intro y; rewrite !char_in by assumption; reflexivity).
      split; [|split]; cbn [pos_init k_keys k_v k_m]; intros y; [rewrite !nodup_In; apply H|rewrite !memo_eq, (inZ_eq (H y)); reflexivity|reflexivity].
    Qed.

    Lemma step_eq : forall t c c' o, col_neg c -> col_eq c c' -> col_eq (pos_step tb od t c o) (pos_step tb od' t c' o).
    Proof.
      intros t c c' o Hn (H1 & H2 & H3).
      assert (Hp : forall x, In x (prev_states tb od t c) <-> In x (prev_states tb od' t c')) by (intro x; rewrite !prev_in, H1 by assumption; reflexivity).
      assert (Hx : forall y, In y (expect_next tb (prev_states tb od t c)) <-> In y (expect_next tb (prev_states tb od' t c'))) by (intro y; rewrite !next_in; setoid_rewrite Hp; reflexivity).
      assert (Hob : forall y, In y (obs_states tb od t (prev_states tb od t c) o) <-> In y (obs_states tb od' t (prev_states tb od' t c') o)) by (intro y; rewrite !obs_in by assumption; cbv zeta; setoid_rewrite Hx; reflexivity).
      assert (Hb : forall y, best_prev tb (k_v c) (prev_states tb od t c) y o = best_prev tb (k_v c') (prev_states tb od' t c') y o).
      { intro y. rewrite !best_argmax. apply (argmax_set lawsE); [exact Hp|]. intros x _. split; [apply neg_num, score_neg, Hn|unfold score; rewrite H2; reflexivity]. }
      split; [|split]; cbn [pos_step k_keys k_v k_m]; intros y; [rewrite !nodup_In; apply Hob| |]; rewrite !memo_eq, (inZ_eq (Hob y)), Hb; reflexivity.
    Qed.

    Lemma cols_eq : forall obs t c c' acc acc', col_neg c -> col_eq c c' -> Forall2 col_eq acc acc' -> 
      Forall2 col_eq (pos_cols tb od t c obs acc) (pos_cols tb od' t c' obs acc').
    Proof.
      induction obs as [|o obs IH]; intros t c c' acc acc' Hn Hc Ha; cbn [pos_cols]; [exact Ha|].
      apply IH; [apply step_neg; exact Hn|apply step_eq; assumption|constructor; [apply step_eq; assumption|exact Ha]].
    Qed.

    Lemma cols_neg : forall obs t c acc, col_neg c -> Forall col_neg acc -> Forall col_neg (pos_cols tb od t c obs acc).
    Proof. induction obs as [|o obs IH]; intros t c acc Hn Ha; cbn [pos_cols]; [exact Ha|]. apply IH; [|constructor; [|exact Ha]]; apply step_neg; exact Hn. Qed.

    Lemma route_eq : forall cols cols', Forall2 col_eq cols cols' -> forall s r, pos_route cols s r = pos_route cols' s r.
    Proof. intros cols cols' H. induction H as [|c c' cols cols' (_ & _ & Hm) H IH]; intros s r; [reflexivity|]. cbn [pos_route]. rewrite Hm. apply IH. Qed.

    Lemma c37 : forall obs, pos_viterbi tb od obs = pos_viterbi tb od' obs.
    Proof.
      intros [|o obs]; [reflexivity|]. unfold pos_viterbi. pose proof (init_eq o) as Hi. pose proof (init_neg od o) as Hn.
      set (c0 := pos_init tb od o) in *. set (c0' := pos_init tb od' o) in *.
      assert (H : Forall2 col_eq (pos_cols tb od 1 c0 obs [c0]) (pos_cols tb od' 1 c0' obs [c0'])) by (apply cols_eq; auto).
      assert (Hng : Forall col_neg (pos_cols tb od 1 c0 obs [c0])) by (apply cols_neg; auto).
      assert (Hh : col_eq (hd c0 (pos_cols tb od 1 c0 obs [c0])) (hd c0' (pos_cols tb od' 1 c0' obs [c0'])) /\ col_neg (hd c0 (pos_cols tb od 1 c0 obs [c0]))).
      { destruct H; cbn [hd]; [auto|]. inversion_clear Hng. auto. }
      destruct Hh as [(K1 & K2 & K3) Hnh]. rewrite !last_argmax.
      assert (Ks : forall y, In y (o_last od (k_keys (hd c0 (pos_cols tb od 1 c0 obs [c0])))) <-> In y (o_last od' (k_keys (hd c0' (pos_cols tb od' 1 c0' obs [c0']))))).
      { intro y. destruct Ho as (_ & _ & _ & P). destruct Ho' as (_ & _ & _ & P'). split; intro Hy.
        - eapply Permutation_in; [apply P'|]. apply K1. eapply Permutation_in; [apply Permutation_sym, P|exact Hy].
        - eapply Permutation_in; [apply P|]. apply K1. eapply Permutation_in; [apply Permutation_sym, P'|exact Hy]. }
      pose proof (argmax_set lawsE (f := k_v (hd c0 (pos_cols tb od 1 c0 obs [c0]))) (f' := k_v (hd c0' (pos_cols tb od' 1 c0' obs [c0']))) Ks (fun y _ => conj (neg_num (Hnh y)) (K2 y))) as Ha.
      destruct (o_last od _) as [|a l], (o_last od' _) as [|b l']; [reflexivity|destruct (proj2 (Ks b) (or_introl eq_refl))|destruct (proj1 (Ks a) (or_introl eq_refl))|].
      rewrite Ha. f_equal. apply route_eq. exact H.
    Qed.
  End Log.
End V.
