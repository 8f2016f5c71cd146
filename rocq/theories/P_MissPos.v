(** What a missing emission does to the part-of-speech tagger. *)
From Verif Require Import M_Env Ieee S_MissPos P_Pos2 P_Pos3 P_PosTab P_Emit M_Emit P_Laws64 P_MissR P_Miss.
From Coq Require Import Reals Lra Lia.
Set Implicit Arguments. Unset Strict Implicit.

Definition min_start (t : Z * Z * Z) : bool := (snd (fst t) =? -8081665415464805)%Z && (snd t =? 281)%Z.
Definition begins (y : Z) : bool := match state_hst y with HB | HS => true | _ => false end.
Lemma starts_split : forallb (fun t => min_start t ||
  begins (fst (fst t)) && leb64 (lit64 ieee (-64) 0) (lit64 ieee (snd (fst t)) (snd t)) && leb64 (lit64 ieee (snd (fst t)) (snd t)) (lit64 ieee 0 0)) start_tab = true.
Proof. vm_compute. reflexivity. Qed.
Lemma starts_all : (let ks := map (fun t => fst (fst t)) start_tab in forallb (fun y => inZ y ks) (map fst trans_tab) && forallb (fun c => forallb (fun y => inZ y ks) (snd c)) char_states) = true.
Proof. vm_compute. reflexivity. Qed.

Lemma f2_snoc : forall A B (R : A -> B -> Prop) l m a b, Forall2 R (l ++ [a]) (m ++ [b]) <-> Forall2 R l m /\ R a b.
Proof.
  intros A B R. induction l as [|x l IH]; intros m a b; split.
  - intro H. destruct m as [|y m]; [inversion H; auto|]. inversion H as [|? ? ? ? H1 H2]; subst. inversion H2. destruct m; discriminate.
  - intros [H1 H2]. inversion H1; subst. constructor; auto.
  - intro H. destruct m as [|y m]; [inversion H as [|? ? ? ? H1 H2]; subst; inversion H2; destruct l; discriminate|]. inversion H as [|? ? ? ? H1 H2]; subst. apply IH in H2 as [H2 H3]. auto.
  - intros [H1 H2]. inversion H1; subst. cbn [app]. constructor; auto. apply IH. auto.
Qed.
Lemma f2_rev : forall A B (R : A -> B -> Prop) l m, Forall2 R (rev l) (rev m) <-> Forall2 R l m.
Proof.
  intros A B R. induction l as [|x l IH]; intros [|y m]; cbn [rev]; try (split; intro H; [|inversion H]; auto; fail).
  - split; intro H; [|inversion H]. destruct (rev m); inversion H.
  - split; intro H; [|inversion H]. destruct (rev l); inversion H.
  - rewrite f2_snoc. split; [intros [H1 H2]; constructor; [exact H2|apply IH; exact H1]|]. intro H. inversion H; subst. split; [apply IH; assumption|assumption].
Qed.

Section T.
  Variable E : env.
  Variable HE : ar E = ieee.
  Variable em : Z -> rune -> option (f64 E).
  Variable Hem : tag_probs_ok em.
  Let tb := builtin em.
  Notation vl := (vl HE). Notation fn := (fn HE). Notation rng := (rng HE). Notation small := (small HE). Notation big := (big HE). Notation prob := (prob HE). Notation isM := (isM HE).
  Notation ok := (ok HE).

  Lemma le_prob : forall x : f64 E, le64 (lit64 E (-64) 0) x -> le64 x (lit64 E 0 0) -> prob x.
  Proof. intros x H1 H2. apply prob_le; [apply le_fn; assumption|auto]. Qed.
  Lemma emit_cases : forall y o, prob (emission tb y o) /\ em y o <> None \/ isM (emission tb y o) /\ em y o = None.
  Proof.
    intros y o. unfold emission, tb. cbn [builtin p_emit]. destruct (em y o) as [v|] eqn:Ev; [left|right].
    - split; [|discriminate]. destruct (Hem Ev). apply le_prob; assumption.
    - split; [apply isM_lit|reflexivity].
  Qed.
  Lemma step_prob : forall x y v, trans tb x y v -> prob v.
  Proof.
    intros x y v H. destruct (trans_row H) as (t & H1 & _ & -> & H3). pose proof rows_values as C. rewrite forallb_forall in C. specialize (C _ H3). cbn [snd] in C. rewrite forallb_forall in C. specialize (C _ H1).
    apply andb_prop in C as [C1 C2]. assert (K : forall A, A = ieee -> le64 (lit64 A (-64) 0) (lit64 A (snd (fst t)) (snd t)) /\ le64 (lit64 A (snd (fst t)) (snd t)) (lit64 A 0 0)).
    { intros A ->. split; [|apply leb_le; exact C2]. apply (le_trans64 ieee_laws64) with (lit64 ieee (-1) 4); [|apply leb_le; exact C1]. repeat split; vm_compute; reflexivity. }
    destruct (K _ HE). apply le_prob; assumption.
  Qed.
  Lemma in_starts : forall y, inZ y (map (fun t => fst (fst t)) start_tab) = true ->
    prob (p_start tb y) /\ begins y = true \/ isM (p_start tb y).
  Proof.
    intros y Hy. unfold tb. cbn [builtin p_start]. destruct (find (fun t => (fst (fst t) =? y)%Z) start_tab) as [t|] eqn:Ef.
    - apply find_some in Ef as [E1 E2]. apply Z.eqb_eq in E2. pose proof starts_split as C. rewrite forallb_forall in C. specialize (C _ E1). apply orb_prop in C as [C|C].
      + right. unfold min_start in C. apply andb_prop in C as [C1 C2]. apply Z.eqb_eq in C1, C2. rewrite C1, C2. apply isM_lit.
      + left. apply andb_prop in C as [C C3]. apply andb_prop in C as [C1 C2]. split; [|rewrite <- E2; exact C1].
        assert (K : forall A, A = ieee -> le64 (lit64 A (-64) 0) (lit64 A (snd (fst t)) (snd t)) /\ le64 (lit64 A (snd (fst t)) (snd t)) (lit64 A 0 0)) by (intros A ->; split; apply leb_le; assumption).
        destruct (K _ HE). apply le_prob; assumption.
    - exfalso. apply inZ_In in Hy. apply in_map_iff in Hy as (t & H1 & H2). apply (find_none _ _ Ef) in H2. cbn beta in H2. rewrite H1, Z.eqb_refl in H2. discriminate H2.
  Qed.
  Lemma allowed_start : forall o y, allowed tb o y -> prob (p_start tb y) /\ begins y = true \/ isM (p_start tb y).
  Proof.
    intros o y H. apply in_starts. pose proof starts_all as C. cbv zeta in C. apply andb_prop in C as [C1 C2]. unfold allowed, tb in H. cbn [builtin p_char p_keys] in H.
    destruct (assoc char_states o) as [l|] eqn:Ea.
    - apply assoc_in in Ea. rewrite forallb_forall in C2. specialize (C2 _ Ea). cbn [snd] in C2. rewrite forallb_forall in C2. exact (C2 _ H).
    - rewrite forallb_forall in C1. exact (C1 _ H).
  Qed.
  Lemma can_prob : forall y, prob (p_start tb y) -> can_start tb y.
  Proof.
    intros y H. unfold can_start. change (min_float E) with (lit64 E (-8081665415464805) 281). apply (lt_vl (proj1 (isM_lit HE)) (proj1 H)). exact (big_lt_small (prob_small H) (isM_big (isM_lit HE))).
  Qed.
  Lemma cannot_min : forall y, isM (p_start tb y) -> ~ can_start tb y.
  Proof.
    intros y [F H] C. unfold can_start in C. destruct (isM_lit HE) as [Fm Vm]. change (min_float E) with (lit64 E (-8081665415464805) 281) in C. apply (lt_vl Fm F) in C. lra.
  Qed.
  (** Paths, last to first. *)
  Definition clean_rev (os : list rune) (p : list Z) : Prop := can_start tb (last p 0%Z) /\ Forall2 (fun o y => em y o <> None) os p.
  Lemma add_emission : forall x y o, ok x -> ok (add64 E x (emission tb y o)) /\ (big x \/ em y o = None -> big (add64 E x (emission tb y o))) /\ (small x -> em y o <> None -> small (add64 E x (emission tb y o))).
  Proof.
    intros x y o H. destruct (emit_cases y o) as [[P N]|[M N]].
    - destruct (add_prob H P) as (H1 & H2 & H3). split; [exact H1|]. split; [intros [G|G]; [apply (H2 G)|congruence]|auto].
    - destruct (add_M H M) as (H1 & H2). split; [right; exact H1|]. split; [auto|congruence].
  Qed.
  Lemma vpath_cases : forall os p w, vpath tb os p w -> p <> [] /\ ok w /\ (clean_rev os p -> small w) /\ (small w -> clean_rev os p /\ begins (last p 0%Z) = true).
  Proof.
    intros os p w H. induction H as [o y Hs|o y os x p w v Hp IH Hs Ht].
    - split; [discriminate|]. cbn [state_set] in Hs. unfold clean_rev. cbn [last].
      assert (C : ok (emission tb y o) /\ (em y o = None -> big (emission tb y o)) /\ (em y o <> None -> small (emission tb y o))).
      { destruct (emit_cases y o) as [[P N]|[M N]]; [split; [left; exact (prob_small P)|split; [congruence|intros; exact (prob_small P)]]|]. split; [right; exact (isM_big M)|]. split; [intros; exact (isM_big M)|congruence]. }
      destruct C as (C1 & C2 & C3). destruct (allowed_start Hs) as [[P B]|M].
      + destruct (add_prob C1 P) as (A1 & A2 & A3). split; [exact A1|]. split.
        * intros [_ K]. inversion K; subst. apply A3, C3. assumption.
        * intro Sm. split; [|exact B]. split; [apply can_prob; exact P|]. constructor; [|constructor]. intro N. destruct (A2 (C2 N)) as [_ G]. pose proof (big_lt_small Sm G). lra.
      + destruct (add_M C1 M) as (A1 & A2). split; [right; exact A1|]. split; [intros [G _]; destruct (cannot_min M G)|]. intro Sm. pose proof (big_lt_small Sm A1). lra.
    - destruct IH as (_ & I1 & I2 & I3). split; [discriminate|]. destruct (add_prob I1 (step_prob Ht)) as (A1 & A2 & A3). destruct (add_emission y o A1) as (B1 & B2 & B3). split; [exact B1|].
      change (last (y :: x :: p) 0%Z) with (last (x :: p) 0%Z). unfold clean_rev in *. change (last (y :: x :: p) 0%Z) with (last (x :: p) 0%Z). split.
      + intros [K1 K2]. inversion K2 as [|? ? ? ? K3 K4]; subst. apply B3; [apply A3, I2; auto|exact K3].
      + intro Sm. assert (Nb : ~ big (add64 E (add64 E w v) (emission tb y o))) by (intro G; pose proof (big_lt_small Sm G); lra).
        destruct I1 as [I1|I1]; [|destruct Nb; apply B2; left; apply A2, I1]. destruct (I3 I1) as [[K1 K2] K3]. split; [|exact K3]. split; [exact K1|]. constructor; [|exact K2]. intro N. apply Nb, B2. auto.
  Qed.
  Lemma clean_iff : forall obs q, q <> [] -> clean_path tb obs q <-> clean_rev (rev obs) (rev q).
  Proof.
    intros obs [|y q] Hne; [congruence|]. unfold clean_path, clean_rev. cbn [rev]. rewrite last_last. change (rev q ++ [y]) with (rev (y :: q)). rewrite f2_rev. split.
    - intros [(y' & ys & H1 & H2) H3]. injection H1 as <- <-. auto.
    - intros [H1 H2]. split; [exists y, q; auto|exact H2].
  Qed.
  Lemma tag_emit_ok : emit_ok em.
  Proof.
    intros y o v H. destruct (Hem H) as [H1 H2]. split; [|exact H2]. change (min_float E) with (lit64 E (-8081665415464805) 281). assert (L : laws64 E) by (rewrite HE; exact ieee_laws64). apply (le_trans64 L) with (lit64 E (-64) 0); [|exact H1].
    assert (K : forall A, A = ieee -> le64 (lit64 A (-8081665415464805) 281) (lit64 A (-64) 0)) by (intros A ->; repeat split; vm_compute; reflexivity). exact (K _ HE).
  Qed.
  Lemma c101 : forall od obs q v, orders_ok od -> vpath tb (rev obs) (rev q) v -> clean_path tb obs q ->
    exists path, pos_viterbi tb od obs = Ok path /\ clean_path tb obs path /\ (forall y ys, path = y :: ys -> state_hst y = HB \/ state_hst y = HS).
  Proof.
    intros od obs q v Ho Hq Hc. assert (Hne : obs <> []) by (intros ->; cbn [rev] in Hq; inversion Hq).
    destruct (viterbi_ok HE (builtin_ok HE tag_emit_ok) Ho Hne) as (path & w & H1 & H2 & H3). exists path. split; [exact H1|].
    destruct (vpath_cases Hq) as (N1 & O1 & S1 & _). assert (Hq0 : q <> []) by (intros ->; apply N1; reflexivity). apply (clean_iff obs Hq0) in Hc. specialize (S1 Hc).
    destruct (vpath_cases H2) as (N2 & O2 & _ & S2). assert (Hp0 : path <> []) by (intros ->; apply N2; reflexivity).
    destruct (H3 _ _ Hq) as [B _]. destruct O2 as [O2|O2].
    - destruct (S2 O2) as [K1 K2]. split; [apply (clean_iff obs Hp0); exact K1|]. intros y ys ->. cbn [rev] in K2. rewrite last_last in K2. unfold begins in K2. destruct (state_hst y); auto; discriminate K2.
    - exfalso. apply (le_vl (proj1 S1) (proj1 O2)) in B. pose proof (big_lt_small S1 O2). lra.
  Qed.
End T.

Lemma tag_def_probs : forall (E : env), ar E = ieee -> tag_probs_ok (pos_def_emit E).
Proof.
  intros E HE y r v H. assert (P : prob HE v); [|exact (proj1 (prob_le (proj1 P)) P)].
  revert H. unfold pos_def_emit, emit_lit. destruct (emit_find (pos_table y) r) as [n|] eqn:Ef; [|discriminate]. intro H. injection H as <-. apply pos_find_ok in Ef. destruct (const_val Ef) as (V1 & V2).
  assert (G : forall A (H : A = ieee), prob H (lit64 A (fst (const_float n)) (snd (const_float n)))); [|apply G].
  intros A H. subst A. unfold prob, fn, vl, cast. cbn [lit64 ieee]. split; [exact V1|lra].
Qed.
