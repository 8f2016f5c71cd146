(** Package pos: the path the Viterbi algorithm finds (C36, C64). *)
From Verif Require Import S_Pos P_Laws64 P_Pos2 Ieee.
Set Implicit Arguments. Unset Strict Implicit.

Section V.
  Variable E : env.
  Hypothesis HE : ar E = ieee.
  Variable tb : ptab E.

  (** Bounds: transitions in [-16, 0], emissions and start probabilities in [-3.14e100, 0]; sums stay in [-2^400, 0]. *)
  Definition low : f64 E := lit64 E (-1) 400.
  Definition tlow : f64 E := lit64 E (-1) 4.
  Definition between (a x : f64 E) : Prop := le64 a x /\ neg64 x.

  Record tab_ok : Prop := {
    ok_nodup : forall x, NoDup (map fst (p_trans tb x));
    ok_allowed : forall o, exists y, allowed tb o y /\ p_trans tb y <> [];
    ok_live : forall x y v, trans tb x y v -> p_trans tb y <> [];
    ok_trans : forall x y v, trans tb x y v -> between tlow v;
    ok_start : forall y, between (min_float E) (p_start tb y);
    ok_emit : forall y o v, p_emit tb y o = Some v -> between (min_float E) v
  }.
  Hypothesis T : tab_ok.
  Let L := lawsE HE.

  Lemma tab_log : log_tables tb.
  Proof. split; [|split]; [intro y; apply (ok_start T y)|intros y o v H; apply (ok_emit T H)|intros x y v H; apply (ok_trans T H)]. Qed.

  Lemma bnum : forall a x : f64 E, between a x -> num64 x.
  Proof. intros a x [_ H]. exact (neg_num H). Qed.

  Lemma emit_between : forall y o, between (min_float E) (emit_get tb y o).
  Proof.
    intros y o. unfold emit_get. destruct (p_emit tb y o) eqn:Ee; [apply (ok_emit T Ee)|]. split; [|apply (consts HE)]. apply (le_refl64 L). apply neg_num, (consts HE).
  Qed.

  Lemma const_neg : neg64 low /\ neg64 tlow.
  Proof. unfold neg64, low, tlow, le64, num64. rewrite HE. vm_compute. repeat split. Qed.
  Lemma low_t : le64 low (add64 E low tlow).
  Proof. unfold low, tlow, le64, num64. rewrite HE. vm_compute. repeat split. Qed.
  Lemma low_e : le64 low (add64 E low (min_float E)).
  Proof. unfold low, min_float, le64, num64. rewrite HE. vm_compute. repeat split. Qed.
  Lemma low_s : le64 low (add64 E (min_float E) (min_float E)).
  Proof. unfold low, min_float, le64, num64. rewrite HE. vm_compute. repeat split. Qed.
  Lemma inf_low : ltb64 E (add64 E (add64 E (lit64 E 0 0) (neg_inf E)) (lit64 E 0 0)) low = true.
  Proof. unfold neg_inf, low. rewrite HE. vm_compute. reflexivity. Qed.

  Lemma add_mono : forall a b x y : f64 E, neg64 a -> neg64 b -> le64 a x -> le64 b y -> neg64 x -> neg64 y -> le64 (add64 E a b) (add64 E x y).
  Proof.
    intros a b x y Ha Hb Hax Hby Hx Hy. apply (le_trans64 L) with (add64 E x b).
    - apply (add_l64 L); auto; apply neg_num, neg_add; auto.
    - apply (add_r64 L); auto; apply neg_num, neg_add; auto.
  Qed.

  Lemma trans_assoc : forall x y v, trans tb x y v -> assoc (p_trans tb x) y = Some v.
  Proof.
    intros x y v H. pose proof (ok_nodup T x) as Hn. unfold trans in H. induction (p_trans tb x) as [|[y' v'] l IH]; [destruct H|].
    cbn [assoc]. cbn [map fst] in Hn. inversion_clear Hn. destruct H as [H|H].
    - injection H as -> ->. rewrite Z.eqb_refl. reflexivity.
    - destruct (Z.eqb_spec y' y) as [->|]; [|auto]. destruct H0. apply in_map_iff. exists (y, v). auto.
  Qed.

  Lemma score_edge : forall v x y o w, between low (v x) -> trans tb x y w -> between low (score tb v y o x) /\ score tb v y o x = add64 E (add64 E (v x) w) (emit_get tb y o).
  Proof.
    intros v x y o w [Hv1 Hv2] Ht. assert (Hs : score tb v y o x = add64 E (add64 E (v x) w) (emit_get tb y o)) by (unfold score, trans_get; rewrite (trans_assoc Ht); reflexivity).
    split; [|exact Hs]. split; [|apply (score_neg HE tab_log); exact Hv2]. rewrite Hs. destruct (ok_trans T Ht) as [T1 T2]. destruct (emit_between y o) as [E1 E2]. destruct const_neg as [C1 C2].
    assert (H1 : le64 low (add64 E (v x) w)) by (eapply (le_trans64 L); [exact low_t|]; apply add_mono; auto).
    eapply (le_trans64 L); [exact low_e|]. apply add_mono; auto; [apply (consts HE)|apply neg_add; auto].
  Qed.

  Lemma score_none : forall v x y o, neg64 (v x) -> (forall w, ~ trans tb x y w) -> ltb64 E (score tb v y o x) low = true.
  Proof.
    intros v x y o Hv Hn. assert (Ha : assoc (p_trans tb x) y = None).
    { destruct (assoc (p_trans tb x) y) as [w|] eqn:Ea; [|reflexivity]. destruct (Hn w). exact (assoc_in Ea). }
    unfold score, trans_get. rewrite Ha. destruct (consts HE) as (C1 & C2 & C3).
    assert (H : le64 (add64 E (add64 E (v x) (neg_inf E)) (emit_get tb y o)) (add64 E (add64 E (lit64 E 0 0) (neg_inf E)) (lit64 E 0 0))).
    { pose proof (emit_neg HE tab_log y o). apply add_mono; auto; try (apply neg_add; auto). apply add_mono; auto. apply (le_refl64 L), neg_num; auto. }
    pose proof inf_low as Hi. set (z := add64 E (add64 E (lit64 E 0 0) (neg_inf E)) (lit64 E 0 0)) in *. set (u := add64 E (add64 E (v x) (neg_inf E)) (emit_get tb y o)) in *.
    destruct (ltb64 E u low) eqn:El; [reflexivity|]. exfalso.
    assert (le64 low u) by (split; [apply neg_num; apply const_neg|split; [apply H|exact El]]).
    pose proof (le_trans64 L H0 H) as (_ & _ & Hc). congruence.
  Qed.

  (** The states of the path ending in [s], last first. *)
  Fixpoint rroute (cols : list (column E)) (s : Z) : list Z :=
    match cols with [] => [] | c :: cols' => s :: rroute cols' (k_m c s) end.
  Lemma route_rev : forall cols s r, pos_route cols s r = rev (rroute cols s) ++ r.
  Proof. induction cols as [|c cols IH]; intros s r; [reflexivity|]. cbn [pos_route rroute rev]. rewrite IH, <- app_assoc. reflexivity. Qed.

  Record cols_ok (os : list rune) (cols : list (column E)) (c : column E) : Prop := {
    co_keys : forall y, In y (k_keys c) <-> state_set tb os y;
    co_live : exists y, In y (k_keys c) /\ p_trans tb y <> [];
    co_path : forall y, state_set tb os y -> exists p, rroute cols y = y :: p /\ vpath tb os (y :: p) (k_v c y);
    co_best : forall y p w, vpath tb os (y :: p) w -> le64 w (k_v c y);
    co_low : forall y, state_set tb os y -> between low (k_v c y)
  }.

  Variable od : orders.
  Hypothesis Ho : orders_ok od.

  Lemma vpath_last : forall os p w, vpath tb os p w -> exists y q, p = y :: q /\ state_set tb os y.
  Proof. intros os p w H. destruct H; eauto. Qed.

  Lemma init_ok : forall o, cols_ok [o] [pos_init tb od o] (pos_init tb od o).
  Proof.
    intro o. set (c := pos_init tb od o).
    assert (Hk : forall y, In y (k_keys c) <-> state_set tb [o] y) by (intro y; unfold c; cbn [pos_init k_keys state_set]; rewrite nodup_In; apply char_in; exact Ho).
    assert (Hv : forall y, state_set tb [o] y -> k_v c y = add64 E (emission tb y o) (p_start tb y)).
    { intros y Hy. unfold c. cbn [pos_init k_v]. rewrite memo_eq, (proj2 (inZ_In y _)); [reflexivity|]. apply (char_in tb o y Ho). exact Hy. }
    constructor; auto.
    - destruct (ok_allowed T o) as (y & H1 & H2). exists y. split; [apply Hk; exact H1|exact H2].
    - intros y Hy. exists []. split; [reflexivity|]. rewrite (Hv y Hy). constructor. exact Hy.
    - intros y p w H. inversion H as [o' y' Hs|o' y' os' x p' w' v Hx]; subst; [|inversion Hx]. rewrite (Hv y Hs). apply (le_refl64 L). eapply neg_num, neg_add; [exact HE|apply (emit_between y o)|apply (ok_start T)].
    - intros y Hy. rewrite (Hv y Hy). change (emission tb y o) with (emit_get tb y o). destruct (emit_between y o) as [E1 E2]. destruct (ok_start T y) as [S1 S2].
      split; [|apply neg_add; auto]. eapply (le_trans64 L); [exact low_s|]. apply add_mono; auto; apply (consts HE).
  Qed.

  Lemma step_ok : forall os t cols c o, os <> [] -> cols_ok os cols c -> cols_ok (o :: os) (pos_step tb od t c o :: cols) (pos_step tb od t c o).
  Proof.
    intros os t cols c o Hne [Hk Hl Hp Hb Hlow]. set (prev := prev_states tb od t c). set (c' := pos_step tb od t c o).
    assert (Hprev : forall x, In x prev <-> state_set tb os x /\ p_trans tb x <> []) by (intro x; unfold prev; rewrite prev_in, Hk by exact Ho; reflexivity).
    assert (Hnext : forall y, In y (expect_next tb prev) <-> exists x v, state_set tb os x /\ trans tb x y v).
    { intro y. rewrite next_in. split; intros (x & v & H1 & H2); exists x, v; split; auto; [apply Hprev; exact H1|]. apply Hprev. split; [exact H1|]. intro Hc. unfold trans in H2. rewrite Hc in H2. destruct H2. }
    assert (Hsome : exists y, In y (expect_next tb prev)).
    { destruct Hl as (x & H1 & H2). destruct (p_trans tb x) as [|[y v] l] eqn:Et; [congruence|]. exists y. apply Hnext. exists x, v. split; [apply Hk; exact H1|]. unfold trans. rewrite Et. left. reflexivity. }
    assert (Hset : forall y, state_set tb (o :: os) y <-> (exists x v, state_set tb os x /\ trans tb x y v) /\
              (allowed tb o y \/ forall z x v, allowed tb o z -> state_set tb os x -> ~ trans tb x z v)) by (intro y; destruct os; [congruence|reflexivity]).
    assert (Hobs : forall y, In y (obs_states tb od t prev o) <-> state_set tb (o :: os) y).
    { intro y. rewrite obs_in, Hset by exact Ho. cbv zeta. rewrite <- Hnext. split.
      - intros [[H1 H2]|[[H1 H2]|[H1 _]]]; [auto| |destruct Hsome as (z & Hz); destruct (H1 z Hz)].
        split; [exact H2|]. right. intros z x v Hz Hx Ht. apply (H1 z Hz). apply Hnext. eauto.
      - intros [H1 [H2|H2]]; [auto|]. right. left. split; [|exact H1]. intros z Hz Hn. apply Hnext in Hn as (x & v & Hx & Hv). exact (H2 z x v Hz Hx Hv). }
    assert (Hk' : forall y, In y (k_keys c') <-> state_set tb (o :: os) y) by (intro y; unfold c'; cbn [pos_step k_keys]; rewrite nodup_In; apply Hobs).
    assert (Hneg : forall x, In x prev -> neg64 (k_v c x)) by (intros x Hx; apply Hprev in Hx as [Hx _]; apply (Hlow x Hx)).
    assert (Hnum : forall y x, In x prev -> num64 (score tb (k_v c) y o x)) by (intros y x Hx; apply neg_num, (score_neg HE tab_log), Hneg; exact Hx).
    (* what the step chooses for [y] *)
    assert (Hy : forall y, state_set tb (o :: os) y -> exists x v, k_m c' y = x /\ state_set tb os x /\ trans tb x y v /\ k_v c' y = add64 E (add64 E (k_v c x) v) (emission tb y o) /\
              between low (k_v c' y) /\ forall z, In z prev -> le64 (score tb (k_v c) y o z) (k_v c' y)).
    { intros y Hy. assert (Hi : inZ y (obs_states tb od t prev o) = true) by (apply inZ_In, Hobs; exact Hy).
      assert (Hv' : k_v c' y = fst (argmax (score tb (k_v c) y o) prev)) by (unfold c'; cbn [pos_step k_v]; fold prev; rewrite memo_eq, Hi; reflexivity).
      assert (Hm' : k_m c' y = snd (argmax (score tb (k_v c) y o) prev)) by (unfold c'; cbn [pos_step k_m]; fold prev; rewrite memo_eq, Hi; reflexivity).
      apply Hset in Hy as [(x0 & v0 & Hx0 & Ht0) _].
      assert (Hx0p : In x0 prev). { apply Hprev. split; [exact Hx0|]. intro Hc. unfold trans in Ht0. rewrite Hc in Ht0. destruct Ht0. }
      destruct (@argmax_ok E L (score tb (k_v c) y o) prev) as (A1 & A2 & A3); [intro Hc; rewrite Hc in Hx0p; destruct Hx0p|intros z Hz; apply Hnum; exact Hz|].
      set (m := snd (argmax (score tb (k_v c) y o) prev)) in *. rewrite A2 in Hv'.
      assert (Hge : forall z, In z prev -> le64 (score tb (k_v c) y o z) (k_v c' y)) by (intros z Hz; destruct (A3 z Hz) as [A _]; rewrite A2 in A; rewrite Hv'; exact A).
      apply Hprev in A1 as [Hm Hmt].
      assert (Hlm : le64 low (k_v c' y)). { eapply (le_trans64 L); [|apply Hge; exact Hx0p]. apply (@score_edge (k_v c) x0 y o v0); [apply Hlow; exact Hx0|exact Ht0]. }
      destruct (assoc (p_trans tb m) y) as [v|] eqn:Ea.
      - assert (Ht : trans tb m y v) by exact (assoc_in Ea). destruct (@score_edge (k_v c) m y o v (Hlow m Hm) Ht) as [B1 B2].
        exists m, v. rewrite Hv'. rewrite Hv' in Hge. refine (conj Hm' (conj Hm (conj Ht (conj B2 (conj B1 Hge))))).
      - exfalso. assert (Hn : forall w, ~ trans tb m y w) by (intros w Hw; rewrite (trans_assoc Hw) in Ea; discriminate).
        pose proof (@score_none (k_v c) m y o (proj2 (Hlow m Hm)) Hn) as Hc. rewrite Hv' in Hlm. destruct Hlm as (_ & _ & Hlm). congruence. }
    constructor.
    - exact Hk'.
    - assert (Hne' : exists y, In y (obs_states tb od t prev o)).
      { destruct Hsome as (y & Hys). unfold obs_states. destruct (filter _ _) as [|a l]; [|exists a; left; reflexivity].
        destruct Ho as (_ & _ & P & _). pose proof (Permutation_in _ (P t _) Hys) as Hin. destruct (o_next od t (expect_next tb prev)); [destruct Hin|eauto]. }
      destruct Hne' as (y & Hys). exists y. split; [apply Hk', Hobs, Hys|]. apply Hobs, Hset in Hys as [(x & v & _ & Ht) _]. exact (ok_live T Ht).
    - intros y Hys. destruct (Hy y Hys) as (x & v & H1 & H2 & H3 & H4 & _). destruct (Hp x H2) as (p & P1 & P2). exists (x :: p). cbn [rroute]. rewrite H1, P1. split; [reflexivity|].
      rewrite H4. apply vp_cons; assumption.
    - intros y p w Hw. inversion Hw as [o' y' Hs e1 e2 e3|o' y' os' x p' w' v Hv Hs Ht e1 e2 e3]; subst; [congruence|].
      destruct (Hy y Hs) as (m & mv & _ & _ & _ & _ & _ & Hge). destruct (vpath_last Hv) as (x' & q & Hq & Hx). injection Hq as <- <-.
      assert (Hxp : In x prev). { apply Hprev. split; [exact Hx|]. intro Hc. unfold trans in Ht. rewrite Hc in Ht. destruct Ht. }
      eapply (le_trans64 L); [|apply Hge; exact Hxp]. destruct (@score_edge (k_v c) x y o v (Hlow x Hx) Ht) as [_ ->].
      pose proof (Hb x p' w' Hv) as Hle. assert (Hwn : neg64 w') by (eapply (le_trans64 L); [exact Hle|apply (Hlow x Hx)]).
      destruct (ok_trans T Ht) as [_ Tn]. pose proof (emit_neg HE tab_log y o) as En. change (emission tb y o) with (emit_get tb y o).
      pose proof (proj2 (Hlow x Hx)) as Xn. apply add_mono; auto; try (apply neg_add; auto); [|apply (le_refl64 L), neg_num; auto].
      apply add_mono; auto. apply (le_refl64 L), neg_num; auto.
    - intros y Hys. destruct (Hy y Hys) as (x & v & _ & _ & _ & _ & H & _). exact H.
  Qed.

  Lemma cols_all : forall obs os t c acc, os <> [] -> hd c acc = c -> acc <> [] -> cols_ok os acc c ->
    let cols := pos_cols tb od t c obs acc in cols_ok (rev obs ++ os) cols (hd c cols) /\ cols <> [].
  Proof.
    induction obs as [|o obs IH]; intros os t c acc Hne Hh Ha Hc; cbn [pos_cols rev app].
    - rewrite Hh. auto.
    - rewrite <- app_assoc. cbn [app]. set (c' := pos_step tb od t c o).
      destruct (IH (o :: os) (S t) c' (c' :: acc)) as [K1 K2]; [discriminate|reflexivity|discriminate|apply step_ok; assumption|].
      split; [|exact K2]. set (cols := pos_cols tb od (S t) c' obs (c' :: acc)) in *. destruct cols; [congruence|exact K1].
  Qed.

  Lemma viterbi_ok : forall obs, obs <> [] -> exists path w, pos_viterbi tb od obs = Ok path /\ vpath tb (rev obs) (rev path) w /\
    forall q v, vpath tb (rev obs) q v -> le64 v w /\ (eqb64 E v w = true -> (hd 0 q <= hd 0 (rev path))%Z).
  Proof.
    intros [|o obs] Hne; [congruence|]. unfold pos_viterbi. set (c0 := pos_init tb od o).
    destruct (@cols_all obs [o] 1 c0 [c0]) as [[Hk Hl Hp Hb Hlow] _]; [discriminate|reflexivity|discriminate|apply init_ok|].
    set (cols := pos_cols tb od 1 c0 obs [c0]) in *. set (c := hd c0 cols) in *. rewrite last_argmax.
    assert (Hin : forall y, In y (o_last od (k_keys c)) <-> state_set tb (rev obs ++ [o]) y).
    { intro y. rewrite <- Hk. destruct Ho as (_ & _ & _ & P). split; intro H; [eapply Permutation_in; [apply Permutation_sym, P|exact H]|eapply Permutation_in; [apply P|exact H]]. }
    destruct (@argmax_ok E L (k_v c) (o_last od (k_keys c))) as (A1 & A2 & A3).
    { destruct Hl as (y & Hy & _). apply Hk, Hin in Hy. intro Hc. rewrite Hc in Hy. destruct Hy. }
    { intros y Hy. apply Hin in Hy. apply (bnum (Hlow y Hy)). }
    destruct (o_last od (k_keys c)) as [|a l] eqn:El; [destruct A1|].
    set (m := snd (argmax (k_v c) (a :: l))) in *. destruct (Hp m (proj1 (Hin m) A1)) as (p & P1 & P2).
    exists (rev (m :: p)), (k_v c m). rewrite route_rev, P1, app_nil_r, rev_involutive. cbn [rev]. cbn [rev] in P2. split; [reflexivity|]. split; [exact P2|].
    intros q v Hq. destruct (vpath_last Hq) as (y & q' & -> & Hy). cbn [rev] in Hq. apply Hb in Hq. destruct (A3 y (proj2 (Hin y) Hy)) as [B1 B2]. cbn [fst snd] in B1, B2. rewrite A2 in B1, B2.
    split; [eapply (le_trans64 L); eassumption|]. intro He. cbn [hd]. apply B2. destruct (eq_le64 L He) as [_ He2]. apply (le_anti64 L); [exact B1|]. eapply (le_trans64 L); eassumption.
  Qed.
End V.
