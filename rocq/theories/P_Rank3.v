(** TextRank: scores, smallest and largest score, weights. *)
From Verif Require Import S_Rank Ieee P_Ieee P_Idf P_Idf2 P_Rank P_Rank2.
From Coq Require Import Reals Lra Lia.
From Flocq Require Import Core Relative IEEE754.BinarySingleNaN.
Set Implicit Arguments. Unset Strict Implicit.

Section Fl.
  Variables (u1 u2 u3 u4 u5 : rune -> bool) (u6 : rune -> rune) (u7 u8 : rune -> bool) (u9 : bytes -> option (rune -> bool)) (u10 u11 : b64 -> b64) (u12 : bytes -> b64 * bool) (u13 u14 : bool).
  Notation E := (@Build_env ieee u1 u2 u3 u4 u5 u6 u7 u8 u9 u10 u11 u12 u13 u14).
  Lemma HE : ar E = ieee.
  Proof. reflexivity. Qed.

  Section Scores.
    Variables (ns : list (bytes * bytes)) (l : cmap E) (keys : list bytes).
    Hypothesis Hbig : (Z.of_nat (2 * length ns) <= 2 ^ 48)%Z.
    Hypothesis Hc : counts ns l.
    Notation g := (fold_left (@add_edge E) l []).
    Hypothesis Hp : Permutation (map fst g) keys.
    Lemma keys_in : forall n, In n keys <-> In n (members ns).
    Proof.
      intro n. rewrite <- (members_counts n Hc). pose proof (graph_keys l [] n) as K. cbn [map In] in K. split; intro H.
      - assert (In n (map fst g)) as H' by (eapply Permutation_in; [symmetry; exact Hp|exact H]). tauto.
      - eapply Permutation_in; [exact Hp|]. tauto.
    Qed.
    Definition inv (ws : list (bytes * b64)) : Prop := forall m, In m (members ns) -> ok (w_get (E := E) ws m) /\ (0 <= val (w_get (E := E) ws m) <= 31 / 16 * IZR (Z.of_nat (degree ns m)))%R.
    Lemma deg_bound : forall n, (Z.of_nat (degree ns n) <= 2 ^ 48)%Z.
    Proof. intro n. pose proof (degree_le ns n). lia. Qed.
    Lemma step_ok : forall ws n, inv ws -> In n (members ns) -> inv (rank_step g ws n) /\ (val l15 <= val (w_get (E := E) (rank_step g ws n) n))%R.
    Proof.
      intros ws n Hi Hn.
      assert (V : let x := w_get (E := E) (rank_step g ws n) n in ok x /\ (val l15 <= val x <= 31 / 16 * IZR (Z.of_nat (degree ns n)))%R).
      { unfold rank_step. rewrite w_get_put, beqb_refl. rewrite graph_edges. change (edges_of [] n) with (@nil (bytes * f64 E)). cbn [app]. rewrite (nbs_neighbours n Hc).
        rewrite (@fold_left_ext _ _ _ (fun s e => add64 ieee s (mul64 ieee (div64 ieee (snd e) (lit_64 (Z.of_nat (degree ns (fst e))) 0)) (w_get (E := E) ws (fst e))))).
        - apply (@value_ok (degree ns) (fun m => w_get (E := E) ws m) (nbs ns l n) (degree ns n)).
          + intros m c Hin. destruct (nbs_in Hc Hin) as (N1 & N2 & N3 & N4). destruct (Hi m N3) as [I1 I2]. pose proof (@deg_bound m). repeat split; try lia; try exact I1; apply I2.
          + apply nbs_sum. exact Hc.
          + apply degree_pos. exact Hn.
          + apply deg_bound.
        - intros s e He. do 2 f_equal. match goal with |- div64 _ _ ?o = _ => assert (o = lit_64 (Z.of_nat (degree ns (fst e))) 0) as -> ; [|reflexivity] end.
          apply (@out_sum_ok E HE ns l (fst e)); [|exact Hc]. unfold big. lia. }
      cbv zeta in V. destruct V as (V1 & V2). split; [|apply V2]. intros m Hm. destruct (beqb n m) eqn:En.
      - apply beqb_eq in En. subst m. pose proof l15_val as (_ & _ & L). split; [exact V1|lra].
      - assert (w_get (E := E) (rank_step g ws n) m = w_get (E := E) ws m) as -> by (unfold rank_step; rewrite w_get_put, En; reflexivity). apply Hi, Hm.
    Qed.
    Lemma round_ok : forall ks ws, inv ws -> (forall n, In n ks -> In n (members ns)) ->
      inv (fold_left (@rank_step E g) ks ws) /\ forall m, In m (members ns) -> (In m ks \/ (val l15 <= val (w_get (E := E) ws m))%R) -> (val l15 <= val (w_get (E := E) (fold_left (@rank_step E g) ks ws) m))%R.
    Proof.
      induction ks as [|k ks IH]; intros ws Hi Hk; [split; [exact Hi|]; intros m _ [[]|H]; exact H|]. cbn [fold_left]. destruct (@step_ok ws k Hi (Hk k (or_introl eq_refl))) as [S1 S2].
      destruct (IH (rank_step g ws k) S1 (fun n Hn => Hk n (or_intror Hn))) as [I1 I2]. split; [exact I1|]. intros m Hm H. apply I2; [exact Hm|]. destruct (beqb k m) eqn:Ek.
      - apply beqb_eq in Ek. subst m. right. exact S2.
      - destruct H as [[->|H]|H]; [rewrite beqb_refl in Ek; discriminate|left; exact H|]. right. unfold rank_step. rewrite w_get_put, Ek. exact H.
    Qed.
    Lemma init_ok : inv (ws_of g).
    Proof.
      intros m Hm. assert (Hg : In m (map fst g)) by (eapply Permutation_in; [symmetry; exact Hp|apply keys_in; exact Hm]). rewrite (@ws_of_get E g m Hg).
      assert (Hlen : 1 <= length g <= 2 * length ns).
      { split; [destruct g; [destruct Hg|cbn; lia]|]. rewrite <- (map_length fst). apply Nat.le_trans with (length (members ns)).
        - apply NoDup_incl_length; [apply graph_nodup; constructor|]. intros n Hn. apply keys_in. eapply Permutation_in; [exact Hp|exact Hn].
        - unfold members. clear. induction ns; [auto|]. cbn [flat_map app length]. lia. }
      destruct (@lit_int 1) as (A1 & A2 & _); [lia|]. destruct (@lit_int (Z.of_nat (length g))) as (B1 & B2 & _); [lia|].
      assert (G1 : (1 <= IZR (Z.of_nat (length g)))%R) by (apply (IZR_le 1); lia). assert (D1 : (1 <= IZR (Z.of_nat (degree ns m)))%R) by (apply (IZR_le 1); pose proof (degree_pos Hm); lia).
      assert (Q : (0 <= 1 / IZR (Z.of_nat (length g)) <= 1)%R). { split; [apply Rlt_le, Rdiv_lt_0_compat; lra|]. apply Rmult_le_reg_r with (IZR (Z.of_nat (length g))); [lra|]. unfold Rdiv. rewrite Rmult_assoc, Rinv_l by lra. lra. }
      assert (P60 : (1 <= 2 ^ 60)%R) by (apply pow_R1_Rle; lra).
      destruct (@div_val (lit_64 1 0) (lit_64 (Z.of_nat (length g)) 0) A2) as (Q1 & Q2); rewrite ?A1, ?B1; [lra|rewrite Rabs_pos_eq; lra|]. rewrite A1, B1 in Q1.
      change (ok (div64 ieee (lit_64 1 0) (lit_64 (Z.of_nat (length g)) 0)) /\ (0 <= val (div64 ieee (lit_64 1 0) (lit_64 (Z.of_nat (length g)) 0)) <= 31 / 16 * IZR (Z.of_nat (degree ns m)))%R).
      split; [exact Q2|]. rewrite Q1. split; [apply rnd_ge; [lra|apply fmt0]|]. apply Rle_trans with 1%R; [apply rnd_le; [lra|apply (@int_format 1); lia]|lra].
    Qed.
    Lemma score_bounds : forall x m, In m (members ns) -> let v := w_get (E := E) (rounds g keys (ws_of g) x) m in
      ok v /\ (0 <= val v <= 2 ^ 49)%R /\ (1 <= x -> (val l15 <= val v)%R).
    Proof.
      assert (I : forall x, inv (rounds g keys (ws_of g) x)).
      { induction x as [|x IH]; [apply init_ok|]. cbn [rounds]. apply round_ok; [exact IH|]. intros n Hn. apply keys_in, Hn. }
      intros x m Hm v. destruct (I x m Hm) as [I1 I2]. fold v in I1, I2. split; [exact I1|]. split.
      - assert (IZR (Z.of_nat (degree ns m)) <= 2 ^ 48)%R by (rewrite (pow_IZR 2 48); apply IZR_le, deg_bound). replace (2 ^ 49)%R with (2 * 2 ^ 48)%R by (rewrite <- tech_pow_Rmult; reflexivity). lra.
      - intro Hx. destruct x as [|x]; [lia|]. unfold v. cbn [rounds]. apply round_ok; [apply I|intros n Hn; apply keys_in, Hn|exact Hm|]. left. apply keys_in, Hm.
    Qed.
  End Scores.

  (** ** Smallest and largest score *)
  Lemma after_snoc : forall (vs : list (f64 E)) v x, after (E := E) (vs ++ [v]) x <-> after (E := E) vs x \/ (x = v /\ exists y, In y vs /\ ltb64 ieee v y = false).
  Proof.
    intros vs v x. split.
    - intros (a & b & y & H1 & H2 & H3). destruct b as [|z b] using rev_ind.
      + apply app_inj_tail in H1 as [-> ->]. right. split; [reflexivity|]. exists y. auto.
      + clear IHb. rewrite app_comm_cons, app_assoc in H1. apply app_inj_tail in H1 as [-> ->]. left. exists a, b, y. auto.
    - intros [(a & b & y & -> & H2 & H3)|(-> & y & H1 & H2)].
      + exists a, (b ++ [v]), y. rewrite <- app_assoc. auto.
      + exists vs, [], y. auto.
  Qed.
  Lemma after_in : forall (vs : list (f64 E)) x, after (E := E) vs x -> In x vs.
  Proof. intros vs x (a & b & y & -> & _). apply in_elt. Qed.
  Lemma min_max_snoc : forall (vs : list (f64 E)) v mn mx, min_max (E := E) vs = (mn, mx) ->
    min_max (E := E) (vs ++ [v]) = if ltb64 E v mn then (v, mx) else if ltb64 E mx v then (mn, v) else (mn, mx).
  Proof. intros vs v mn mx H. unfold min_max in *. rewrite fold_left_app, H. reflexivity. Qed.
  Lemma min_max_ok : forall vs : list (f64 E), @Forall (f64 E) range vs -> let mm := min_max (E := E) vs in (vs <> [] -> least (E := E) vs (fst mm)) /\ late_max (E := E) vs (snd mm).
  Proof.
    intros vs. induction vs as [|v vs IH] using rev_ind; intros Hr mm.
    - split; [congruence|]. right. split; [|reflexivity]. intros x (a & b & y & H & _). destruct a; discriminate.
    - apply Forall_app in Hr as [Hr Hv]. inversion_clear Hv. clear H0. destruct H as [V1 V2]. specialize (IH Hr). cbv zeta in IH. unfold mm. clear mm. destruct (min_max (E := E) vs) as [mn mx] eqn:Emm. rewrite (min_max_snoc v Emm). cbn [fst snd] in *.
      rewrite Forall_forall in Hr. destruct IH as [IH1 IH2]. pose proof l15_val as (_ & _ & L15).
      destruct vs as [|v0 vs0].
      { assert (mn = lit_64 9007199254740991 971 /\ mx = lit_64 1 (-1074)) as [-> ->] by (unfold min_max in Emm; cbn [fold_left] in Emm; injection Emm as E1 E2; split; [exact (eq_sym E1)|exact (eq_sym E2)]). destruct max_lit as [M1 M2].
        assert (L : ltb64 ieee v (lit_64 9007199254740991 971) = true). { apply ltb_true; [exact V1|exact M1|]. assert (2 ^ 49 < 2 ^ 60)%R by (apply Rlt_pow; [lra|lia]). lra. }
        match goal with |- context [if ?c then _ else _] => change c with (ltb64 ieee v (lit_64 9007199254740991 971)) end. rewrite L. cbn [fst snd app]. split.
        - intros _. split; [left; reflexivity|]. intros x [<-|[]]. apply ltb_false; [exact V1|exact V1|lra].
        - right. split; [|reflexivity]. intros x (a & b & y & H & Hy & _). destruct a as [|z [|z' a]]; [destruct Hy|discriminate|discriminate]. }
      specialize (IH1 ltac:(discriminate)). set (vs := v0 :: vs0) in *. destruct IH1 as [L1 L2]. destruct (Hr mn L1) as [Mn1 Mn2].
      destruct (ltb64 E v mn) eqn:Elt; change (ltb64 ieee v mn) with (ltb64 E v mn) in *.
      + change (ltb64 E v mn) with (ltb64 ieee v mn) in Elt. apply (ltb_true V1 Mn1) in Elt. cbn [fst snd]. split.
        * intros _. split; [apply in_elt|]. intros x Hx. apply in_app_or in Hx as [Hx|[<-|[]]]; [|apply ltb_false; [exact V1|exact V1|lra]]. destruct (Hr x Hx) as [X1 X2]. specialize (L2 x Hx). apply (ltb_false X1 Mn1) in L2. apply (ltb_false X1 V1). lra.
        * assert (Na : ~ exists y, In y vs /\ ltb64 ieee v y = false). { intros (y & Y1 & Y2). destruct (Hr y Y1) as [Y3 _]. apply (ltb_false V1 Y3) in Y2. specialize (L2 y Y1). apply (ltb_false Y3 Mn1) in L2. lra. }
          destruct IH2 as [[A1 A2]|[A1 A2]].
          -- left. split; [apply after_snoc; left; exact A1|]. intros x Hx. apply after_snoc in Hx as [Hx|[_ Hx]]; [apply A2, Hx|destruct (Na Hx)].
          -- right. split; [|exact A2]. intros x Hx. apply after_snoc in Hx as [Hx|[_ Hx]]; [exact (A1 x Hx)|exact (Na Hx)].
      + change (ltb64 E v mn) with (ltb64 ieee v mn) in Elt. apply (ltb_false V1 Mn1) in Elt.
        assert (Mx1 : ok mx). { destruct IH2 as [[A1 _]|[_ ->]]; [apply after_in in A1; apply Hr in A1; apply A1|apply min_lit]. }
        assert (Ha : after (E := E) (vs ++ [v]) v). { apply after_snoc. right. split; [reflexivity|]. exists mn. split; [exact L1|]. apply (ltb_false V1 Mn1). lra. }
        assert (Hl : least (E := E) (vs ++ [v]) mn). { split; [apply in_or_app; left; exact L1|]. intros x Hx. apply in_app_or in Hx as [Hx|[<-|[]]]; [apply L2, Hx|]. apply (ltb_false V1 Mn1). lra. }
        destruct (ltb64 E mx v) eqn:Emx; cbn [fst snd]; (split; [intros _; exact Hl|]); left; change (ltb64 E mx v) with (ltb64 ieee mx v) in Emx.
        * apply (ltb_true Mx1 V1) in Emx. split; [exact Ha|]. intros x Hx. apply after_snoc in Hx as [Hx|[-> _]]; [|apply (ltb_false V1 V1); lra]. pose proof (after_in Hx) as Hx'. destruct (Hr x Hx') as [X1 _]. apply (ltb_false V1 X1).
          destruct IH2 as [[A1 A2]|[A1 _]]; [|destruct (A1 x Hx)]. specialize (A2 x Hx). apply (ltb_false Mx1 X1) in A2. lra.
        * apply (ltb_false Mx1 V1) in Emx. destruct IH2 as [[A1 A2]|[A1 ->]].
          -- split; [apply after_snoc; left; exact A1|]. intros x Hx. apply after_snoc in Hx as [Hx|[-> _]]; [apply A2, Hx|]. apply (ltb_false Mx1 V1). lra.
          -- exfalso. destruct min_lit as [_ Hm]. change (lit64 E 1 (-1074)) with (lit_64 1 (-1074)) in Emx. lra.
  Qed.
End Fl.
