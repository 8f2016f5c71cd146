(** The rest of a text in exact arithmetic (C90). *)
From Verif Require Import S_Exact S_Meta M_Out P_Utf8 P_Utf8b P_Split P_Dict P_Seg P_Seg2 P_Seg3 P_Out P_Hist P_Meta P_Meta2 P_Meta4 P_Exact P_Exact2.
From Coq Require Import Lra.
Set Implicit Arguments. Unset Strict Implicit.

Section Rest.
  Variable E : env.
  Variable val : f64 E -> option R.
  Variable val32 : f32 E -> option R.
  Hypothesis X : exact32 val val32.
  Variable c : cfg.
  Variable d : dict E.
  Hypothesis Hd : dict_ok c d.
  Hypothesis Hpos : forall k v t, dict_value d k = Some v -> nth_error (d_tokens d) v = Some t -> pos32 (A := E) (t_dist t).

  Definition rv (x : f32 E) : R := match val32 x with Some a => a | None => 0%R end.
  Lemma nn_rv : forall x : f32 E, nn32 (A := E) x -> val32 x = Some (rv x).
  Proof. intros x H. apply (nn_val X) in H as (a & H & _). unfold rv. rewrite H. reflexivity. Qed.

  Section One.
    Variable ws : list bytes.
    Hypothesis Hst : stable E c ws.
    Variable js : list (jumper E).
    Hypothesis HI : Inv d false ws (length ws) js.
    Notation cand := (cand d false ws).

    Lemma base_nn : forall l, l <= length ws -> nn32 (A := E) (base js l).
    Proof. intros l Hl. eapply (@jumper_pos E c d false ws (exact_laws32 X) Hd Hst ltac:(discriminate) Hpos js HI); exact Hl. Qed.
    Lemma dist_nn : forall i l r, i <= l -> l < length ws -> cand i (S l) = Some r -> pos32 (A := E) (dist_of d r).
    Proof. intros i l r Hi Hl H. eapply (@cand_pos E c d false ws (exact_laws32 X) Hd Hst ltac:(discriminate) Hpos); [| |exact H]; lia. Qed.
    Lemma sum_rv : forall i l r, i <= l -> l < length ws -> cand i (S l) = Some r ->
      val32 (add32 E (base js i) (dist_of d r)) = Some (rv (base js i) + rv (dist_of d r))%R.
    Proof.
      intros i l r Hi Hl H. assert (B : nn32 (A := E) (base js i)) by (apply base_nn; lia). assert (D : nn32 (A := E) (dist_of d r)) by (right; exact (dist_nn Hi Hl H)).
      rewrite (x_add X), (nn_rv B), (nn_rv D). reflexivity.
    Qed.
    Lemma sum_pos : forall i l r, i <= l -> l < length ws -> cand i (S l) = Some r -> (0 < rv (base js i) + rv (dist_of d r))%R.
    Proof.
      intros i l r Hi Hl H. assert (B : nn32 (A := E) (base js i)) by (apply base_nn; lia). apply (nn_val X) in B as (a & Ha & Pa). assert (D := dist_nn Hi Hl H). apply (pos_val X) in D as (b & Hb & Pb).
      unfold rv. rewrite Ha, Hb. lra.
    Qed.
    (** The jumper is the earliest of the best candidates. *)
    Lemma fold_first : forall l m, l < length ws -> m <= S l ->
      let j := fold_cands d false ws js l (seq 0 m) in
      (j = (lit32 E 0 0, None) /\ forall i, i < m -> cand i (S l) = None) \/
      exists i r, i < m /\ cand i (S l) = Some r /\ j = (add32 E (base js i) (dist_of d r), Some r) /\
        forall i' r', i' < m -> cand i' (S l) = Some r' ->
          (rv (base js i) + rv (dist_of d r) <= rv (base js i') + rv (dist_of d r'))%R /\ (i' < i -> (rv (base js i) + rv (dist_of d r) < rv (base js i') + rv (dist_of d r'))%R).
    Proof.
      intros l m Hl. cbv zeta. induction m as [|m IH]; intro Hm; [left; split; [reflexivity|lia]|].
      rewrite seq_S. unfold fold_cands in *. rewrite fold_left_app. cbn [fold_left Nat.add]. set (j := fold_left _ (seq 0 m) _) in *. unfold app_cand.
      destruct (cand m (S l)) as [r|] eqn:Ec.
      - assert (S1 := @sum_rv m l r ltac:(lia) Hl Ec). assert (S2 := @sum_pos m l r ltac:(lia) Hl Ec). right. destruct IH as [(J & N)|(i & r0 & I1 & I2 & I3 & I4)]; [lia| |].
        + exists m, r. split; [lia|]. split; [exact Ec|]. split; [unfold update_jumper; rewrite J; cbn [fst]; rewrite zero32_refl; reflexivity|].
          intros i' r' Hi' Hr'. assert (i' = m) by (destruct (Nat.eq_dec i' m); [assumption|rewrite N in Hr' by lia; discriminate]). subst i'. assert (r' = r) by congruence. subst r'. split; [lra|lia].
        + assert (T1 := @sum_rv i l r0 ltac:(lia) Hl I2). assert (T2 := @sum_pos i l r0 ltac:(lia) Hl I2). unfold update_jumper. rewrite I3. cbn [fst].
          assert (Z : eqb32 E (add32 E (base js i) (dist_of d r0)) (lit32 E 0 0) = false).
          { destruct (eqb32 E (add32 E (base js i) (dist_of d r0)) (lit32 E 0 0)) eqn:He; [|reflexivity]. exfalso. apply (x_eq X) in He. rewrite T1, (val32_z X) in He. injection He as He. lra. }
          rewrite Z. cbn [orb]. destruct (ltb32 E (add32 E (base js m) (dist_of d r)) (add32 E (base js i) (dist_of d r0))) eqn:Elt.
          * apply (x_lt X) in Elt. rewrite S1, T1 in Elt. exists m, r. split; [lia|]. split; [exact Ec|]. split; [reflexivity|].
            intros i' r' Hi' Hr'. destruct (Nat.eq_dec i' m) as [->|Hne]; [assert (r' = r) by congruence; subst r'; split; [lra|lia]|].
            destruct (I4 i' r' ltac:(lia) Hr') as [K _]. split; [lra|intros; lra].
          * apply (lt_false X S1 T1) in Elt. exists i, r0. split; [lia|]. split; [exact I2|]. split; [reflexivity|].
            intros i' r' Hi' Hr'. destruct (Nat.eq_dec i' m) as [->|Hne]; [assert (r' = r) by congruence; subst r'; split; [lra|lia]|]. apply (I4 i' r' ltac:(lia) Hr').
      - destruct IH as [(J & N)|(i & r0 & I1 & I2 & I3 & I4)]; [lia| |].
        + left. split; [exact J|]. intros i Hi. destruct (Nat.eq_dec i m) as [->|]; [exact Ec|apply N; lia].
        + right. exists i, r0. split; [lia|]. split; [exact I2|]. split; [exact I3|]. intros i' r' Hi' Hr'. apply I4; [|exact Hr'].
          destruct (Nat.eq_dec i' m) as [->|]; [congruence|lia].
    Qed.
    Lemma first_best : forall l, l < length ws -> exists i r x, i <= l /\ nth_error js l = Some (x, Some r) /\ x = add32 E (base js i) (dist_of d r) /\ cand i (S l) = Some r /\
      rv (base js (S l)) = (rv (base js i) + rv (dist_of d r))%R /\
      forall i' r', i' <= l -> cand i' (S l) = Some r' ->
        (rv (base js (S l)) <= rv (base js i') + rv (dist_of d r'))%R /\ (i' < i -> (rv (base js (S l)) < rv (base js i') + rv (dist_of d r'))%R).
    Proof.
      intros l Hl. pose proof (@fold_first l (S l) Hl (le_n _)) as F. cbv zeta in F. destruct HI as [_ HI']. pose proof (HI' l Hl) as N. rewrite Nat.min_r in N by lia.
      destruct F as [(_ & No)|(i & r & I1 & I2 & I3 & I4)].
      - exfalso. destruct (@final_jumper E d false ws ltac:(discriminate) js l HI Hl) as (r & i & x & _ & Hi & Hc & _). rewrite No in Hc by lia. discriminate.
      - rewrite I3 in N. exists i, r, (add32 E (base js i) (dist_of d r)). split; [lia|]. split; [exact N|]. split; [reflexivity|]. split; [exact I2|].
        assert (B : rv (base js (S l)) = (rv (base js i) + rv (dist_of d r))%R).
        { cbn [base]. rewrite N. cbn [fst]. unfold rv at 1. rewrite (@sum_rv i l r ltac:(lia) Hl I2). reflexivity. }
        split; [exact B|]. intros i' r' Hi' Hr'. rewrite B. apply I4; [lia|exact Hr'].
    Qed.
  End One.

  Section Two.
    Variable ws : list bytes.
    Hypothesis Hst : stable E c ws.
    Variable js : list (jumper E).
    Hypothesis HI : Inv d false ws (length ws) js.

    Lemma stable_skipn : forall k, stable E c (skipn k ws).
    Proof. intros k a b z Hw. apply (Hst (a := firstn k ws ++ a) (b := b) (z := z)). rewrite <- (firstn_skipn k ws) at 1. rewrite Hw, <- app_assoc. reflexivity. Qed.
    Lemma slice_skipn : forall A (l : list A) k i j, slice (skipn k l) i j = slice l (k + i) (k + j).
    Proof. intros A l k i j. unfold slice. rewrite skipn_skipn. f_equal; [lia|]. f_equal. lia. Qed.
    Lemma cand_skipn : forall k i j, cand d false (skipn k ws) i j = cand d false ws (k + i) (k + j).
    Proof.
      intros k i j. unfold cand. rewrite slice_skipn. cbn [andb]. destruct (t_get (d_trie d) (concat (slice ws (k + i) (k + j)))); [reflexivity|]. rewrite nth_skipn.
      destruct (Nat.eqb_spec j (S i)), (Nat.eqb_spec (k + j) (S (k + i))); try lia; reflexivity.
    Qed.

    Section Js2.
      Variable k : nat.
      Hypothesis Hk : k <= length ws.
      Variable js2 : list (jumper E).
      Hypothesis HI2 : Inv d false (skipn k ws) (length (skipn k ws)) js2.

      Lemma rest_ge : forall m, k + m <= length ws -> (rv (base js (k + m)) <= rv (base js k) + rv (base js2 m))%R.
      Proof.
        intro m. induction m as [m IH] using (well_founded_induction lt_wf). intro Hm. destruct m as [|l].
        - rewrite Nat.add_0_r. cbn [base]. unfold rv at 3. rewrite (val32_z X). lra.
        - destruct (@first_best _ (@stable_skipn k) js2 HI2 l) as (i & r & x & I1 & _ & _ & I4 & I5 & _); [rewrite skipn_length; lia|].
          rewrite cand_skipn in I4. specialize (IH i ltac:(lia) ltac:(lia)).
          destruct (@first_best ws Hst js HI (k + l)) as (i0 & r0 & x0 & _ & _ & _ & _ & _ & F); [lia|].
          destruct (F (k + i) r ltac:(lia)) as [F1 _]; [rewrite <- I4; f_equal; lia|]. replace (k + S l) with (S (k + l)) by lia. lra.
      Qed.
      (** One step of the path behind [k]: the same token is chosen. *)
      Lemma rest_step : forall i l r x, k <= i -> i <= l -> l < length ws -> nth_error js l = Some (x, Some r) -> cand d false ws i (S l) = Some r ->
        x = add32 E (base js i) (dist_of d r) -> rv (base js i) = (rv (base js k) + rv (base js2 (i - k)))%R ->
        exists x2, nth_error js2 (l - k) = Some (x2, Some r) /\ x2 = add32 E (base js2 (i - k)) (dist_of d r) /\ cand d false (skipn k ws) (i - k) (S (l - k)) = Some r /\
          rv (base js (S l)) = (rv (base js k) + rv (base js2 (S (l - k))))%R.
      Proof.
        intros i l r x Hki Hil Hl Hn Hc Hx HB.
        destruct (@first_best ws Hst js HI l Hl) as (i0 & r0 & x0 & A1 & A2 & A3 & A4 & A5 & A6). rewrite Hn in A2. injection A2 as <- <-.
        assert (i0 = i).
        { destruct (@cand_spec E c d false ws Hd Hst ltac:(discriminate) i (S l) r) as (t1 & D1 & _ & N1 & _); [lia|lia|exact Hc|].
          destruct (@cand_spec E c d false ws Hd Hst ltac:(discriminate) i0 (S l) r) as (t2 & D2 & _ & N2 & _); [lia|lia|exact A4|]. assert (t1 = t2) by congruence. subst t2. lia. }
        subst i0.
        destruct (@first_best _ (@stable_skipn k) js2 HI2 (l - k)) as (i2 & r2 & x2 & B1 & B2 & B3 & B4 & B5 & B6); [rewrite skipn_length; lia|].
        assert (C1 : cand d false (skipn k ws) (i - k) (S (l - k)) = Some r) by (rewrite cand_skipn, <- Hc; f_equal; lia).
        assert (C2 : cand d false ws (k + i2) (S l) = Some r2) by (rewrite cand_skipn in B4; rewrite <- B4; f_equal; lia).
        destruct (B6 (i - k) r ltac:(lia) C1) as [B7 B8]. destruct (A6 (k + i2) r2 ltac:(lia) C2) as [A7 A8].
        pose proof (@rest_ge (S (l - k)) ltac:(lia)) as G1. pose proof (@rest_ge i2 ltac:(lia)) as G2. replace (k + S (l - k)) with (S l) in G1 by lia.
        assert (i2 = i - k).
        { destruct (Nat.lt_trichotomy i2 (i - k)) as [K|[K|K]]; [|exact K|]; exfalso.
          - specialize (A8 ltac:(lia)). lra.
          - specialize (B8 ltac:(lia)). lra. }
        subst i2. assert (r2 = r) by congruence. subst r2. exists x2. split; [exact B2|]. split; [exact B3|]. split; [exact C1|]. lra.
      Qed.
    End Js2.

    Lemma chain_rest : forall m rs ps, chain d false ws js m rs ps -> forall a b, rs = a ++ b -> exists k, k <= m /\
      (exists psa, chain d false ws js k a psa) /\
      forall js2, Inv d false (skipn k ws) (length (skipn k ws)) js2 -> rv (base js m) = (rv (base js k) + rv (base js2 (m - k)))%R /\
        exists psb, chain d false (skipn k ws) js2 (m - k) b psb.
    Proof.
      intros m rs ps H. induction H as [|i l r rs ps x Hil Hl Hn Hc Hx Hch IH]; intros a b Hab.
      - symmetry in Hab. apply app_eq_nil in Hab as [-> ->]. exists 0. split; [lia|]. split; [exists []; constructor|]. intros js2 I2. split; [cbn [base Nat.sub]; unfold rv; rewrite (val32_z X); lra|exists []; constructor].
      - destruct b as [|r' b _] using rev_ind.
        + rewrite app_nil_r in Hab. subst a. exists (S l). split; [lia|]. split; [eexists; econstructor; eassumption|]. intros js2 I2. rewrite Nat.sub_diag. split; [cbn [base]; unfold rv at 3; rewrite (val32_z X); lra|exists []; constructor].
        + rewrite app_assoc in Hab. apply app_inj_tail in Hab as [-> <-]. destruct (IH a b eq_refl) as (k & Hk & Ha & Hb). exists k. split; [lia|]. split; [exact Ha|].
          intros js2 I2. destruct (Hb js2 I2) as (B1 & psb & B2). assert (Hkl : k <= length ws) by lia.
          destruct (@rest_step k Hkl js2 I2 i l r x Hk Hil Hl Hn Hc Hx B1) as (x2 & S1 & S2 & S3 & S4). replace (S l - k) with (S (l - k)) by lia. split; [exact S4|].
          eexists. econstructor; [| |exact S1|exact S3|exact S2|exact B2]; [lia|rewrite skipn_length; lia].
    Qed.
    Lemma chain_same : forall js2 m rs ps rs' ps', Inv d false ws (length ws) js2 -> m <= length ws -> chain d false ws js2 m rs ps -> chain d false ws js2 m rs' ps' -> rs = rs'.
    Proof.
      intros js2 m rs ps rs' ps' I2 Hm H1 H2.
      assert (F : Forall2 eq rs rs').
      { eapply (@chains_rel E d d false false ws ws m eq Hm Hm) with (js1 := js2) (js2 := js2); try eassumption; try lia.
        - intros i l Hil Hl. destruct (cand d false ws i (S l)); auto.
        - intros i1 i2 l r1 r2 L1 L2 Hl <- G1 G2.
          destruct (@cand_spec E c d false ws Hd Hst ltac:(discriminate) i1 (S l) r1) as (t1 & D1 & _ & N1 & _); [lia|lia|exact G1|].
          destruct (@cand_spec E c d false ws Hd Hst ltac:(discriminate) i2 (S l) r1) as (t2 & D2 & _ & N2 & _); [lia|lia|exact G2|]. assert (t1 = t2) by congruence. subst t2. lia. }
      clear - F. induction F; congruence.
    Qed.
  End Two.

  Lemma rest_words : forall ws segs a b, stable E c ws -> Forall (fun w => w <> []) ws -> segment_words (Some d) ws false = Ok segs -> segs = a ++ b ->
    exists k segs', k <= length ws /\ segment_words (Some d) (skipn k ws) false = Ok segs' /\ map sg_tok segs' = map sg_tok b /\
      exists ps, concat ps = skipn k ws /\ Forall2 (fun p s => exists t, deref d (sg_tok s) = Ok t /\ t_text t = p) ps b.
  Proof.
    intros ws segs a b Hs Hn H Hab. destruct (segment_words_chain Hd Hs Hn H) as (js & ps & I1 & C1 & P1). rewrite Hab, map_app in C1.
    destruct (chain_rest Hs I1 C1 eq_refl) as (k & Hk & _ & K).
    assert (Hs' := @stable_skipn ws Hs k). assert (Hn' : Forall (fun w => w <> []) (skipn k ws)) by (rewrite <- (firstn_skipn k ws) in Hn; apply Forall_app in Hn; apply Hn).
    destruct (@segment_words_spec E c d false (skipn k ws) Hd Hs' Hn') as (js2 & rs2 & ps2 & segs2 & I2 & C3 & H3 & H4 & _); [discriminate|].
    destruct (K js2 I2) as (_ & psb & C4). assert (R2 : rs2 = map sg_tok b).
    { refine (@chain_same (skipn k ws) Hs' js2 (length (skipn k ws)) rs2 ps2 (map sg_tok b) psb I2 (le_n _) C3 _). rewrite skipn_length. exact C4. }
    subst rs2. exists k, segs2. split; [exact Hk|]. split; [exact H3|]. split; [exact R2|].
    destruct (@chain_pieces E c d false (skipn k ws) Hd Hs' ltac:(discriminate) js2 (length (skipn k ws)) _ ps2 C3 (le_n _)) as (Q1 & _ & Q2 & _). rewrite firstn_all in Q1.
    exists ps2. split; [exact Q1|]. rewrite R2 in Q2. clear - Q2. revert ps2 Q2. induction b as [|s b IH]; intros ps2 Q2; cbn [map] in Q2; inversion Q2; subst; constructor; auto.
  Qed.

  Hypothesis Hr : reachable c d.
  Lemma rest : forall s a b, seg_slice c (Some d) s false = Ok (a ++ b) -> seg_slice c (Some d) (concat b) false = Ok b.
  Proof.
    intros s a b H. unfold seg_slice in H. apply bind_Ok in H as (segs & H1 & H). cbn [to_slice] in H.
    destruct (slice_texts H) as (l & L1 & L2). cbn [app] in L1. subst l. apply Forall2_app_inv_r in L2 as (sa & sb & A1 & A2 & ->). rewrite (internal_segment_eq c d) in H1.
    destruct (rest_words (@split_is_stable E c s) (@split_nonempty E c s) H1 eq_refl) as (k & segs' & Hk & K1 & K2 & ps & K3 & K4).
    assert (Hb : concat b = concat (skipn k (wsplit E c s))).
    { rewrite <- K3. clear - K4 A2. revert b A2. induction K4 as [|p sg ps sb (t & D & T) K4 IH]; intros b A2; inversion A2 as [|? w ? b' (t' & D' & ->) A2']; subst; [reflexivity|].
      cbn [concat]. rewrite concat_app, (IH _ A2'). f_equal. congruence. }
    unfold seg_slice. rewrite Hb, (internal_segment_eq c d).
    assert (W : wsplit E c (concat (skipn k (wsplit E c s))) = skipn k (wsplit E c s)).
    { apply (@split_is_stable E c s (firstn k (wsplit E c s)) _ []). rewrite app_nil_r, firstn_skipn. reflexivity. }
    rewrite W, K1. cbn [bind to_slice]. apply (@texts_slice E d segs' b). clear - A2 K2. revert b sb A2 K2. induction segs' as [|sg segs' IH]; intros b sb A2 K2; destruct sb as [|s2 sb]; cbn [map] in K2; try discriminate K2;
      inversion A2 as [|? w ? b' (t & D & T) A2']; subst; constructor; [exists t; split; [congruence|reflexivity]|]. apply (IH _ sb A2'). congruence.
  Qed.
End Rest.

(** *** Separators *)
Lemma groups_app : forall E c gs a rest, groups E c gs a -> groups E c rest false -> groups E c (gs ++ rest) a.
Proof.
  intros E c gs a rest H Hr. induction H as [|g a gs b Hg H IH Hn]; [exact Hr|]. cbn [app]. econstructor; [exact Hg|exact IH|exact Hn].
Qed.
Lemma split_separator : forall E c s1 r s2, scalar r = true -> alnum_unit E c (r, enc r) = false ->
  wsplit E c (s1 ++ enc r ++ s2) = wsplit E c s1 ++ enc r :: wsplit E c s2.
Proof.
  intros E c s1 r s2 Hr Ha. apply (@is_split_unique E c (s1 ++ enc r ++ s2)); [apply split_is_split|].
  destruct (split_is_split E c s1) as (g1 & a1 & G1 & C1 & ->). destruct (split_is_split E c s2) as (g2 & a2 & G2 & C2 & ->).
  exists (g1 ++ [(r, enc r)] :: g2), a1. split; [|split].
  - apply groups_app; [exact G1|]. econstructor; [apply wg_other; exact Ha|exact G2|discriminate].
  - rewrite concat_app. cbn [concat app]. rewrite C1, C2, (units_sync s1 (enc_sync s2 Hr)), (units_enc s2 Hr). reflexivity.
  - rewrite map_app. cbn [map concat]. unfold norm_unit at 4. rewrite Ha. cbn [andb snd]. rewrite app_nil_r. reflexivity.
Qed.

Section Sep.
  Variable E : env.
  Variable c : cfg.
  Variable d : dict E.
  Hypothesis Hr : reachable c d.
  Variable p : bytes.
  Hypothesis Hp : forall w v, dict_value d w = Some v -> ~ occurs p w.

  Lemma pieces_separated : forall ps rs, Forall2 (piece d) ps rs -> forall w1 w2, concat ps = w1 ++ p :: w2 ->
    exists p1 p2, ps = p1 ++ [p] :: p2 /\ concat p1 = w1 /\ concat p2 = w2.
  Proof.
    intros ps rs H. induction H as [|q r ps rs Hq H IH]; intros w1 w2 Hc; [destruct w1; discriminate|]. cbn [concat] in Hc.
    apply app_eq_app in Hc as (l & [[-> Hl]|[-> Hl]]).
    - destruct l as [|x l].
      + rewrite app_nil_r. cbn [app] in Hl. destruct (IH [] w2) as (p1 & p2 & -> & E1 & E2); [symmetry; exact Hl|].
        exists (w1 :: p1), p2. split; [reflexivity|]. split; [cbn [concat]; rewrite E1, app_nil_r; reflexivity|exact E2].
      + cbn [app] in Hl. injection Hl as <- Hl. inversion Hq as [q' v Hne Hv E1 E2|w Hw E1 E2].
        * exfalso. subst. apply (Hp Hv). exists (concat w1), (concat l). rewrite concat_app. reflexivity.
        * destruct w1 as [|w1a w1]; [|destruct w1; discriminate]. cbn [app] in E1. injection E1 as -> <-. exists [], ps. split; [reflexivity|]. split; [reflexivity|]. symmetry. exact Hl.
    - destruct (IH l w2 Hl) as (p1 & p2 & -> & E1 & E2). exists (q :: p1), p2. split; [reflexivity|]. split; [cbn [concat]; rewrite E1; reflexivity|exact E2].
  Qed.

  Lemma slice_separated : forall s w1 w2, wsplit E c s = w1 ++ p :: w2 -> exists q1 q2, seg_slice c (Some d) s false = Ok (q1 ++ p :: q2) /\ concat q1 = concat w1 /\ concat q2 = concat w2.
  Proof.
    intros s w1 w2 Hw. pose proof (inv_ok (reachable_inv Hr)) as Hd.
    destruct (@segment_words_spec E c d false (wsplit E c s) Hd (@split_is_stable E c s) (@split_nonempty E c s) ltac:(discriminate)) as (js & rs & ps & segs & _ & C1 & S1 & S2 & _).
    destruct (@chain_pieces E c d false (wsplit E c s) Hd (@split_is_stable E c s) ltac:(discriminate) js _ rs ps C1 (le_n _)) as (P1 & P2 & P3 & _). rewrite firstn_all, Hw in P1.
    destruct (pieces_separated P2 P1) as (p1 & p2 & Q1 & Q2 & Q3).
    assert (T : seg_slice c (Some d) s false = Ok (map (@concat byte) ps)).
    { unfold seg_slice. rewrite (internal_segment_eq c d), S1. cbn [bind to_slice]. apply (@texts_slice E d segs (map (@concat byte) ps)). clear - P3 S2. revert segs S2.
      induction P3 as [|q r ps rs (t & D & T) P3 IH]; intros segs S2; destruct segs as [|sg segs]; try discriminate S2; cbn [map] in *; constructor; [exists t; split; congruence|]. apply IH. congruence. }
    exists (map (@concat byte) p1), (map (@concat byte) p2). rewrite T, Q1, map_app. cbn [map concat]. rewrite app_nil_r. split; [reflexivity|].
    assert (CC : forall l : list (list bytes), concat (map (@concat byte) l) = concat (concat l)) by (clear; induction l as [|x l IH]; [reflexivity|]; cbn [map concat]; rewrite concat_app, IH; reflexivity).
    rewrite !CC, Q2, Q3. split; reflexivity.
  Qed.
  Lemma slice_norm : forall s, seg_slice c (Some d) (norm E c s) false = seg_slice c (Some d) s false.
  Proof. intro s. unfold seg_slice. rewrite segment_norm. reflexivity. Qed.
  (** What comes before a separator is cut on its own. *)
  Lemma before_separator : forall s1 r s2, p = enc r -> scalar r = true -> alnum_unit E c (r, enc r) = false ->
    exists q1 q2, seg_slice c (Some d) s1 false = Ok q1 /\ seg_slice c (Some d) (s1 ++ p ++ s2) false = Ok (q1 ++ p :: q2) /\ concat q2 = norm E c s2.
  Proof.
    intros s1 r s2 Hpr Hs Ha. destruct (@slice_separated (s1 ++ p ++ s2) (wsplit E c s1) (wsplit E c s2)) as (q1 & q2 & H1 & H2 & H3); [rewrite Hpr; apply split_separator; assumption|].
    exists q1, q2. rewrite split_concat in H2, H3. split; [|split; [exact H1|exact H3]]. rewrite <- slice_norm, <- H2. exact (c75_cut Hr H1).
  Qed.
End Sep.
Lemma around_separator : forall (E : env) (val : f64 E -> option R) (val32 : f32 E -> option R) c (d : dict E) s1 r s2 q1 q2, exact32 val val32 -> reachable c d ->
  (forall k v t, dict_value d k = Some v -> nth_error (d_tokens d) v = Some t -> pos32 (A := E) (t_dist t)) ->
  (forall w v, dict_value d w = Some v -> ~ occurs (enc r) w) -> scalar r = true -> alnum_unit E c (r, enc r) = false ->
  seg_slice c (Some d) s1 false = Ok q1 -> seg_slice c (Some d) s2 false = Ok q2 -> seg_slice c (Some d) (s1 ++ enc r ++ s2) false = Ok (q1 ++ enc r :: q2).
Proof.
  intros E val val32 c d s1 r s2 q1 q2 X Hr Hpos Hp Hs Ha H1 H2. destruct (before_separator Hr Hp s1 s2 eq_refl Hs Ha) as (q1' & q2' & K1 & K2 & K3).
  rewrite H1 in K1. injection K1 as <-. rewrite K2. assert (K4 : seg_slice c (Some d) s2 false = Ok q2'); [|congruence].
  rewrite <- slice_norm, <- K3. apply (@rest E val val32 X c d (inv_ok (reachable_inv Hr)) Hpos (s1 ++ enc r ++ s2) (q1 ++ [enc r]) q2'). rewrite <- app_assoc. exact K2.
Qed.
