(** Two runs of segmentWords with corresponding candidates; prefixes of a text. *)
From Verif Require Import S_Split P_Utf8 P_Split S_Seg P_Dict P_Seg P_Seg2 P_Out M_Out.
Set Implicit Arguments. Unset Strict Implicit.

Section Sim.
  Variable E : env.
  Variables c1 c2 : cfg.
  Variables d1 d2 : dict E.
  Variables search1 search2 : bool.
  Variables ws1 ws2 : list bytes.
  Variable k : nat.
  Variable R : tref -> tref -> Prop.
  Hypothesis K1 : k <= length ws1.
  Hypothesis K2 : k <= length ws2.
  Hypothesis HC : forall i l, i <= l -> l < k ->
    match cand d1 search1 ws1 i (S l), cand d2 search2 ws2 i (S l) with
    | Some r1, Some r2 => R r1 r2 /\ dist_of d1 r1 = dist_of d2 r2
    | None, None => True
    | _, _ => False
    end.
  Hypothesis HL : forall i1 i2 l r1 r2, i1 <= l -> i2 <= l -> l < k -> R r1 r2 ->
    cand d1 search1 ws1 i1 (S l) = Some r1 -> cand d2 search2 ws2 i2 (S l) = Some r2 -> i1 = i2.

  Definition jrel (j1 j2 : jumper E) : Prop :=
    fst j1 = fst j2 /\ match snd j1, snd j2 with Some r1, Some r2 => R r1 r2 | None, None => True | _, _ => False end.

  Lemma update_rel : forall j1 j2 b x r1 r2, jrel j1 j2 -> R r1 r2 -> jrel (update_jumper j1 b x r1) (update_jumper j2 b x r2).
  Proof.
    intros j1 j2 b x r1 r2 [H1 H2] Hr. unfold update_jumper. rewrite H1. destruct (eqb32 E (fst j2) (lit32 E 0 0) || ltb32 E (add32 E b x) (fst j2)); [|split; assumption].
    split; [reflexivity|exact Hr].
  Qed.
  Lemma fold_rel : forall js1 js2 l is, l < k -> (forall i, In i is -> i <= l /\ base js1 i = base js2 i) ->
    jrel (fold_cands d1 search1 ws1 js1 l is) (fold_cands d2 search2 ws2 js2 l is).
  Proof.
    intros js1 js2 l is Hl. unfold fold_cands. assert (H0 : jrel (lit32 E 0 0, None) (lit32 E 0 0, None)) by (split; [reflexivity|exact I]).
    revert H0. generalize (lit32 E 0 0, @None tref) at 1 3. generalize (lit32 E 0 0, @None tref). induction is as [|i is IH]; intros j2 j1 H0 H; [exact H0|]. cbn [fold_left].
    apply IH; [|intros; apply H; right; assumption]. destruct (H i (or_introl eq_refl)) as [Hi ->]. unfold app_cand. pose proof (HC Hi Hl) as K.
    destruct (cand d1 search1 ws1 i (S l)), (cand d2 search2 ws2 i (S l)); try contradiction; [|exact H0]. destruct K as [Kr ->]. apply update_rel; assumption.
  Qed.
  Lemma jumpers_rel : forall js1 js2, Inv d1 search1 ws1 (length ws1) js1 -> Inv d2 search2 ws2 (length ws2) js2 -> forall l, l < k ->
    exists j1 j2, nth_error js1 l = Some j1 /\ nth_error js2 l = Some j2 /\ jrel j1 j2.
  Proof.
    intros js1 js2 [_ I1] [_ I2] l. induction l as [l IH] using (well_founded_induction lt_wf). intro Hl.
    rewrite (I1 l), (I2 l) by lia. eexists _, _. split; [reflexivity|]. split; [reflexivity|].
    replace (Nat.min (length ws1) (S l)) with (S l) by lia. replace (Nat.min (length ws2) (S l)) with (S l) by lia. apply fold_rel; [exact Hl|].
    intros i Hi. apply in_seq in Hi. split; [lia|]. destruct i as [|p]; [reflexivity|]. cbn [base]. destruct (IH p) as (j1 & j2 & -> & -> & Hj); [lia|lia|]. apply Hj.
  Qed.
  Lemma chains_rel : forall js1 js2, Inv d1 search1 ws1 (length ws1) js1 -> Inv d2 search2 ws2 (length ws2) js2 ->
    forall m rs1 ps1 rs2 ps2, m <= k -> chain d1 search1 ws1 js1 m rs1 ps1 -> chain d2 search2 ws2 js2 m rs2 ps2 -> Forall2 R rs1 rs2.
  Proof.
    intros js1 js2 I1 I2 m rs1 ps1 rs2 ps2 Hm H1. revert rs2 ps2 Hm. induction H1 as [|i l r1 rs1 ps1 x Hil Hl Hn Hc Hx Hch IH]; intros rs2 ps2 Hm H2.
    - inversion H2; subst. constructor.
    - inversion H2 as [|i2 l2 r2 rs2' ps2' x2 Hil2 Hl2 Hn2 Hc2 Hx2 Hch2]; subst. destruct (jumpers_rel I1 I2 (l := l)) as (j1 & j2 & N1 & N2 & _ & Hj); [lia|].
      rewrite Hn in N1. rewrite Hn2 in N2. injection N1 as <-. injection N2 as <-. cbn [snd] in Hj.
      pose proof (HL Hil Hil2 ltac:(lia) Hj Hc Hc2). subst i2. apply Forall2_app; [apply (IH _ ps2'); [lia|exact Hch2]|]. constructor; [exact Hj|constructor].
  Qed.
End Sim.

(** *** Prefixes *)
Section Prefix.
  Variable E : env.
  Variable c : cfg.
  Variable d : dict E.
  Hypothesis Hd : dict_ok c d.

  Lemma slice_firstn : forall A (l : list A) k i j, j <= k -> slice (firstn k l) i j = slice l i j.
  Proof.
    intros A l k i j H. unfold slice. rewrite skipn_firstn_comm, firstn_firstn. f_equal. lia.
  Qed.
  Lemma cand_firstn : forall ws k i l, l < k -> k <= length ws -> cand d false (firstn k ws) i (S l) = cand d false ws i (S l).
  Proof.
    intros ws k i l Hl Hk. unfold cand. rewrite slice_firstn by lia. cbn [andb]. destruct (t_get (d_trie d) (concat (slice ws i (S l)))); [reflexivity|].
    destruct (Nat.eqb_spec (S l) (S i)); [|reflexivity]. replace i with l by lia. rewrite <- (firstn_skipn k ws) at 2. rewrite nth_error_app1; [reflexivity|]. rewrite firstn_length. lia.
  Qed.
  Lemma chain_le : forall m ws js k rs ps, chain d m ws js k rs ps -> k <= length ws.
  Proof. intros m ws js k rs ps H. destruct H; lia. Qed.
  Lemma chain_prefix : forall m ws js k rs ps, chain d m ws js k rs ps -> forall a b, rs = a ++ b -> exists k' ps', k' <= k /\ chain d m ws js k' a ps'.
  Proof.
    intros m ws js k rs ps H. induction H as [|i l r rs ps x Hil Hl Hn Hc Hx Hch IH]; intros a b Hab.
    - symmetry in Hab. apply app_eq_nil in Hab as [-> ->]. exists 0, []. split; [lia|constructor].
    - destruct b as [|b0 b] using rev_ind.
      + rewrite app_nil_r in Hab. subst a. exists (S l), (ps ++ [slice ws i (S l)]). split; [lia|]. econstructor; eauto.
      + clear IHb. rewrite app_assoc in Hab. apply app_inj_tail in Hab as [-> ->]. destruct (IH a b eq_refl) as (k' & ps' & H1 & H2). exists k', ps'. split; [lia|exact H2].
  Qed.
  Lemma stable_firstn : forall ws k, stable E c ws -> stable E c (firstn k ws).
  Proof. intros ws k H a b z Hw. apply (H a b (z ++ skipn k ws)). rewrite <- (firstn_skipn k ws) at 1. rewrite Hw, <- !app_assoc. reflexivity. Qed.
  Lemma segment_words_chain : forall ws segs, stable E c ws -> Forall (fun w => w <> []) ws -> segment_words (Some d) ws false = Ok segs ->
    exists js ps, Inv d false ws (length ws) js /\ chain d false ws js (length ws) (map sg_tok segs) ps /\ positions d 0 (map sg_tok segs) = Ok segs.
  Proof.
    intros ws segs Hs Hn H. destruct (@segment_words_spec E c d false ws Hd Hs Hn) as (js & rs & ps & segs' & H1 & H2 & H3 & H4 & H5); [discriminate|].
    rewrite H in H3. injection H3 as <-. subst rs. exists js, ps. split; [exact H1|]. split; [exact H2|].
    unfold segment_words in H. cbn [andb] in H. destruct (@Inv_forward E c d false ws Hd Hs Hn ltac:(discriminate) (length ws) 0 (repeat (lit32 E 0 0, None) (length ws))) as (js' & F1 & F2); [lia|apply Inv_init|].
    rewrite F1 in H. cbn [bind] in H. apply bind_Ok in H as (rs & B1 & B2). clear - B2. assert (K : map sg_tok segs = rs); [|rewrite K; exact B2].
    revert B2. generalize 0. revert segs. induction rs as [|r rs IH]; intros segs p H; cbn [positions] in H; [injection H as <-; reflexivity|].
    apply bind_Ok in H as (t & _ & H). apply bind_Ok in H as (rest & H1 & H2). injection H2 as <-. cbn. f_equal. eapply IH, H1.
  Qed.
  Lemma positions_firstn : forall a b p segs, positions d p (a ++ b) = Ok segs -> positions d p a = Ok (firstn (length a) segs).
  Proof.
    induction a as [|r a IH]; intros b p segs H; [reflexivity|]. cbn [app positions] in *. apply bind_Ok in H as (t & -> & H). apply bind_Ok in H as (rest & H1 & H2). injection H2 as <-.
    cbn [bind length firstn]. rewrite (IH _ _ _ H1). reflexivity.
  Qed.
  (** The segments of a prefix that ends where a segment ends. *)
  Lemma segment_prefix : forall ws segs a b, stable E c ws -> Forall (fun w => w <> []) ws -> segment_words (Some d) ws false = Ok segs -> segs = a ++ b ->
    exists k, k <= length ws /\ segment_words (Some d) (firstn k ws) false = Ok a /\ exists ps, concat ps = firstn k ws /\ Forall2 (fun p s => exists t, deref d (sg_tok s) = Ok t /\ t_text t = p) ps a.
  Proof.
    intros ws segs a b Hs Hn H Hab. destruct (segment_words_chain Hs Hn H) as (js & ps & I1 & C1 & P1). rewrite Hab, map_app in C1.
    destruct (chain_prefix C1 eq_refl) as (k & ps' & Hk & C2). exists k. split; [exact Hk|].
    assert (Hs' := @stable_firstn ws k Hs). assert (Hn' : Forall (fun w => w <> []) (firstn k ws)) by (rewrite <- (firstn_skipn k ws) in Hn; apply Forall_app in Hn; apply Hn).
    destruct (@segment_words_spec E c d false (firstn k ws) Hd Hs' Hn') as (js2 & rs2 & ps2 & segs2 & I2 & C3 & H3 & H4 & _); [discriminate|].
    assert (Hlen : length (firstn k ws) = k) by (rewrite firstn_length; lia).
    assert (Hr : Forall2 eq (map sg_tok a) rs2).
    { eapply (@chains_rel E d d false false ws (firstn k ws) k eq Hk) with (js1 := js) (js2 := js2) (m := k) (ps1 := ps') (ps2 := ps2); try eassumption; try lia.
      - intros i l Hil Hl. rewrite (@cand_firstn ws k i l Hl Hk). destruct (cand d false ws i (S l)); auto.
      - intros i1 i2 l r1 r2 L1 L2 Hl <- G1 G2. rewrite (@cand_firstn ws k i2 l Hl Hk) in G2.
        destruct (@cand_spec E c d false ws Hd Hs ltac:(discriminate) i1 (S l) r1) as (t1 & D1 & _ & N1 & _); [lia|lia|exact G1|].
        destruct (@cand_spec E c d false ws Hd Hs ltac:(discriminate) i2 (S l) r1) as (t2 & D2 & _ & N2 & _); [lia|lia|exact G2|]. assert (t1 = t2) by congruence. subst t2. lia.
      - rewrite Hlen in C3. exact C3. }
    assert (Hrs : rs2 = map sg_tok a) by (clear - Hr; induction Hr; congruence). rewrite Hrs in C3, H4. clear Hrs Hr rs2.
    assert (Ha : segs2 = a).
    { destruct (segment_words_chain Hs' Hn' H3) as (_ & _ & _ & _ & P2). rewrite H4 in P2. rewrite Hab, map_app in P1. apply positions_firstn in P1. rewrite P1 in P2. injection P2 as <-.
      rewrite map_length, firstn_app, Nat.sub_diag, firstn_all. cbn. rewrite app_nil_r. reflexivity. }
    subst segs2. split; [exact H3|]. exists ps2.
    destruct (@chain_pieces E c d false (firstn k ws) Hd Hs' ltac:(discriminate) js2 (length (firstn k ws)) (map sg_tok a) ps2 C3 (le_n _)) as (Q1 & _ & Q2 & _). rewrite firstn_all in Q1. split; [exact Q1|].
    clear - Q2. revert ps2 Q2. induction a as [|s a IH]; intros ps2 Q2; cbn [map] in Q2; inversion Q2; subst; constructor; auto.
  Qed.
End Prefix.
