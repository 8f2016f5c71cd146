(** Removing a word that a segmentation does not use (C111). *)
From Verif Require Import S_Dict S_Seg M_Out P_Split P_Dict P_Seg P_Seg2 P_Seg3 P_Hist P_Meta4 P_Raise.
Set Implicit Arguments. Unset Strict Implicit.

Section First.
  Variables (E : env) (c : cfg) (d : dict E) (search : bool) (ws : list bytes).
  Hypothesis L : laws32 E.
  Hypothesis Hd : dict_ok c d.
  Hypothesis Hst : stable E c ws.
  Hypothesis Hsearch : search = true -> length ws <> 1.
  (** Where the token kept at [l] begins is determined by it. *)
  Lemma cand_start : forall i i' l r, i <= l -> i' <= l -> l < length ws -> cand d search ws i (S l) = Some r -> cand d search ws i' (S l) = Some r -> i = i'.
  Proof.
    intros i i' l r Hi Hi' Hl H H'. destruct (@cand_spec E c d search ws Hd Hst Hsearch i (S l) r) as (t & T1 & _ & T3 & _); [lia|lia|exact H|].
    destruct (@cand_spec E c d search ws Hd Hst Hsearch i' (S l) r) as (t' & T1' & _ & T3' & _); [lia|lia|exact H'|]. assert (t = t') by congruence. subst t'. lia.
  Qed.
  Hypothesis Hpos : forall k v t, dict_value d k = Some v -> nth_error (d_tokens d) v = Some t -> pos32 (t_dist t).
  Variable js : list (jumper E).
  Hypothesis HI : Inv d search ws (length ws) js.
  Notation cand := (cand d search ws).
  Notation at_ i r := (add32 E (base js i) (dist_of d r)).

  Lemma at_pos : forall i l r, i <= l -> l < length ws -> cand i (S l) = Some r -> pos32 (at_ i r).
  Proof.
    intros i l r Hi Hl Hc. apply (l_add L).
    - apply (@jumper_pos E c d search ws L Hd Hst Hsearch Hpos js HI). lia.
    - apply (@cand_pos E c d search ws L Hd Hst Hsearch Hpos i (S l) r); [lia|lia|exact Hc].
  Qed.
  (** Of the candidates that are nearest, the one that starts first is kept. *)
  Lemma fold_first : forall l m, l < length ws -> m <= S l ->
    let j := fold_cands d search ws js l (seq 0 m) in
    (snd j = None -> j = (lit32 E 0 0, None) /\ forall i, i < m -> cand i (S l) = None) /\
    (forall r, snd j = Some r -> exists i, i < m /\ cand i (S l) = Some r /\ fst j = at_ i r /\
       (forall i' r', i' < m -> cand i' (S l) = Some r' -> ltb32 E (at_ i' r') (fst j) = false) /\
       (forall i' r', i' < i -> cand i' (S l) = Some r' -> ltb32 E (fst j) (at_ i' r') = true)).
  Proof.
    intros l m Hl. induction m as [|m IH]; intro Hm; cbv zeta.
    - cbn. split; [split; [reflexivity|lia]|discriminate].
    - rewrite seq_S. cbn [Nat.add]. unfold fold_cands in *. rewrite fold_left_app. cbn [fold_left]. specialize (IH ltac:(lia)). cbv zeta in IH.
      set (j := fold_left _ (seq 0 m) _) in *. destruct IH as [I1 I2]. unfold app_cand. destruct (cand m (S l)) as [r0|] eqn:Ec.
      + unfold update_jumper. destruct (snd j) as [r1|] eqn:Es.
        * destruct (I2 r1 eq_refl) as (i & Hi & Hc & Hx & Hmin & Hfirst).
          assert (Pj : pos32 (fst j)) by (rewrite Hx; apply at_pos with l; [lia|exact Hl|exact Hc]). rewrite (l_nz L Pj). cbn [orb].
          destruct (ltb32 E (at_ m r0) (fst j)) eqn:Elt; cbn [fst snd].
          -- split; [discriminate|]. intros r Hr. injection Hr as <-. exists m. split; [lia|]. split; [exact Ec|]. split; [reflexivity|].
             assert (Pm : pos32 (at_ m r0)) by (apply at_pos with l; [lia|exact Hl|exact Ec]).
             assert (K : forall i' r', i' < m -> cand i' (S l) = Some r' -> ltb32 E (at_ m r0) (at_ i' r') = true).
             { intros i' r' Hi' Hc'. destruct (ltb32 E (at_ m r0) (at_ i' r')) eqn:Ex; [reflexivity|]. exfalso.
               assert (Pi : pos32 (at_ i' r')) by (apply at_pos with l; [lia|exact Hl|exact Hc']).
               pose proof (l_trans L (x := fst j) (or_intror Pj) (or_intror Pi) (or_intror Pm) (Hmin i' r' Hi' Hc') Ex) as Hbad. congruence. }
             split; [|exact K]. intros i' r' Hi' Hc'. destruct (Nat.eq_dec i' m) as [->|Hne]; [assert (r' = r0) by congruence; subst; apply (l_irr L)|].
             apply (l_asym L). apply K; [lia|exact Hc'].
          -- rewrite Es. split; [discriminate|]. intros r Hr. injection Hr as <-. exists i. split; [lia|]. split; [exact Hc|]. split; [exact Hx|]. split; [|exact Hfirst].
             intros i' r' Hi' Hc'. destruct (Nat.eq_dec i' m) as [->|Hne]; [assert (r' = r0) by congruence; subst; exact Elt|apply Hmin; [lia|exact Hc']].
        * destruct (I1 eq_refl) as [Hj Hno]. rewrite Hj. cbn [fst]. rewrite zero32_refl. cbn [orb fst snd]. split; [discriminate|].
          intros r Hr. injection Hr as <-. exists m. split; [lia|]. split; [exact Ec|]. split; [reflexivity|]. split.
          -- intros i' r' Hi' Hc'. destruct (Nat.eq_dec i' m) as [->|Hne]; [assert (r' = r0) by congruence; subst; apply (l_irr L)|rewrite (Hno i') in Hc' by lia; discriminate].
          -- intros i' r' Hi' Hc'. rewrite (Hno i') in Hc' by lia. discriminate.
      + split.
        * intro Hn. destruct (I1 Hn) as [Hj Hno]. split; [exact Hj|]. intros i Hi. destruct (Nat.eq_dec i m) as [->|]; [exact Ec|apply Hno; lia].
        * intros r Hr. destruct (I2 r Hr) as (i & Hi & Hc & Hx & Hmin & Hfirst). exists i. split; [lia|]. split; [exact Hc|]. split; [exact Hx|]. split; [|exact Hfirst].
          intros i' r' Hi' Hc'. destruct (Nat.eq_dec i' m) as [->|]; [congruence|apply Hmin; [lia|exact Hc']].
  Qed.
  Lemma jumper_first : forall l, l < length ws -> exists i r, i <= l /\ cand i (S l) = Some r /\ nth_error js l = Some (at_ i r, Some r) /\ base js (S l) = at_ i r /\
    (forall i' r', i' <= l -> cand i' (S l) = Some r' -> ltb32 E (at_ i' r') (at_ i r) = false) /\
    (forall i' r', i' < i -> cand i' (S l) = Some r' -> ltb32 E (at_ i r) (at_ i' r') = true).
  Proof.
    intros l Hl. destruct HI as [_ HI']. pose proof (HI' l Hl) as Hn. replace (Nat.min (length ws) (S l)) with (S l) in Hn by lia.
    destruct (fold_first Hl (le_n (S l))) as [F1 F2]. cbv zeta in *. set (j := fold_cands _ _ _ _ _ _) in *.
    destruct j as [x [r|]] eqn:Ej; cbn [fst snd] in *.
    - destruct (F2 r eq_refl) as (i & Hi & Hc & Hx & Hmin & Hfirst). exists i, r. split; [lia|]. split; [exact Hc|]. split; [rewrite Hn, Hx; reflexivity|].
      split; [cbn [base]; rewrite Hn; exact Hx|]. rewrite <- Hx. split; [|exact Hfirst]. intros i' r' Hi'. apply Hmin. lia.
    - exfalso. destruct (F1 eq_refl) as [_ Hno]. destruct (@cand_diag E d search ws Hsearch l Hl) as [r Hr]. rewrite (Hno l) in Hr; [discriminate|lia].
  Qed.
  Lemma chain_unique : forall k rs ps, chain d search ws js k rs ps -> forall rs' ps', chain d search ws js k rs' ps' -> rs = rs' /\ ps = ps'.
  Proof.
    induction 1 as [|i l r rs ps x Hil Hl Hn Hc Hx Hch IH]; intros rs' ps' H'.
    - inversion H'; subst; auto.
    - inversion H' as [|i2 l2 r2 rs2 ps2 x2 Hil2 Hl2 Hn2 Hc2 Hx2 Hch2]; subst. rewrite Hn in Hn2. injection Hn2 as _ <-.
      assert (i = i2) by (apply cand_start with l r; assumption). subst i2. destruct (IH _ _ Hch2) as [-> ->]. auto.
  Qed.
End First.

Section Less.
  Variables (E : env) (c : cfg) (d d' : dict E) (search : bool) (ws : list bytes).
  Hypothesis L : laws32 E.
  Hypothesis Hd : dict_ok c d.
  Hypothesis Hd' : dict_ok c d'.
  Hypothesis Hst : stable E c ws.
  Hypothesis Hsearch : search = true -> length ws <> 1.
  Hypothesis Hpos : forall k v t, dict_value d k = Some v -> nth_error (d_tokens d) v = Some t -> pos32 (t_dist t).
  Hypothesis Hdist : forall r, dist_of d' r = dist_of d r.
  (** Fewer candidates. *)
  Hypothesis Hless : forall i j r, i < j -> j <= length ws -> cand d' search ws i j = Some r -> cand d search ws i j = Some r.
  Variables (js js' : list (jumper E)).
  Hypothesis HI : Inv d search ws (length ws) js.
  Hypothesis HI' : Inv d' search ws (length ws) js'.

  Hypothesis Hpos' : forall k v t, dict_value d' k = Some v -> nth_error (d_tokens d') v = Some t -> pos32 (t_dist t).

  Lemma base_nn : forall l, l <= length ws -> nn32 (base js l) /\ nn32 (base js' l).
  Proof. intros l Hl. split; [apply (@jumper_pos E c d search ws L Hd Hst Hsearch Hpos js HI l Hl)|apply (@jumper_pos E c d' search ws L Hd' Hst Hsearch Hpos' js' HI' l Hl)]. Qed.
  (** A candidate of [d'] ends no nearer with [d'] than with [d]. *)
  Lemma at_more : forall i l r, i <= l -> l < length ws -> cand d' search ws i (S l) = Some r -> ltb32 E (base js' i) (base js i) = false ->
    ltb32 E (add32 E (base js' i) (dist_of d' r)) (add32 E (base js i) (dist_of d r)) = false.
  Proof.
    intros i l r Hi Hl Hc Hb. rewrite Hdist. destruct (@base_nn i ltac:(lia)). apply (l_mono L); [assumption|assumption| |exact Hb].
    apply (@cand_pos E c d search ws L Hd Hst Hsearch Hpos i (S l) r); [lia|lia|]. apply Hless; [lia|lia|exact Hc].
  Qed.
  Lemma base_up : forall l, l <= length ws -> ltb32 E (base js' l) (base js l) = false.
  Proof.
    induction l as [l IH] using (well_founded_induction lt_wf). intro Hl. destruct l as [|l]; [apply (l_irr L)|].
    destruct (@jumper_first E c d' search ws L Hd' Hst Hsearch Hpos' js' HI' l Hl) as (i' & r' & A1 & A2 & _ & A3 & _).
    destruct (@jumper_first E c d search ws L Hd Hst Hsearch Hpos js HI l Hl) as (i & r & B1 & B2 & _ & B3 & B4 & _).
    assert (Hc : cand d search ws i' (S l) = Some r') by (apply Hless; [lia|lia|exact A2]).
    assert (N : nn32 (add32 E (base js i') (dist_of d r'))) by (right; apply (@at_pos E c d search ws L Hd Hst Hsearch Hpos js HI i' l r'); assumption).
    rewrite A3. apply (@l_trans _ L) with (y := add32 E (base js i') (dist_of d r')).
    - apply base_nn. exact Hl.
    - exact N.
    - rewrite <- A3. apply base_nn. exact Hl.
    - rewrite B3. apply B4; assumption.
    - apply at_more with l; [exact A1|exact Hl|exact A2|]. apply IH; lia.
  Qed.
  (** The chain of [d] is still there if none of its candidates is lost. *)
  Lemma chain_kept : forall k rs ps, chain d search ws js k rs ps -> k <= length ws ->
    (forall i l r, i <= l -> l < length ws -> cand d search ws i (S l) = Some r -> In r rs -> cand d' search ws i (S l) = Some r) ->
    chain d' search ws js' k rs ps /\ base js' k = base js k.
  Proof.
    induction 1 as [|i l r rs ps x Hil Hl Hn Hc Hx Hch IH]; intros Hk Hkeep; [split; [constructor|reflexivity]|].
    destruct IH as [C B]; [lia|intros; apply Hkeep; auto; apply in_or_app; auto|].
    assert (Hc' : cand d' search ws i (S l) = Some r) by (apply Hkeep; auto; apply in_or_app; right; left; reflexivity).
    destruct (@jumper_first E c d search ws L Hd Hst Hsearch Hpos js HI l Hl) as (i0 & r0 & B1 & B2 & B3 & B4 & B5 & B6).
    rewrite Hn in B3. assert (Hr0 : r0 = r) by congruence. subst r0. assert (i0 = i) by (apply (@cand_start E c d search ws Hd Hst Hsearch i0 i l r); assumption). subst i0.
    destruct (@jumper_first E c d' search ws L Hd' Hst Hsearch Hpos' js' HI' l Hl) as (i' & r' & A1 & A2 & A3 & A4 & A5 & A6).
    assert (Hci : cand d search ws i' (S l) = Some r') by (apply Hless; [lia|lia|exact A2]).
    assert (Hv : add32 E (base js' i) (dist_of d' r) = base js (S l)) by (rewrite B, Hdist; symmetry; exact B4).
    assert (Up : ltb32 E (add32 E (base js' i') (dist_of d' r')) (add32 E (base js i') (dist_of d r')) = false) by (apply at_more with l; [exact A1|exact Hl|exact A2|apply base_up; lia]).
    assert (Hi : i' = i).
    { destruct (lt_eq_lt_dec i' i) as [[K|K]|K]; [exfalso|exact K|exfalso].
      - specialize (B6 i' r' K Hci). rewrite <- B4 in B6. specialize (A5 i r Hil Hc'). rewrite Hv in A5.
        assert (N1 : nn32 (add32 E (base js i') (dist_of d r'))) by (right; apply (@at_pos E c d search ws L Hd Hst Hsearch Hpos js HI i' l r'); assumption).
        assert (N2 : nn32 (add32 E (base js' i') (dist_of d' r'))) by (rewrite <- A4; apply base_nn; exact Hl).
        pose proof (l_trans L N1 N2 (proj1 (base_nn Hl)) Up A5). congruence.
      - specialize (A6 i r K Hc'). rewrite Hv in A6. rewrite <- A4 in A6. pose proof (base_up Hl). congruence. }
    subst i'. assert (r' = r) by congruence. subst r'. split.
    - eapply chain_S; [exact Hil|exact Hl|exact A3|exact A2|reflexivity|exact C].
    - rewrite A4. exact Hv.
  Qed.
End Less.

Lemma covers_same : forall E (d d' : dict E) text a b segs, covers d text a b segs -> b <= length text -> forall b' segs', covers d' text a b' segs' -> b' <= length text ->
  map sg_tok segs = map sg_tok segs' -> (forall r t, deref d r = Ok t -> exists t', deref d' r = Ok t' /\ t_text t' = t_text t) -> segs = segs'.
Proof.
  intros E d d' text a b segs H. induction H as [p|from mid to s rest t H1 H2 H3 H4 H5 H6 IH]; intros Hb b' segs' H' Hb' Hm Hdr.
  - destruct segs'; [reflexivity|discriminate].
  - destruct segs' as [|s' rest']; [discriminate|]. injection Hm as Hm1 Hm2. inversion H' as [|f2 m2 t2 s2 r2 u K1 K2 K3 K4 K5 K6]; subst.
    destruct (Hdr _ _ H4) as (t' & T1 & T2). rewrite Hm1 in T1. rewrite K4 in T1. injection T1 as ->. rewrite T2, H5 in K5.
    apply (f_equal (@length _)) in K5. pose proof (covers_le H6). pose proof (covers_le K6). rewrite !slice_length in K5 by lia.
    assert (Em : sg_end s = sg_end s') by lia.
    assert (Es : s = s') by (destruct s, s'; cbn in *; subst; reflexivity). f_equal; [exact Es|].
    apply IH with b'; [exact Hb|rewrite Em; exact K6|exact Hb'|exact Hm2|exact Hdr].
Qed.

Section Remove.
  Variables (E : env) (c : cfg) (d d1 d' : dict E) (text : bytes) (v : nat).
  Hypothesis L : laws32 E.
  Hypothesis Hr : reachable c d.
  Hypothesis Hr' : reachable c d'.
  Hypothesis Hpos : forall k v t, dict_value d k = Some v -> nth_error (d_tokens d) v = Some t -> pos32 (t_dist t).
  Hypothesis Hv : dict_value d (norm E c text) = Some v.
  Hypothesis Hlong : length (words_of E c text) <> 1.
  Hypothesis Hnone : dict_value d' (norm E c text) = None.
  Hypothesis Hother : forall w, w <> norm E c text -> dict_value d' w = dict_value d w.
  Hypothesis Htext : forall u t, nth_error (d_tokens d) u = Some t -> exists t', nth_error (d_tokens d') u = Some t' /\ t_text t' = t_text t /\ t_dist t' = t_dist t.
  Hypothesis Hlen : length (d_tokens d') = length (d_tokens d).

  Lemma deref_same : forall r t, deref d r = Ok t -> exists t', deref d' r = Ok t' /\ t_text t' = t_text t /\ t_dist t' = t_dist t.
  Proof.
    intros [u|w] t H; cbn [deref] in *; [|exists t; auto]. unfold get in *. destruct (nth_error (d_tokens d) u) as [t0|] eqn:Hn; [|discriminate]. injection H as ->.
    destruct (Htext Hn) as (t' & T1 & T2 & T3). exists t'. rewrite T1. auto.
  Qed.
  Lemma dist_same : forall r, dist_of d' r = dist_of d r.
  Proof.
    intros r. unfold dist_of. destruct (deref d r) as [t| |] eqn:Ed.
    - destruct (deref_same Ed) as (t' & -> & _ & ->). reflexivity.
    - destruct r as [u|w]; cbn [deref] in *; [|discriminate]. unfold get in *. destruct (nth_error (d_tokens d) u) eqn:Hn; [discriminate|].
      apply nth_error_None in Hn. rewrite <- Hlen in Hn. apply nth_error_None in Hn. rewrite Hn. reflexivity.
    - destruct r as [u|w]; cbn [deref] in *; [|discriminate]. unfold get in *. destruct (nth_error (d_tokens d) u); discriminate.
  Qed.
  Lemma cand_less : forall m ws i j, stable E c ws -> i < j -> j <= length ws ->
    (concat (slice ws i j) = norm E c text -> cand d' m ws i j = None) /\ (concat (slice ws i j) <> norm E c text -> cand d' m ws i j = cand d m ws i j).
  Proof.
    intros m ws i j Hst Hij Hj. unfold cand. rewrite <- !dict_value_get. split; intro K.
    - rewrite K, Hnone. destruct (Nat.eqb_spec j (S i)) as [->|]; [|reflexivity]. exfalso. apply Hlong. unfold words_of. rewrite split_words_eq.
      assert (Hle : i <= S i) by lia. pose proof (stable_slice Hst Hle Hj) as S1. rewrite K in S1.
      assert (S2 : wsplit E c (norm E c text) = wsplit E c text) by (rewrite <- split_concat; apply (@split_is_stable E c text [] (wsplit E c text) []); rewrite app_nil_r; reflexivity).
      rewrite <- S2, S1. rewrite slice_length by lia. lia.
    - rewrite (Hother K). reflexivity.
  Qed.
  Lemma unused : forall s m segs, internal_segment c (Some d) s m = Ok segs -> ~ In (InDict v) (map sg_tok segs) -> internal_segment c (Some d') s m = Ok segs.
  Proof.
    intros s m segs Hseg Hnot. pose proof (reachable_inv Hr) as Hi. pose proof (reachable_inv Hr') as Hi'.
    assert (Case : (m = true /\ length (wsplit E c s) = 1) \/ (m = true -> length (wsplit E c s) <> 1)) by (destruct m; [destruct (Nat.eq_dec (length (wsplit E c s)) 1); auto|right; discriminate]).
    destruct Case as [[-> H1]|Hm].
    { unfold internal_segment in *. destruct s as [|b s0]; [exact Hseg|]. rewrite split_words_eq in *. cbn [bind] in *. unfold segment_words in *. rewrite H1 in *. exact Hseg. }
    destruct (@segment_inv E c d s m Hi Hm) as (sg & A1 & A2 & _ & _ & js & ps & HI & Hch). rewrite Hseg in A1. injection A1 as <-.
    destruct (@segment_inv E c d' s m Hi' Hm) as (sg' & A1' & A2' & _ & _ & js' & ps' & HI' & Hch'). rewrite A1'. f_equal. symmetry.
    assert (Hst : stable E c (wsplit E c s)) by apply split_is_stable. set (ws := wsplit E c s) in *.
    assert (Hpos' : forall k u t, dict_value d' k = Some u -> nth_error (d_tokens d') u = Some t -> pos32 (t_dist t)).
    { intros k u t Hk Ht. assert (Hkn : k <> norm E c text) by congruence. rewrite (Hother Hkn) in Hk. pose proof Hk as Hk2. rewrite dict_value_get in Hk2. destruct (ok_entry (inv_ok Hi) Hk2) as (t0 & T0 & _).
      destruct (Htext T0) as (t' & T1 & _ & T2). assert (t' = t) by congruence. subst t'. rewrite T2. exact (Hpos Hk T0). }
    assert (Hless : forall i j r, i < j -> j <= length ws -> cand d' m ws i j = Some r -> cand d m ws i j = Some r).
    { intros i j r Hij Hj Hc. destruct (@cand_less m ws i j Hst Hij Hj) as [K1 K2]. destruct (list_eq_dec Byte.byte_eq_dec (concat (slice ws i j)) (norm E c text)) as [K|K]; [rewrite (K1 K) in Hc; discriminate|rewrite <- (K2 K); exact Hc]. }
    destruct (@chain_kept E c d d' m ws L (inv_ok Hi) (inv_ok Hi') Hst Hm Hpos dist_same Hless js js' HI HI' Hpos' _ _ _ Hch (le_n _)) as [Hk _].
    { intros i l r Hil Hl Hc Hin. destruct (@cand_less m ws i (S l) Hst ltac:(lia) Hl) as [_ K2]. rewrite K2; [exact Hc|]. intro K. apply Hnot.
      unfold cand in Hc. rewrite <- dict_value_get, K, Hv in Hc. destruct (m && (i =? 0) && (S l =? length ws)); [discriminate|]. injection Hc as <-. exact Hin. }
    destruct (@chain_unique E c d' m ws (inv_ok Hi') Hst Hm js' _ _ _ Hk _ _ Hch') as [Hrs _].
    refine (covers_same A2 _ A2' _ Hrs _); [rewrite norm_length; lia|rewrite norm_length; lia|].
    intros r t Ht. destruct (deref_same Ht) as (t' & T1 & T2 & _). eauto.
  Qed.
End Remove.
