(** What CalcToken has done when it returns, while other goroutines run. *)
From Verif Require Import S_Conc S_Split S_Meta P_Utf8 P_Split P_Dict P_Seg P_Seg2 P_Hist P_Heap P_Conc P_Local P_Conc2.
Set Implicit Arguments. Unset Strict Implicit.

(** *** Assertions about the dictionary that other goroutines keep: [I] always holds, [R] relates earlier to later dictionaries. [rg Q p d]: from [d] on, whatever
    the others do between the steps, [p] does not panic, keeps to [I] and [R], and [Q] holds of its result and the dictionary when it returns. *)
Section Rg.
  Variable E : env.
  Variable I : dict E -> Prop.
  Variable R : dict E -> dict E -> Prop.
  Hypothesis Rr : forall d, R d d.
  Hypothesis Rt : forall a b d, R a b -> R b d -> R a d.
  Fixpoint rg (A : Type) (Q : A -> dict E -> Prop) (p : prog E A) (d : dict E) : Prop :=
    match p with
    | Ret a => Q a d
    | Crash | Stuck => False
    | Read f => forall d', I d' -> R d d' -> rg Q (f d') d'
    | Write f p => forall d', I d' -> R d d' -> I (f d') /\ R d' (f d') /\ rg Q p (f d')
    end.
  Lemma rg_bnd : forall A B (Q : A -> dict E -> Prop) (S : B -> dict E -> Prop) (p : prog E A) (k : A -> prog E B) d, I d -> rg Q p d ->
    (forall a d', I d' -> R d d' -> Q a d' -> rg S (k a) d') -> rg S (bnd p k) d.
  Proof.
    intros A B Q S p k. induction p as [a| | |f IH|f p IH]; cbn; intros d Hi Hp Hk; try contradiction.
    - apply Hk; auto.
    - intros d' H1 H2. apply IH; auto. intros a d2 H3 H4. apply Hk; eauto.
    - intros d' H1 H2. destruct (Hp d' H1 H2) as (H3 & H4 & H5). split; [exact H3|]. split; [exact H4|]. apply IH; auto. intros a d2 H6 H7. apply Hk; eauto.
  Qed.
  Definition kept (P : dict E -> Prop) : Prop := forall d d', P d -> R d d' -> P d'.
  Lemma rg_frame : forall A (Q S : A -> dict E -> Prop) (P : dict E -> Prop) (p : prog E A) d, kept P -> P d -> rg Q p d -> (forall a d', Q a d' -> P d' -> S a d') -> rg S p d.
  Proof.
    intros A Q S P p. induction p as [a| | |f IH|f p IH]; cbn; intros d HP Hd Hp HS; try contradiction; auto.
    - intros d' H1 H2. apply IH; eauto.
    - intros d' H1 H2. destruct (Hp d' H1 H2) as (H3 & H4 & H5). split; [exact H3|]. split; [exact H4|]. apply IH; eauto.
  Qed.
  Lemma rg_later : forall A (Q : A -> dict E -> Prop) (p : prog E A) d d', (forall a, kept (Q a)) -> rg Q p d -> R d d' -> rg Q p d'.
  Proof. intros A Q p d d' HQ Hp H. destruct p; cbn in *; try contradiction; [exact (HQ _ _ _ Hp H)| |]; intros d2 H1 H2; apply Hp; eauto. Qed.
  Lemma rg_read : forall A (Q : A -> dict E -> Prop) (f : dict E -> res A) d, (forall d', I d' -> R d d' -> exists a, f d' = Ok a /\ Q a d') -> rg Q (read f) d.
  Proof. intros A Q f d H d' H1 H2. destruct (H d' H1 H2) as (a & -> & Ha). exact Ha. Qed.
  (** From the logic without state. *)
  Lemma safe_rg : forall (I1 : dict E -> Prop), (forall d, I d -> I1 d) -> (forall d d', I d -> I1 d' -> R d d' -> I d') ->
    forall A (Q : A -> Prop) (p : prog E A), safe I1 Q p -> writes R p -> forall d, rg (fun a _ => Q a) p d.
  Proof.
    intros I1 H1 H2 A Q p. induction p as [a| | |f IH|f p IH]; cbn; intros Hp Hw d; auto.
    intros d' Hi Hr. destruct Hp as [P1 P2], Hw as [W1 W2]. split; [eapply H2; eauto|]. split; [apply W1|]. apply IH; assumption.
  Qed.

  (** The machine. *)
  Variable Q : call E -> answer E -> dict E -> Prop.
  Hypothesis HQ : forall k a, kept (Q k a).
  Definition well (ks : list (call E)) (m : dict E * list (prog E (answer E))) : Prop := I (fst m) /\ Forall2 (fun k p => rg (Q k) p (fst m)) ks (snd m).
  Lemma well_step : forall ks j m, well ks m -> well ks (step j m).
  Proof.
    intros ks j [d ps] [H1 H2]. unfold step. cbn [fst snd] in *. destruct (nth_error ps j) as [p|] eqn:Hj; [|split; assumption]. destruct (F2_nth2 H2 Hj) as (k & Hk & Hs).
    destruct p as [a| | |f|f p]; cbn in Hs; try (split; assumption).
    - split; [exact H1|]. cbn [fst snd]. eapply F2_upd; [exact H2|exact Hk|]. apply Hs; auto.
    - destruct (Hs d H1 (Rr d)) as (S1 & S2 & S3). split; [exact S1|]. cbn [fst snd]. eapply F2_upd; [|exact Hk|exact S3].
      clear -H2 S2 HQ Rt. induction H2 as [|k q ks ps Hq H2 IH]; constructor; auto. eapply rg_later; [apply HQ|exact Hq|exact S2].
  Qed.
  Lemma well_run : forall ks sched m, well ks m -> well ks (run sched m).
  Proof. intros ks. induction sched as [|j sched IH]; intros m H; [exact H|]. cbn [run]. apply IH, well_step, H. Qed.
End Rg.

Section Dist.
  Variables (E : env) (c : cfg) (d0 : dict E).
  Hypothesis Hd : dict_ok c d0.
  (** The distance CalcToken computes. *)
  Definition aim (f : f64 E) : f32 E := sub32 E (to32 E (m_log2 E (d_total d0))) (to32 E (m_log2 E f)).
  Definition dist_ok (j : nat) (d : dict E) : Prop := forall t, nth_error (d_tokens d) j = Some t -> t_dist t = aim (t_freq t).
  Definition keeps (d d' : dict E) : Prop := d_total d' = d_total d /\ forall j, dist_ok j d -> dist_ok j d'.
  Lemma keeps_refl : forall d, keeps d d.
  Proof. unfold keeps. auto. Qed.
  Lemma keeps_trans : forall a b d, keeps a b -> keeps b d -> keeps a d.
  Proof. unfold keeps. intros a b d [A1 A2] [B1 B2]. split; [congruence|auto]. Qed.
  Definition IA (d : dict E) : Prop := less d0 d /\ d_total d = d_total d0.
  Lemma IA_next : forall d d', IA d -> less d0 d' -> keeps d d' -> IA d'.
  Proof. intros d d' [H1 H2] H3 [H4 _]. split; [exact H3|congruence]. Qed.

  Lemma keeps_segs : forall d i (g : list segment), keeps d (match nth_error (d_tokens d) i with Some t => set_tokens d (upd (d_tokens d) i (set_segs t g)) | None => d end).
  Proof.
    intros d i g. destruct (nth_error (d_tokens d) i) as [t|] eqn:Hi; [|apply keeps_refl]. split; [reflexivity|]. cbn [d_tokens set_tokens]. intros j Hj t' Ht'.
    cbn [d_tokens set_tokens] in Ht'. destruct (Nat.eq_dec i j) as [<-|Hne].
    - rewrite nth_upd_eq in Ht' by (apply nth_error_Some; congruence). injection Ht' as <-. cbn. apply Hj, Hi.
    - rewrite nth_upd_neq in Ht' by exact Hne. apply Hj, Ht'.
  Qed.
  Lemma writes_segs' : forall is, writes keeps (calc_segs_p E is).
  Proof.
    intros is. induction is as [|i is IH]; [exact I|]. cbn [calc_segs_p]. apply writes_bnd; [apply writes_ro, ro_read|]. intro t. apply writes_bnd; [apply writes_ro, ro_segment_words|].
    intro l. apply writes_bnd; [apply writes_ro, ro_keep|]. intro l'. split; [intro d; apply keeps_segs|exact IH].
  Qed.
  Lemma writes_remove : forall text, writes keeps (seg_remove_token_p E c text).
  Proof.
    intros text. unfold seg_remove_token_p. rewrite split_words_eq. cbn [local bnd]. unfold remove_token_p. intro d1. destruct (t_delete _ _ _); [|exact I].
    split; [|exact I]. intro d. split; [reflexivity|]. intros j Hj t1 Ht1. apply Hj, Ht1.
  Qed.

  (** A generic step: the distance of token [i] is written. *)
  Definition put (i : nat) (x : f32 E) (d : dict E) : dict E :=
    match nth_error (d_tokens d) i with Some t => set_tokens d (upd (d_tokens d) i (set_dist t x)) | None => d end.
  Lemma put_total : forall i x d, d_total (put i x d) = d_total d.
  Proof. intros i x d. unfold put. destruct (nth_error _ _); reflexivity. Qed.
  Lemma put_keeps : forall i f d, (forall t, nth_error (d_tokens d) i = Some t -> t_freq t = f) -> keeps d (put i (aim f) d) /\ dist_ok i (put i (aim f) d).
  Proof.
    intros i f d Hf. unfold put. destruct (nth_error (d_tokens d) i) as [t|] eqn:Hi.
    - assert (K : dist_ok i (set_tokens d (upd (d_tokens d) i (set_dist t (aim f))))).
      { intros t' Ht'. cbn [d_tokens set_tokens] in Ht'. rewrite nth_upd_eq in Ht' by (apply nth_error_Some; congruence). injection Ht' as <-. cbn. rewrite (Hf t eq_refl). reflexivity. }
      split; [|exact K]. split; [reflexivity|]. intros j Hj. destruct (Nat.eq_dec i j) as [<-|Hne]; [exact K|].
      intros t' Ht'. cbn [d_tokens set_tokens] in Ht'. rewrite nth_upd_neq in Ht' by exact Hne. apply Hj, Ht'.
    - split; [apply keeps_refl|]. intros t Ht. congruence.
  Qed.
  Lemma dist_kept : forall j, kept keeps (dist_ok j).
  Proof. intros j d d' H [_ K]. auto. Qed.
  Lemma less_freq : forall d d' i t, less d0 d -> less d0 d' -> nth_error (d_tokens d) i = Some t -> forall t', nth_error (d_tokens d') i = Some t' -> t_freq t' = t_freq t.
  Proof.
    intros d d' i t (_ & _ & H1) (_ & _ & H2) Ht t' Ht'. rewrite <- H2 in H1. destruct (map_nth_eq H1 Ht') as (t2 & K1 & K2). rewrite Ht in K1. injection K1 as <-. unfold tfp in K2. congruence.
  Qed.

  (** Parametrised by the invariant and the relation, to serve twice. *)
  Lemma rg_dist : forall (J : dict E -> Prop) (R : dict E -> dict E -> Prop), (forall d, J d -> less d0 d) -> (forall a b d, R a b -> R b d -> R a d) -> (forall d d', R d d' -> keeps d d') ->
    (forall i f d, J d -> (forall t, nth_error (d_tokens d) i = Some t -> t_freq t = f) -> J (put i (aim f) d) /\ R d (put i (aim f) d)) ->
    forall is d, J d -> Forall (fun i => i < length (d_tokens d0)) is -> rg J R (fun _ d' => forall i, In i is -> dist_ok i d') (calc_dist_p (to32 E (m_log2 E (d_total d0))) is) d.
  Proof.
    intros J R HJ HT HR HP is. induction is as [|i is IH]; intros d Hi Hall; [intros j []|]. inversion_clear Hall as [|? ? Hlt Hall']. cbn [calc_dist_p read bnd].
    intros d1 I1 R1. destruct (less_get (HJ _ I1) Hlt) as (t0 & t & _ & Hg & _). unfold get in *. destruct (nth_error (d_tokens d1) i) as [t'|] eqn:Hn; [|discriminate]. injection Hg as ->. cbn [bind local bnd].
    intros d2 I2 R2. assert (Hf : forall t', nth_error (d_tokens d2) i = Some t' -> t_freq t' = t_freq t) by (eapply less_freq; [exact (HJ _ I1)|exact (HJ _ I2)|exact Hn]).
    destruct (HP i (t_freq t) d2 I2 Hf) as [P1 P2]. destruct (put_keeps Hf) as [_ P3]. change (match nth_error (d_tokens d2) i with Some t1 => _ | None => d2 end) with (put i (aim (t_freq t)) d2).
    split; [exact P1|]. split; [exact P2|]. eapply (@rg_frame E J R HT _ _ _ (dist_ok i)); [|exact P3|apply IH; [exact P1|exact Hall']|].
    - intros a b Ha Hab. exact (dist_kept Ha (HR _ _ Hab)).
    - cbv beta. intros a d' H1 H2 j [<-|Hj]; auto.
  Qed.

  Definition dist_post (k : call E) (a : answer E) (d : dict E) : Prop := match k with CCalc => forall j, dist_ok j d | _ => True end.
  Lemma dist_post_kept : forall k a, kept keeps (dist_post k a).
  Proof. intros k a d d' H K. destruct k; cbn in *; auto. intro j. exact (dist_kept (H j) K). Qed.
  Lemma put_IA : forall i f d, IA d -> (forall t, nth_error (d_tokens d) i = Some t -> t_freq t = f) -> IA (put i (aim f) d) /\ keeps d (put i (aim f) d).
  Proof.
    intros i f d [H1 H2] Hf. split; [|apply put_keeps, Hf]. split; [|rewrite put_total; exact H2]. apply (@less_set E d0 d i (fun t => set_dist t (aim f))); [reflexivity|exact H1].
  Qed.
  Lemma IA_less : forall d, IA d -> less d0 d.
  Proof. intros d [H _]. exact H. Qed.
  Lemma mono_true : forall A (Q : A -> Prop) (p : prog E A) d, rg IA keeps (fun a _ => Q a) p d -> rg IA keeps (fun _ _ => True) p d.
  Proof. intros A Q p d H. eapply (@rg_frame E IA keeps keeps_trans _ _ _ (fun _ => True)); [|exact Logic.I|exact H|]; [intros ? ? ? ?|]; auto. Qed.
  Lemma dist_call : forall k d, no_add k -> IA d -> rg IA keeps (dist_post k) (call_p c k) d.
  Proof.
    intros k d Hk Hi. destruct k as [s m|w|text freq pos|text|]; cbn [call_p]; try contradiction.
    - eapply mono_true, safe_rg; [exact IA_less|exact IA_next|apply (@safe_call E c d0 Hd (CSegment s m) Logic.I)|]. apply writes_ro, ro_bnd; [apply ro_segment|]. intro; exact Logic.I.
    - eapply mono_true, safe_rg; [exact IA_less|exact IA_next|apply (@safe_call E c d0 Hd (CFind w) Logic.I)|]. apply writes_ro, ro_bnd; [apply ro_find|]. intro; exact Logic.I.
    - eapply mono_true, safe_rg; [exact IA_less|exact IA_next|apply (@safe_call E c d0 Hd (CRemove text) Logic.I)|]. apply writes_bnd; [apply writes_remove|]. intro; exact Logic.I.
    - eapply (@rg_bnd E IA keeps keeps_refl keeps_trans _ _ (fun _ d => forall j, dist_ok j d)); [exact Hi| |intros [] d' _ _ H; exact H].
      unfold calc_token_p. intros d1 [I1 T1] _. rewrite T1. intros d2 I2 _.
      eapply (@rg_bnd E IA keeps keeps_refl keeps_trans); [exact I2|apply (rg_dist IA_less keeps_trans); [auto|exact put_IA|exact I2|apply (@seq_lt E d0), I2]|].
      cbv beta. intros _ d3 I3 R3 Hall. assert (Hall' : forall j, dist_ok j d3).
      { intro j. destruct (Nat.lt_ge_cases j (length (d_tokens d2))) as [Hj|Hj]; [apply Hall, in_seq; lia|]. intros t Ht. exfalso. assert (Hl : j < length (d_tokens d3)) by (apply nth_error_Some; congruence). rewrite (less_len (IA_less I3)), <- (less_len (IA_less I2)) in Hl. lia. }
      intros d4 I4 R4. assert (H4 : forall j, dist_ok j d4) by (intro j; exact (dist_kept (Hall' j) R4)).
      eapply (@rg_frame E IA keeps keeps_trans _ (fun _ _ => True) _ (fun d => forall j, dist_ok j d)); [intros a b Ha Hab j; exact (dist_kept (Ha j) Hab)|exact H4| |auto].
      eapply mono_true, safe_rg; [exact IA_less|exact IA_next|apply (@safe_segs E c d0 Hd)|apply writes_segs'].
      apply (@seq_lt E d0), I4.
  Qed.
  Theorem dist_done : forall ks sched i a, (forall k, In k ks -> no_add k) -> nth_error ks i = Some CCalc -> let m := run sched (start c d0 ks) in
    nth_error (snd m) i = Some (Ret a) -> forall j, dist_ok j (fst m).
  Proof.
    intros ks sched i a Hk Hi m Ha. assert (W : well IA keeps dist_post ks m).
    { apply (well_run keeps_refl keeps_trans dist_post_kept). assert (I0 : IA d0) by (split; [apply less_refl|reflexivity]). split; [exact I0|]. cbn [start fst snd].
      clear -Hk Hd I0. induction ks as [|k ks IH]; [constructor|]. cbn [map]. constructor; [apply dist_call; [apply Hk; left; reflexivity|exact I0]|]. apply IH. intros k' Hk'. apply Hk. right. exact Hk'. }
    destruct W as [_ W]. destruct (F2_nth2 W Ha) as (k & K1 & K2). rewrite Hi in K1. injection K1 as <-. exact K2.
  Qed.
End Dist.

(** *** Programs that do not look at the sub-segments of tokens *)
Section Blind.
  Variable E : env.
  Definition like (d d' : dict E) : Prop := d_trie d = d_trie d' /\ d_max d = d_max d' /\ map (@td E) (d_tokens d) = map (@td E) (d_tokens d').
  Fixpoint blind (A : Type) (p : prog E A) : Prop :=
    match p with Read f => (forall d d', like d d' -> f d = f d') /\ forall d, blind (f d) | Write _ _ => False | _ => True end.
  Lemma blind_bnd : forall A B (p : prog E A) (k : A -> prog E B), blind p -> (forall a, blind (k a)) -> blind (bnd p k).
  Proof.
    intros A B p k. induction p as [a| | |f IH|f p IH]; cbn; intros Hp Hk; auto. destruct Hp as [H1 H2]. split; [|auto]. intros d d' H. rewrite (H1 d d' H). reflexivity.
  Qed.
  Lemma blind_local : forall A (r : res A), blind (local E r).
  Proof. intros A [a| |]; exact I. Qed.
  Lemma blind_read : forall A B (f : dict E -> res A) (k : A -> prog E B), (forall d d', like d d' -> bnd (local E (f d)) k = bnd (local E (f d')) k) -> (forall a, blind (k a)) -> blind (bnd (read f) k).
  Proof. intros A B f k H1 H2. split; [exact H1|]. intro d. apply blind_bnd; [apply blind_local|exact H2]. Qed.
  Lemma like_len : forall d d', like d d' -> length (d_tokens d) = length (d_tokens d').
  Proof. intros d d' (_ & _ & H). exact (len_sim H). Qed.
  Lemma blind_lookup : forall cap ws id acc, blind (lookup_p E cap ws id acc).
  Proof.
    intros cap. induction ws as [|w ws IH]; intros id acc; [exact I|]. cbn [lookup_p blind]. split; [intros d d' (H & _); rewrite H; reflexivity|]. intro d. destruct (t_jump _ _ _) as [id'|]; [|exact I].
    cbn [blind]. split; [intros d1 d' (H & _); rewrite H; reflexivity|]. intro d1. destruct (t_value _ _) as [v|]; [|apply IH]. cbn [blind]. split; [intros d2 d' H; rewrite (like_len H); reflexivity|].
    intro d2. destruct (_ && _); [apply IH|exact I].
  Qed.
  Lemma blind_update : forall search n cur b found js, blind (update_all_p (E := E) search n cur b found js).
  Proof.
    intros search n cur b. induction found as [|v vs IH]; intros js; [exact I|]. cbn [update_all_p]. apply blind_read.
    - intros d d' (_ & _ & H). pose proof (get_sim H v) as K. destruct (get (d_tokens d) v) as [t1| |], (get (d_tokens d') v) as [t2| |]; try contradiction; try reflexivity.
      destruct K as [K1 K2]. cbn [local bnd]. rewrite K1, K2. reflexivity.
    - intro t. destruct (cur + length (t_text t)) as [|l]; [exact I|]. destruct (_ || _); [|apply IH]. apply blind_bnd; [apply blind_local|]. intro j. apply IH.
  Qed.
  Lemma blind_step : forall cap search text cur js, blind (seg_step_p (E := E) cap search text cur js).
  Proof.
    intros. unfold seg_step_p. apply blind_bnd; [apply blind_local|]. intro b. apply blind_read; [intros d d' (_ & H & _); rewrite H; reflexivity|]. intro tx. apply blind_bnd; [apply blind_lookup|].
    intro found. apply blind_bnd; [apply blind_update|]. intro js'.
    assert (K : forall add : bool, blind (if add then bnd (local E (get text cur)) (fun w => bnd (local E (get js' cur)) (fun j => Ret (upd js' cur (update_jumper j b (lit32 E 32 0) (Fallback w))))) else Ret js')).
    { intros [|]; [|exact I]. apply blind_bnd; [apply blind_local|]. intro w. apply blind_bnd; [apply blind_local|]. intro j. exact I. }
    destruct found as [|v vs]; [exact (K true)|]. apply blind_read; [|exact K].
    intros d d' (_ & _ & H). pose proof (get_sim H v) as G. destruct (get (d_tokens d) v) as [t1| |], (get (d_tokens d') v) as [t2| |]; try contradiction; try reflexivity.
    destruct G as [G _]. cbn [bind]. rewrite G. reflexivity.
  Qed.
  Lemma blind_forward : forall cap search text k cur js, blind (seg_forward_p (E := E) cap search text k cur js).
  Proof. intros cap search text. induction k as [|k IH]; intros cur js; [exact I|]. cbn [seg_forward_p]. apply blind_bnd; [apply blind_step|]. intro js'. apply IH. Qed.
  Lemma blind_deref : forall B r (k : token E -> prog E B), (forall t t', t_text t = t_text t' -> k t = k t') -> (forall t, blind (k t)) -> blind (bnd (read (fun d => deref d r)) k).
  Proof.
    intros B r k H1 H2. apply blind_read; [|exact H2]. intros d d' (_ & _ & H). pose proof (deref_text H r) as K.
    destruct (deref d r) as [t1| |], (deref d' r) as [t2| |]; try contradiction; try reflexivity. cbn [local bnd]. apply H1, K.
  Qed.
  Lemma blind_back : forall js fuel i acc, blind (seg_back_p (E := E) fuel js i acc).
  Proof.
    intros js. induction fuel as [|f IH]; intros [|i] acc; try exact I. cbn [seg_back_p]. apply blind_bnd; [apply blind_local|].
    intros [x [r|]]; [|exact I]. cbn [snd]. apply blind_deref; [intros t t' ->; reflexivity|]. intro t. apply IH.
  Qed.
  Lemma blind_positions : forall rs p, blind (positions_p E p rs).
  Proof.
    induction rs as [|r rs IH]; intro p; [exact I|]. cbn [positions_p]. apply blind_deref; [intros t t' ->; reflexivity|]. intro t. apply blind_bnd; [apply IH|]. intro; exact I.
  Qed.
  Lemma blind_words : forall text search, blind (segment_words_p E text search).
  Proof.
    intros. unfold segment_words_p. destruct (_ && _); [exact I|]. apply blind_read; [intros d d' (_ & H & _); rewrite H; reflexivity|]. intro cap. apply blind_bnd; [apply blind_forward|].
    intro js. apply blind_bnd; [apply blind_back|]. intro rs. apply blind_positions.
  Qed.
  Lemma blind_keep : forall l, blind (keep_subs_p E l).
  Proof. induction l as [|s l IH]; [exact I|]. cbn [keep_subs_p]. apply blind_deref; [intros t t' ->; reflexivity|]. intro t. apply blind_bnd; [exact IH|]. intro r. exact I. Qed.

  Variables (I0 : dict E -> Prop) (R : dict E -> dict E -> Prop) (P : dict E -> Prop) (dd : dict E).
  Hypothesis HP : forall d d', P d -> I0 d' -> R d d' -> P d'.
  Hypothesis HL : forall d, P d -> like d dd.
  Lemma rg_blind : forall A (p : prog E A) a d, blind p -> P d -> rv dd p = Ok a -> rg I0 R (fun x _ => x = a) p d.
  Proof.
    intros A p. unfold rv. induction p as [x| | |f IH|f p IH]; cbn; intros a d Hb Hd Ha; try discriminate; try contradiction; [congruence|].
    intros d' H1 H2. assert (Hd' : P d') by eauto. destruct Hb as [B1 B2]. apply IH; [apply B2|exact Hd'|]. rewrite (B1 d' dd (HL Hd')). exact Ha.
  Qed.
End Blind.

Lemma calc_segs_nth : forall E (d : dict E) l ts i t, calc_segs d l = Ok ts -> nth_error l i = Some t ->
  exists segs kept, segment_words (Some d) (t_text t) true = Ok segs /\ keep_subs d segs = Ok kept /\ nth_error ts i = Some (set_segs t kept).
Proof.
  intros E d. induction l as [|t0 l IH]; intros ts [|i] t H Hi; try discriminate; cbn [calc_segs] in H; apply bind_Ok in H as (segs & H1 & H); apply bind_Ok in H as (kp & H2 & H);
    apply bind_Ok in H as (rest & H3 & H); injection H as <-; cbn in *.
  - injection Hi as ->. eauto.
  - eauto.
Qed.
Lemma calc_segs_len : forall E (d : dict E) l ts, calc_segs d l = Ok ts -> length ts = length l.
Proof.
  intros E d. induction l as [|t0 l IH]; intros ts H; cbn [calc_segs] in H; [injection H as <-; reflexivity|].
  apply bind_Ok in H as (segs & H1 & H); apply bind_Ok in H as (kp & H2 & H); apply bind_Ok in H as (rest & H3 & H); injection H as <-. cbn. rewrite (IH _ H3). reflexivity.
Qed.
Lemma nth_ext' : forall A (l l' : list A), (forall i, nth_error l i = nth_error l' i) -> l = l'.
Proof.
  intros A. induction l as [|a l IH]; intros [|b l'] H; [reflexivity|specialize (H 0); discriminate|specialize (H 0); discriminate|].
  pose proof (H 0) as H0. cbn in H0. injection H0 as ->. f_equal. apply IH. intro i. exact (H (S i)).
Qed.

Section Full.
  Variables (E : env) (c : cfg) (d0 d1 : dict E).
  Hypothesis Hd : dict_ok c d0.
  Hypothesis Hc : calc_token d0 = Ok d1.
  Let dd := calc_dist d0.
  Lemma final : forall i t0, nth_error (d_tokens d0) i = Some t0 -> exists segs kp t1, nth_error (d_tokens d1) i = Some t1 /\ tfp t1 = tfp t0 /\ t_dist t1 = aim d0 (t_freq t0) /\
    t_segs t1 = kp /\ segment_words (Some dd) (t_text t0) true = Ok segs /\ keep_subs dd segs = Ok kp.
  Proof.
    intros i t0 Hi. unfold calc_token in Hc. apply bind_Ok in Hc as (ts & H & Hx). injection Hx as <-. fold dd in H.
    assert (Hi' : nth_error (d_tokens dd) i = Some (set_dist t0 (aim d0 (t_freq t0)))) by (unfold dd, calc_dist; cbn [d_tokens set_tokens]; rewrite nth_error_map, Hi; reflexivity).
    destruct (calc_segs_nth H Hi') as (segs & kp & H1 & H2 & H3). exists segs, kp. eexists. split; [exact H3|]. repeat (split; [reflexivity|]). split; [exact H1|exact H2].
  Qed.
  Lemma final_rest : d_trie d1 = d_trie d0 /\ d_max d1 = d_max d0 /\ d_total d1 = d_total d0 /\ length (d_tokens d1) = length (d_tokens d0).
  Proof.
    unfold calc_token in Hc. apply bind_Ok in Hc as (ts & H & Hx). injection Hx as <-. repeat (split; [reflexivity|]). cbn [d_tokens set_tokens]. rewrite (calc_segs_len H). unfold calc_dist. cbn. apply map_length.
  Qed.
  Definition IB (d : dict E) : Prop := d_trie d = d_trie d0 /\ d_max d = d_max d0 /\ d_total d = d_total d0 /\ map (@tfp E) (d_tokens d) = map (@tfp E) (d_tokens d0).
  Lemma IB_less : forall d, IB d -> less d0 d.
  Proof. intros d (H1 & H2 & H3 & H4). unfold less. rewrite H1. auto. Qed.
  Definition segs_ok (j : nat) (d : dict E) : Prop := forall t t1, nth_error (d_tokens d) j = Some t -> nth_error (d_tokens d1) j = Some t1 -> t_segs t = t_segs t1.
  Definition all_dist (d : dict E) : Prop := forall j, dist_ok d0 j d.
  Definition RB (d d' : dict E) : Prop := keeps d0 d d' /\ (IB d -> IB d') /\ (all_dist d -> forall j, segs_ok j d -> segs_ok j d').
  Lemma RB_refl : forall d, RB d d.
  Proof. intro d. split; [apply keeps_refl|auto]. Qed.
  Lemma all_kept : forall d d', all_dist d -> keeps d0 d d' -> all_dist d'.
  Proof. intros d d' H [_ K] j. auto. Qed.
  Lemma RB_trans : forall a b d, RB a b -> RB b d -> RB a d.
  Proof.
    intros a b d (A1 & A2 & A3) (B1 & B2 & B3). split; [eapply keeps_trans; eassumption|]. split; [auto|]. intros H j Hj. apply B3; [exact (all_kept H A1)|]. apply A3; assumption.
  Qed.
  Lemma RB_keeps : forall d d', RB d d' -> keeps d0 d d'.
  Proof. intros d d' [H _]. exact H. Qed.
  Lemma IB_next : forall d d', IB d -> less d0 d' -> RB d d' -> IB d'.
  Proof. intros d d' H _ (_ & K & _). auto. Qed.
  Lemma IB_set : forall d i t0 t, (nth_error (d_tokens d) i = Some t0 -> tfp t = tfp t0) -> nth_error (d_tokens d) i = Some t0 -> IB d -> IB (set_tokens d (upd (d_tokens d) i t)).
  Proof.
    intros d i t0 t Ht Hi (H1 & H2 & H3 & H4). repeat (split; [assumption|]). cbn [d_tokens set_tokens]. rewrite (map_upd_same Hi (Ht Hi)). exact H4.
  Qed.
  Lemma put_IB : forall i f d, IB d -> (forall t, nth_error (d_tokens d) i = Some t -> t_freq t = f) -> IB (put i (aim d0 f) d) /\ RB d (put i (aim d0 f) d).
  Proof.
    intros i f d Hi Hf. assert (K : IB (put i (aim d0 f) d)).
    { unfold put. destruct (nth_error (d_tokens d) i) as [t|] eqn:Hn; [|exact Hi]. eapply IB_set; [|exact Hn|exact Hi]. reflexivity. }
    split; [exact K|]. split; [apply put_keeps, Hf|]. split; [auto|]. intros _ j Hj t t1 Ht Ht1. unfold put in Ht. destruct (nth_error (d_tokens d) i) as [t2|] eqn:Hn; [|eapply Hj; eassumption].
    cbn [d_tokens set_tokens] in Ht. destruct (Nat.eq_dec i j) as [<-|Hne].
    - rewrite nth_upd_eq in Ht by (apply nth_error_Some; congruence). injection Ht as <-. cbn. exact (Hj _ _ Hn Ht1).
    - rewrite nth_upd_neq in Ht by exact Hne. exact (Hj _ _ Ht Ht1).
  Qed.
  Lemma IB_like : forall d, IB d -> all_dist d -> like d dd.
  Proof.
    intros d (H1 & H2 & H3 & H4) Ha. split; [exact H1|]. split; [exact H2|]. unfold dd, calc_dist. cbn [d_tokens set_tokens]. rewrite map_map. apply nth_ext'. intro i. rewrite !nth_error_map.
    pose proof (f_equal (fun l => nth_error l i) H4) as K. cbv beta in K. rewrite !nth_error_map in K. specialize (Ha i). unfold dist_ok in Ha.
    destruct (nth_error (d_tokens d) i) as [t|], (nth_error (d_tokens d0) i) as [t0|]; try discriminate K; [|reflexivity]. cbn in *. specialize (Ha t eq_refl).
    unfold tfp in K. injection K as K1 K2 K3. unfold td, aim in *. cbn. rewrite K1, Ha, K2. reflexivity.
  Qed.
  Definition PB (d : dict E) : Prop := IB d /\ all_dist d.
  Lemma PB_next : forall d d', PB d -> IB d' -> RB d d' -> PB d'.
  Proof. intros d d' [H1 H2] H3 H4. split; [exact H3|]. exact (all_kept H2 (RB_keeps H4)). Qed.
  Lemma PB_like : forall d, PB d -> like d dd.
  Proof. intros d [H1 H2]. apply IB_like; assumption. Qed.

  Lemma rg_segs : forall is d, PB d -> Forall (fun i => i < length (d_tokens d0)) is -> rg IB RB (fun _ d' => forall i, In i is -> segs_ok i d') (calc_segs_p E is) d.
  Proof.
    induction is as [|i is IH]; intros d HP Hall; [intros j []|]. inversion_clear Hall as [|? ? Hlt Hall']. cbn [calc_segs_p].
    destruct (nth_error (d_tokens d0) i) as [t0|] eqn:Hi0; [|apply nth_error_None in Hi0; lia]. destruct (final Hi0) as (segs & kp & t1 & F1 & F2 & F3 & F4 & F5 & F6).
    eapply (@rg_bnd E IB RB RB_refl RB_trans _ _ (fun x _ => x = t_text t0)); [exact (proj1 HP)| |].
    { apply rg_read. intros d' H1 _. destruct (less_get (IB_less H1) Hlt) as (t0' & t & K1 & K2 & K3). exists (t_text t). rewrite K2. split; [reflexivity|congruence]. }
    intros x d2 I2 R2 ->. assert (P2 : PB d2) by exact (PB_next HP I2 R2).
    eapply (@rg_bnd E IB RB RB_refl RB_trans _ _ (fun x _ => x = segs)); [exact I2|apply (rg_blind PB_next PB_like); [apply blind_words|exact P2|rewrite rv_segment_words; exact F5]|].
    intros x d3 I3 R3 ->. assert (P3 : PB d3) by exact (PB_next P2 I3 R3).
    eapply (@rg_bnd E IB RB RB_refl RB_trans _ _ (fun x _ => x = kp)); [exact I3|apply (rg_blind PB_next PB_like); [apply blind_keep|exact P3|unfold rv; rewrite ev_keep; exact F6]|].
    intros x d4 I4 R4 ->. intros d5 I5 R5. assert (P5 : PB d5) by exact (PB_next (PB_next P3 I4 R4) I5 R5).
    set (g := match nth_error (d_tokens d5) i with Some t => set_tokens d5 (upd (d_tokens d5) i (set_segs t kp)) | None => d5 end).
    assert (Ig : IB g). { unfold g. destruct (nth_error (d_tokens d5) i) as [t|] eqn:Hn; [|exact I5]. eapply IB_set; [|exact Hn|exact I5]. reflexivity. }
    assert (Sg : segs_ok i g).
    { intros t t1' Ht Ht1'. unfold g in Ht. rewrite F1 in Ht1'. injection Ht1' as <-. rewrite F4. destruct (nth_error (d_tokens d5) i) as [t2|] eqn:Hn; [|congruence]. cbn [d_tokens set_tokens] in Ht.
      rewrite nth_upd_eq in Ht by (apply nth_error_Some; congruence). injection Ht as <-. reflexivity. }
    assert (Rg : RB d5 g).
    { split; [apply keeps_segs|]. split; [auto|]. intros _ j Hj. destruct (Nat.eq_dec i j) as [<-|Hne]; [exact Sg|]. intros t t1' Ht Ht1'. unfold g in Ht.
      destruct (nth_error (d_tokens d5) i) as [t2|] eqn:Hn; [|exact (Hj _ _ Ht Ht1')]. cbn [d_tokens set_tokens] in Ht. rewrite nth_upd_neq in Ht by exact Hne. exact (Hj _ _ Ht Ht1'). }
    split; [exact Ig|]. split; [exact Rg|]. assert (Pg : PB g) by exact (PB_next P5 Ig Rg).
    eapply (@rg_frame E IB RB RB_trans _ _ _ (fun d => all_dist d /\ segs_ok i d)); [|split; [exact (proj2 Pg)|exact Sg]|apply IH; [exact Pg|exact Hall']|].
    - intros a b [A1 A2] (B1 & B2 & B3). split; [exact (all_kept A1 B1)|auto].
    - cbv beta. intros a d' H1 [_ H2] j [<-|Hj]; auto.
  Qed.

  Definition full_post (k : call E) (a : answer E) (d : dict E) : Prop := match k with CCalc => all_dist d /\ forall j, segs_ok j d | _ => True end.
  Lemma full_post_kept : forall k a, kept RB (full_post k a).
  Proof. intros k a d d' H (K1 & K2 & K3). destruct k; cbn in *; auto. destruct H as [H1 H2]. split; [exact (all_kept H1 K1)|auto]. Qed.
  Definition calm (k : call E) : Prop := match k with CSegment _ _ | CFind _ | CCalc => True | _ => False end.
  Lemma mono_true' : forall A (Q : A -> Prop) (p : prog E A) d, rg IB RB (fun a _ => Q a) p d -> rg IB RB (fun _ _ => True) p d.
  Proof. intros A Q p d H. eapply (@rg_frame E IB RB RB_trans _ _ _ (fun _ => True)); [|exact Logic.I|exact H|]; [intros ? ? ? ?|]; auto. Qed.
  Lemma full_call : forall k d, calm k -> IB d -> rg IB RB (full_post k) (call_p c k) d.
  Proof.
    intros k d Hk Hi. destruct k as [s m|w|text freq pos|text|]; cbn [call_p]; try contradiction.
    - eapply mono_true', safe_rg; [exact IB_less|exact IB_next|apply (@safe_call E c d0 Hd (CSegment s m) Logic.I)|]. apply writes_ro, ro_bnd; [apply ro_segment|]. intro; exact Logic.I.
    - eapply mono_true', safe_rg; [exact IB_less|exact IB_next|apply (@safe_call E c d0 Hd (CFind w) Logic.I)|]. apply writes_ro, ro_bnd; [apply ro_find|]. intro; exact Logic.I.
    - eapply (@rg_bnd E IB RB RB_refl RB_trans _ _ (fun _ d => all_dist d /\ forall j, segs_ok j d)); [exact Hi| |intros [] d' _ _ H; exact H].
      unfold calc_token_p. intros d2 I2 _. assert (T2 : d_total d2 = d_total d0) by apply I2. rewrite T2. intros d3 I3 _.
      eapply (@rg_bnd E IB RB RB_refl RB_trans); [exact I3|apply (@rg_dist E d0 IB RB IB_less RB_trans RB_keeps put_IB); [exact I3|apply (@seq_lt E d0), IB_less, I3]|].
      cbv beta. intros _ d4 I4 R4 Hall. assert (Hall' : all_dist d4).
      { intro j. destruct (Nat.lt_ge_cases j (length (d_tokens d3))) as [Hj|Hj]; [apply Hall, in_seq; lia|]. intros t Ht. exfalso.
        assert (Hl : j < length (d_tokens d4)) by (apply nth_error_Some; congruence). rewrite (less_len (IB_less I4)), <- (less_len (IB_less I3)) in Hl. lia. }
      intros d5 I5 R5. assert (P5 : PB d5) by exact (PB_next (conj I4 Hall') I5 R5).
      eapply (@rg_frame E IB RB RB_trans _ _ _ PB); [|exact P5|apply rg_segs; [exact P5|apply (@seq_lt E d0), IB_less, I5]|].
      + intros a b [A1 A2] (B1 & B2 & B3). split; [auto|exact (all_kept A2 B1)].
      + cbv beta. intros _ d6 H6 [I6 A6]. split; [exact A6|]. intro j. destruct (Nat.lt_ge_cases j (length (d_tokens d5))) as [Hj|Hj]; [apply H6, in_seq; lia|]. intros t t1 Ht. exfalso.
        assert (Hl : j < length (d_tokens d6)) by (apply nth_error_Some; congruence). rewrite (less_len (IB_less I6)), <- (less_len (IB_less I5)) in Hl. lia.
  Qed.
  Lemma full_eq : forall d, IB d -> all_dist d -> (forall j, segs_ok j d) -> d = d1.
  Proof.
    intros d (H1 & H2 & H3 & H4) Ha Hs. destruct final_rest as (F1 & F2 & F3 & F4).
    assert (Ht : d_tokens d = d_tokens d1).
    { apply nth_ext'. intro i. specialize (Ha i). specialize (Hs i). unfold dist_ok, segs_ok in *. pose proof (f_equal (fun l => nth_error l i) H4) as K. cbv beta in K. rewrite !nth_error_map in K.
      destruct (nth_error (d_tokens d) i) as [t|] eqn:Hi, (nth_error (d_tokens d0) i) as [t0|] eqn:Hi0; try discriminate K.
      - destruct (final Hi0) as (segs & kp & t1 & G1 & G2 & G3 & G4 & _). rewrite G1 in *. specialize (Ha t eq_refl). specialize (Hs t t1 eq_refl eq_refl). cbn in K. injection K as K1 K2 K3.
        unfold tfp in G2. injection G2 as L1 L2 L3. f_equal. destruct t, t1; cbn in *. congruence.
      - symmetry. apply nth_error_None. rewrite F4. apply nth_error_None. exact Hi0. }
    destruct d, d1; cbn in *. congruence.
  Qed.
  Lemma calm_well : forall ks sched, (forall k, In k ks -> calm k) -> well IB RB full_post ks (run sched (start c d0 ks)).
  Proof.
    intros ks sched Hk. apply (well_run RB_refl RB_trans full_post_kept). assert (I0 : IB d0) by (repeat split; reflexivity). split; [exact I0|]. cbn [start fst snd].
    induction ks as [|k ks IH]; [constructor|]. cbn [map]. constructor; [apply full_call; [apply Hk; left; reflexivity|exact I0]|]. apply IH. intros k' Hk'. apply Hk. right. exact Hk'.
  Qed.
  Theorem calc_done : forall ks sched i a, (forall k, In k ks -> calm k) -> nth_error ks i = Some CCalc -> let m := run sched (start c d0 ks) in
    nth_error (snd m) i = Some (Ret a) -> fst m = d1.
  Proof.
    intros ks sched i a Hk Hi m Ha. destruct (calm_well sched Hk) as [W1 W2]. fold m in W1, W2. destruct (F2_nth2 W2 Ha) as (k & K1 & K2). rewrite Hi in K1. injection K1 as <-.
    cbn in K2. destruct K2. apply full_eq; assumption.
  Qed.
End Full.

Section After.
  Variables (E : env) (c : cfg).
  Lemma run_app : forall s1 s2 (m : dict E * list (prog E (answer E))), run (s1 ++ s2) m = run s2 (run s1 m).
  Proof. induction s1 as [|i s1 IH]; intros s2 m; [reflexivity|]. cbn [run app]. apply IH. Qed.
  Lemma ret_step : forall j i a (m : dict E * list (prog E (answer E))), nth_error (snd m) i = Some (Ret a) -> nth_error (snd (step j m)) i = Some (Ret a).
  Proof.
    intros j i a m H. destruct (Nat.eq_dec i j) as [<-|Hne]; [|rewrite step_other by exact Hne; exact H]. unfold step. rewrite H. exact H.
  Qed.
  Lemma ret_run : forall sched i a (m : dict E * list (prog E (answer E))), nth_error (snd m) i = Some (Ret a) -> nth_error (snd (run sched m)) i = Some (Ret a).
  Proof. induction sched as [|j sched IH]; intros i a m H; [exact H|]. cbn [run]. apply IH, ret_step, H. Qed.
  (** While the dictionary stays what it is, a reader advances as if it were alone. *)
  Lemma frozen : forall d1 j (p : prog E (answer E)), ro p -> forall sched (m : dict E * list (prog E (answer E))), (forall s s', sched = s ++ s' -> fst (run s m) = d1) ->
    nth_error (snd m) j = Some p -> exists q, nth_error (snd (run sched m)) j = Some q /\ ro q /\ rv d1 q = rv d1 p.
  Proof.
    intros d1 j p Hp sched. revert p Hp. induction sched as [|i sched IH]; intros p Hp m Hf Hj; [exists p; auto|]. cbn [run].
    assert (Hf' : forall s s', sched = s ++ s' -> fst (run s (step i m)) = d1) by (intros s s' ->; apply (Hf (i :: s) s'); reflexivity).
    destruct (Nat.eq_dec j i) as [<-|Hne].
    - destruct p as [a| | |f|f p].
      4:{ destruct (IH (f (fst m)) (Hp _) (step j m) Hf') as (q & Q1 & Q2 & Q3).
        - unfold step. rewrite Hj. cbn [snd]. apply nth_upd_eq, nth_error_Some. congruence.
        - exists q. split; [exact Q1|]. split; [exact Q2|]. rewrite Q3. pose proof (Hf [] (j :: sched) eq_refl) as F. cbn [run] in F. rewrite F. reflexivity. }
      4:{ contradiction. }
      all: apply (IH _ Hp (step j m) Hf'); unfold step; rewrite Hj; exact Hj.
    - apply (IH p Hp (step i m) Hf'). rewrite step_other by exact Hne. exact Hj.
  Qed.
  Theorem after_calc : forall (d0 d1 : dict E) ks sched1 sched2 i a j k b, dict_ok c d0 -> calc_token d0 = Ok d1 -> (forall k, In k ks -> calm k) ->
    nth_error ks i = Some CCalc -> nth_error (snd (run sched1 (start c d0 ks))) i = Some (Ret a) ->
    reads_only k -> nth_error (snd (run sched1 (start c d0 ks))) j = Some (call_p c k) -> nth_error (snd (run (sched1 ++ sched2) (start c d0 ks))) j = Some (Ret b) ->
    alone c d1 k = Ok (d1, b).
  Proof.
    intros d0 d1 ks s1 s2 i a j k b Hd Hc Hk Hi Ha Hro Hj Hb. rewrite run_app in Hb.
    destruct (@frozen d1 j (call_p c k) (ro_call c Hro) s2 (run s1 (start c d0 ks))) as (q & Q1 & Q2 & Q3); [|exact Hj|].
    - intros s s' _. rewrite <- run_app. apply (calc_done Hd Hc Hk Hi (a := a)). rewrite run_app. apply ret_run, Ha.
    - rewrite Hb in Q1. injection Q1 as <-. rewrite rv_call by exact Hro. rewrite <- Q3. reflexivity.
  Qed.
End After.
