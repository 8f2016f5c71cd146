(** Histories of a Segmenter: every dictionary is reachable, and which histories panic. *)
From Verif Require Import S_Api P_Hist P_Load P_Load2 P_Load3 P_Out2 P_Seg2.
Set Implicit Arguments. Unset Strict Implicit.

Section Api.
  Variable E : env.
  Implicit Types s : seg E.
  Definition good (c : cfg) s : Prop := s_cfg s = c /\ match s_dict s with None => True | Some d => reachable c d end.

  Lemma good_ok : forall c s, good c s -> seg_ok s.
  Proof. intros c s [<- H]. unfold seg_ok. destruct (s_dict s); [apply reachable_inv, H|exact I]. Qed.
  Lemma good_start : forall c s, good c s -> reachable c (start_dict s).
  Proof. intros c s [_ H]. unfold start_dict. destruct (s_dict s); [exact H|]. exists []. reflexivity. Qed.
  Lemma reach_ops : forall c (d d' : dict E) os, reachable c d -> run_ops c d os = Ok d' -> reachable c d'.
  Proof. intros c d d' os (o & H) K. exists (o ++ os). rewrite run_ops_app, H. exact K. Qed.
  Lemma op_total : forall c (d : dict E) o, reachable c d -> exists d', run_op c d o = Ok d' /\ reachable c d'.
  Proof.
    intros c d o H. destruct (inv_run [o] (reachable_inv H)) as (d' & H1 & _). exists d'. split; [|eapply reach_ops; eassumption].
    cbn in H1. destruct (run_op c d o); try discriminate. exact H1.
  Qed.
  Lemma on_dict_op : forall c s (o : dop E) f, good c s -> (forall d, f d = run_op (s_cfg s) d o) ->
    match s_dict s with None => on_dict s f = Panic | Some d => exists s', on_dict s f = Ok s' /\ good c s' /\ s_dict s' <> None /\ s_load s' = s_load s end.
  Proof.
    intros c s o f [Hc Hs] Hf. unfold on_dict. destruct (s_dict s) as [d|]; [|reflexivity]. rewrite Hf, Hc. destruct (op_total o Hs) as (d' & H1 & H2). rewrite H1. cbn [bind].
    eexists. split; [reflexivity|]. split; [split; [exact Hc|exact H2]|]. split; [discriminate|reflexivity].
  Qed.
  Lemma grown : forall c s s', good c s -> s_dict s' = None /\ s_dict s = None \/
     (exists os d', grows os /\ run_ops (s_cfg s) (start_dict s) os = Ok d' /\ s_dict s' = Some d') -> s_cfg s' = s_cfg s -> good c s'.
  Proof.
    intros c s s' H K Hc. split; [destruct H; congruence|]. destruct K as [[K _]|(os & d' & _ & K1 & K2)]; [rewrite K; exact I|]. rewrite K2. pose proof H as [Hs _]. rewrite Hs in K1. eapply reach_ops; [apply good_start, H|exact K1].
  Qed.

  Lemma lforce_op : forall c (d : dict E) t f p, seg_add_force c d t f p = run_ops c d [OpAdd t f p; OpCalc].
  Proof. intros. unfold seg_add_force. cbn. destruct (seg_add_token c d t f p) as [d'| |]; cbn; [|reflexivity|reflexivity]. destruct (calc_token d'); reflexivity. Qed.
  Lemma aop_good : forall c s o s', good c s -> run_aop s o = Ok s' -> good c s'.
  Proof.
    intros c s o s' H Hr. destruct o as [o|e arg|t|t f p| |]; cbn [run_aop] in Hr.
    - assert (Hc : s_load s = true \/ ~ is_ldict o \/ (s_load s = false /\ is_ldict o)) by (destruct (s_load s); [auto|]; destruct o; cbn; auto).
      destruct Hc as [Hc|[Hc|[Hc1 Hc2]]].
      + destruct (run_lop_grows (good_ok H) Hr) as (K1 & K2 & _); [auto|]. eapply grown; eauto.
      + destruct (run_lop_grows (good_ok H) Hr) as (K1 & K2 & _); [tauto|]. eapply grown; eauto.
      + destruct o; try contradiction. cbn [run_lop] in Hr. apply bind_Ok in Hr as ([s1 b] & H1 & H2). injection H2 as <-. destruct (load_dict_state Hc1 H1) as (K1 & _ & d & K2 & K3).
        destruct H as [H _]. rewrite H in *. split; [exact K1|]. cbn [fst]. rewrite K2. exact K3.
    - destruct (load_embed_strs e s arg) as (xs & Hx & He). rewrite He in Hr. destruct (load_strs_state xs (good_ok H)) as (s1 & S1 & S2 & _ & S3). assert (s1 = s') as -> by congruence.
      destruct xs; [congruence|]. destruct S3 as ((d & D1 & _ & os & D2) & _). pose proof H as [Hs _]. split; [congruence|]. rewrite D1. rewrite Hs in D2. eapply reach_ops; [apply good_start, H|exact D2].
    - change (on_dict s (fun d => run_op (s_cfg s) d (OpRemove t)) = Ok s') in Hr. pose proof (@on_dict_op c s _ _ H (fun d => eq_refl (run_op (s_cfg s) d (OpRemove t)))) as K. destruct (s_dict s); [|congruence]. destruct K as (s1 & K1 & K2 & _). congruence.
    - change (on_dict s (fun d => run_op (s_cfg s) d (OpReAdd t f p)) = Ok s') in Hr. pose proof (@on_dict_op c s _ _ H (fun d => eq_refl (run_op (s_cfg s) d (OpReAdd t f p)))) as K. destruct (s_dict s); [|congruence]. destruct K as (s1 & K1 & K2 & _). congruence.
    - change (on_dict s (fun d => run_op (s_cfg s) d OpCalc) = Ok s') in Hr. pose proof (@on_dict_op c s _ _ H (fun d => eq_refl (run_op (s_cfg s) d OpCalc))) as K. destruct (s_dict s); [|congruence]. destruct K as (s1 & K1 & K2 & _). congruence.
    - injection Hr as <-. destruct H as [H _]. split; [exact H|exact I].
  Qed.
  Lemma aops_good : forall os c s s', good c s -> run_aops s os = Ok s' -> good c s'.
  Proof.
    induction os as [|o os IH]; intros c s s' H Hr; cbn [run_aops] in Hr; [congruence|]. apply bind_Ok in Hr as (s1 & H1 & H2). eapply IH; [|exact H2]. eapply aop_good; eauto.
  Qed.

  (** What [mode] says. *)
  Definition says (m : mode) s : Prop := (fst m = true <-> s_dict s <> None) /\ snd m = s_load s.
  Lemma load_total : forall s fs arg, (s_load s = true -> exists d, s_dict s = Some d /\ reachable (s_cfg s) d) -> (forall p x fin, fs p = Some (x, fin) -> fin = REof) ->
    exists s' err, load_dict s fs arg = Ok (s', err) /\ s_load s' = true /\ s_dict s' <> None.
  Proof.
    intros s fs arg Hs Hf.
    assert (Hsplit : forall ps, (exists xs, Forall2 (fun p x => fs p = Some (x, REof)) ps xs) \/
       exists a p b xs, ps = a ++ p :: b /\ Forall2 (fun p x => fs p = Some (x, REof)) a xs /\ fs p = None).
    { induction ps as [|p ps IH]; [left; exists []; constructor|]. destruct (fs p) as [[x fin]|] eqn:Ep.
      - pose proof (Hf _ _ _ Ep). subst fin. destruct IH as [(xs & IH)|(a & q & b & xs & -> & I1 & I2)].
        + left. exists (x :: xs). constructor; auto.
        + right. exists (p :: a), q, b, (x :: xs). split; [reflexivity|]. split; [constructor; auto|exact I2].
      - right. exists [], p, ps, []. repeat split; [constructor|exact Ep]. }
    destruct (Hsplit (match arg with None => [PZhS; PZhT] | Some f => dict_paths f end)) as [(xs & HF)|(a & p & b & xs & Ha & HF & Hp)].
    - destruct (c70_all Hs HF) as (s' & _ & d & H & _ & _ & H1 & H2 & _). exists s', false. repeat split; auto. congruence.
    - destruct (c70_missing Hs Ha HF Hp) as (s' & d & H & _ & H1 & H2 & _). exists s', true. repeat split; auto. congruence.
  Qed.

  Lemma aop_total : forall c s m o, good c s -> says m s -> fine1 m o -> exists s', run_aop s o = Ok s' /\ says (next m o) s'.
  Proof.
    intros c s m o H [S1 S2] Hf.
    assert (Hd : fst m = true -> exists d, s_dict s = Some d /\ reachable c d).
    { intro Hm. destruct H as [_ H]. apply S1 in Hm. destruct (s_dict s) as [d|]; [eauto|congruence]. }
    assert (Hop : forall (x : dop E) f, (forall d, f d = run_op (s_cfg s) d x) -> fst m = true -> exists s', on_dict s f = Ok s' /\ says m s').
    { intros x f Hx Hm. pose proof (on_dict_op H Hx) as K. destruct (Hd Hm) as (d & Ed & _). rewrite Ed in K. destruct K as (s' & K1 & _ & K2 & K3). exists s'. split; [exact K1|]. split; [tauto|congruence]. }
    destruct o as [o|e arg|t|t f p| |]; cbn [run_aop next fine1 needs] in *.
    - destruct o as [txt|ms|t f p|t f p|data|fs arg]; cbn [run_lop] in *.
      + destruct (load_str_ops txt (good_ok H)) as (es & d' & _ & _ & ->). eexists. split; [reflexivity|]. split; [cbn; split; [discriminate|auto]|exact S2].
      + destruct (load_map_ops ms (good_ok H)) as (es & d' & _ & _ & ->). eexists. split; [reflexivity|]. split; [cbn; split; [discriminate|auto]|exact S2].
      + destruct (Hd (Hf I)) as (d & -> & Hr). destruct (op_total (OpAdd t f p) Hr) as (d' & H1 & _). destruct H as [-> _]. cbn [run_op] in H1. rewrite H1. cbn [bind].
        eexists. split; [reflexivity|]. split; [cbn; split; [discriminate|auto]|exact S2].
      + destruct (Hd (Hf I)) as (d & -> & Hr). rewrite lforce_op. destruct (inv_run [OpAdd t f p; OpCalc] (reachable_inv Hr)) as (d' & H1 & _). destruct H as [-> _]. rewrite H1. cbn [bind].
        eexists. split; [reflexivity|]. split; [cbn; split; [discriminate|auto]|exact S2].
      + destruct (Hd Hf) as (d & -> & Hr). destruct H as [-> _]. destruct (c60_total (s_lc s) data Hr) as (d' & ->). cbn [bind]. eexists. split; [reflexivity|]. split; [cbn; split; [discriminate|auto]|exact S2].
      + destruct Hf as [Hf1 Hf2]. destruct (@load_total s fs arg) as (s' & err & -> & K1 & K2); [|exact Hf2|].
        { intro Hl. destruct H as [-> _]. apply Hd, Hf1. congruence. }
        cbn [bind]. eexists. split; [reflexivity|]. split; [|cbn; congruence]. cbn [fst]. split; [intros _; exact K2|]. intros _.
        destruct (snd m) eqn:Em; cbn; [rewrite (Hf1 eq_refl); reflexivity|apply orb_true_r].
    - destruct (load_embed_strs e s arg) as (xs & Hx & ->). destruct (load_strs_state xs (good_ok H)) as (s1 & K1 & _ & K2 & K3). destruct xs; [congruence|]. destruct K3 as ((d & D1 & _) & _).
      exists s1. split; [exact K1|]. split; [cbn; split; [congruence|reflexivity]|cbn; congruence].
    - apply (Hop (OpRemove t)); [reflexivity|auto].
    - apply (Hop (OpReAdd t f p)); [reflexivity|auto].
    - apply (Hop OpCalc); [reflexivity|auto].
    - eexists. split; [reflexivity|]. split; [cbn; split; [discriminate|congruence]|exact S2].
  Qed.
  Lemma aops_total : forall os c s m, good c s -> says m s -> fine m os -> exists s', run_aops s os = Ok s' /\ good c s' /\ says (fold_left (@next E) os m) s'.
  Proof.
    induction os as [|o os IH]; intros c s m H Hm Hf; [exists s; split; [reflexivity|auto]|]. destruct Hf as [Hf1 Hf2]. destruct (aop_total H Hm Hf1) as (s1 & H1 & H2). cbn [run_aops fold_left]. rewrite H1. cbn [bind].
    apply IH; [eapply aop_good; eauto|exact H2|exact Hf2].
  Qed.
  Lemma aops_app : forall a b s, run_aops s (a ++ b) = do s' <- run_aops s a ; run_aops s' b.
  Proof. induction a as [|o a IH]; intros b s; [reflexivity|]. cbn [app run_aops]. destruct (run_aop s o); cbn [bind]; auto. Qed.
  Lemma needs_panic : forall s o, s_dict s = None -> needs o -> run_aop s o = Panic.
  Proof.
    intros s o H Hn. destruct o as [o|e arg|t|t f p| |]; try contradiction; cbn [run_aop]; unfold api_remove, api_readd, api_calc, on_dict; try (rewrite H; reflexivity).
    destruct o; try contradiction; cbn [run_lop]; rewrite H; reflexivity.
  Qed.

  (** *** Package idf *)
  Lemma idf_good : forall srt os c (i i' : idf E), good c (i_seg i) -> idf_run srt i os = Ok i' -> good c (i_seg i').
  Proof.
    induction os as [|[t f p|fs path arg] os IH]; intros c i i' H Hr; cbn [idf_run] in Hr; [congruence| |]; apply bind_Ok in Hr as (i1 & H1 & H2).
    - eapply IH; [|exact H2]. unfold idf_add in H1. destruct (s_dict (i_seg i)) as [d|] eqn:Ed; [|discriminate]. apply bind_Ok in H1 as (d' & K1 & K2). apply bind_Ok in K2 as (m & _ & K3). injection K3 as <-. cbn [i_seg].
      apply (@aop_good c (i_seg i) (ALoad (LAdd t f p))); [exact H|]. cbn [run_aop run_lop]. rewrite Ed, K1. reflexivity.
    - eapply IH; [|exact H2]. unfold idf_load in H1. apply bind_Ok in H1 as (r & K1 & K2). injection K2 as <-. cbn [fst i_seg].
      apply (@aop_good c (i_seg i) (ALoad (LDict fs (Some (match arg with Some f => f | None => path end))))); [exact H|]. cbn [run_aop run_lop]. rewrite K1. reflexivity.
  Qed.
End Api.
