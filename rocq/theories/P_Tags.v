(** Life of a TagExtracter. *)
From Verif Require Import S_Tags P_Idf2 P_Hist P_Load P_Load2 P_Load3 P_Out2 P_Dag2 P_Api.
Set Implicit Arguments. Unset Strict Implicit.

Section Tags.
  Variable E : env.
  Variable srt : sort_fn.
  Variable s0 : seg E.
  Hypothesis Z0 : s_dict s0 = None.
  Hypothesis L0 : s_load s0 = false.
  Implicit Types x : tstate E.

  (** ** The dictionary and the idf values *)
  Lemma load_usable : forall (s s' : seg E) fs arg err, usable s -> load_dict s fs arg = Ok (s', err) -> usable s' /\ s_dict s' <> None.
  Proof.
    intros s s' fs arg err H K. destruct (s_load s) eqn:El.
    - unfold usable in H. destruct (s_dict s) as [d|] eqn:Ed; [|congruence].
      assert (G : P_Api.good (s_cfg s) s) by (split; [reflexivity|rewrite Ed; exact H]).
      assert (R : run_lop s (LDict fs arg) = Ok s') by (cbn [run_lop]; rewrite K; reflexivity).
      destruct (run_lop_grows (good_ok G) R (fun _ => El)) as (K1 & K2 & K3). destruct K1 as [[K1 K1']|(os & d' & _ & K4 & K5)]; [congruence|].
      split; [|congruence]. unfold usable. rewrite K5, K2. eapply reach_ops; [apply (good_start G)|exact K4].
    - destruct (load_dict_state El K) as (K1 & _ & d & K2 & K3). split; [|congruence]. unfold usable. rewrite K2, K1. exact K3.
  Qed.
  Definition idf_ready (i : idf E) : Prop := exists d, s_dict (i_seg i) = Some d /\ reachable (s_cfg (i_seg i)) d.
  Lemma u0 : usable s0.
  Proof. unfold usable. rewrite Z0. exact L0. Qed.
  Lemma load_idf_ready : forall fs path arg r, load_idf fs path s0 arg = Ok r -> idf_ready (fst r).
  Proof.
    intros fs path arg r H. unfold load_idf, idf_load in H. apply bind_Ok in H as ([s e] & H1 & H2). injection H2 as <-. cbn [fst]. cbn [new_idf i_seg] in H1.
    destruct (load_usable u0 H1) as [K1 K2]. unfold idf_ready. cbn [i_seg fst]. unfold usable in K1. destruct (s_dict s) as [d|]; [eauto|congruence].
  Qed.
  Lemma load_idf_str_ready : forall text i, load_idf_str s0 text = Ok i -> idf_ready i.
  Proof.
    intros text i H. unfold load_idf_str in H. apply bind_Ok in H as (s & H1 & H2). injection H2 as <-.
    assert (G : P_Api.good (s_cfg s0) s0) by (split; [reflexivity|rewrite Z0; exact I]).
    destruct (load_str_ops text (good_ok G)) as (es & d' & _ & K1 & K2). rewrite H1 in K2. injection K2 as ->. exists d'. cbn [i_seg s_dict s_cfg]. split; [reflexivity|].
    eapply reach_ops; [apply (good_start G)|exact K1].
  Qed.
  Lemma idf_add_ready : forall i text freq pos i', idf_ready i -> idf_add srt i text freq pos = Ok i' -> idf_ready i'.
  Proof.
    intros i text freq pos i' (d & H1 & H2) H. unfold idf_add in H. rewrite H1 in H. apply bind_Ok in H as (d' & K1 & K2). apply bind_Ok in K2 as (m & _ & K3). injection K3 as <-.
    exists d'. cbn [i_seg set_dict s_dict s_cfg]. split; [reflexivity|]. eapply reach_ops with (os := [OpAdd text freq pos]); [exact H2|]. cbn [run_ops run_op]. rewrite K1. reflexivity.
  Qed.

  (** ** The three parts of a state *)
  Definition seg_of1 (s : seg E) (o : top E) : res (seg E) :=
    match o with TGse s' => Ok s' | TDict fs arg => do r <- load_dict s fs arg ; Ok (fst r) | _ => Ok s end.
  Definition idf_of1 (i : option (idf E)) (o : top E) : res (option (idf E)) :=
    match o with
    | TIdf fs path arg => do r <- load_idf fs path s0 arg ; Ok (Some (fst r))
    | TIdfStr text => do j <- load_idf_str s0 text ; Ok (Some j)
    | TIdfAdd text freq pos => match i with None => Panic | Some j => do j' <- idf_add srt j text freq pos ; Ok (Some j') end
    | _ => Ok i
    end.
  Definition map_of1 (m : list bytes) (o : top E) : list bytes :=
    match o with
    | TStop fs files => if snd (load_stop fs None files) then m else put_all m (made (fst (load_stop fs None files)))
    | TOther (WAdd _ w) => set_put m w
    | TOther (WRemove _ w) => set_del m w
    | _ => m
    end.
  Fixpoint seg_of s os := match os with [] => Ok s | o :: t => do s' <- seg_of1 s o ; seg_of s' t end.
  Fixpoint idf_of i os := match os with [] => Ok i | o :: t => do i' <- idf_of1 i o ; idf_of i' t end.
  Definition map_of m os := fold_left map_of1 os m.

  Lemma step_parts : forall x o,
    (forall x', t_step srt s0 x o = Ok x' -> seg_of1 (te_seg (x_te x)) o = Ok (te_seg (x_te x')) /\ idf_of1 (te_idf (x_te x)) o = Ok (te_idf (x_te x'))) /\
    (forall s i, seg_of1 (te_seg (x_te x)) o = Ok s -> idf_of1 (te_idf (x_te x)) o = Ok i -> exists x', t_step srt s0 x o = Ok x').
  Proof.
    intros x o. destruct o as [s|fs arg|fs path arg|text|text freq pos|fs files|o]; cbn [t_step seg_of1 idf_of1]; split; intros.
    - injection H as <-. auto.
    - eauto.
    - cbn in H. apply bind_Ok in H as (r & H1 & H2). injection H2 as <-. rewrite H1. auto.
    - cbn in *. apply bind_Ok in H as (r & H1 & H2). rewrite H1. cbn. eauto.
    - apply bind_Ok in H as (r & H1 & H2). injection H2 as <-. rewrite H1. auto.
    - apply bind_Ok in H0 as (r & H1 & H2). rewrite H1. cbn. eauto.
    - apply bind_Ok in H as (r & H1 & H2). injection H2 as <-. rewrite H1. auto.
    - apply bind_Ok in H0 as (r & H1 & H2). rewrite H1. cbn. eauto.
    - destruct (te_idf (x_te x)); [|discriminate]. apply bind_Ok in H as (r & H1 & H2). injection H2 as <-. rewrite H1. auto.
    - destruct (te_idf (x_te x)); [|discriminate]. apply bind_Ok in H0 as (r & H1 & H2). rewrite H1. cbn. eauto.
    - injection H as <-. auto.
    - eauto.
    - injection H as <-. auto.
    - eauto.
  Qed.
  Lemma run_parts : forall os x x', t_run srt s0 x os = Ok x' -> seg_of (te_seg (x_te x)) os = Ok (te_seg (x_te x')) /\ idf_of (te_idf (x_te x)) os = Ok (te_idf (x_te x')).
  Proof.
    induction os as [|o os IH]; intros x x' H; cbn [t_run seg_of idf_of] in *; [injection H as <-; auto|]. apply bind_Ok in H as (x1 & H1 & H2). destruct (step_parts x o) as [P _]. destruct (P _ H1) as [-> ->]. cbn [bind]. auto.
  Qed.
  Lemma run_back : forall os x s i, seg_of (te_seg (x_te x)) os = Ok s -> idf_of (te_idf (x_te x)) os = Ok i -> exists x', t_run srt s0 x os = Ok x'.
  Proof.
    induction os as [|o os IH]; intros x s i Hs Hi; cbn [t_run seg_of idf_of] in *; [eauto|]. apply bind_Ok in Hs as (s1 & S1 & S2). apply bind_Ok in Hi as (i1 & I1 & I2).
    destruct (step_parts x o) as [P Q]. destruct (Q _ _ S1 I1) as (x1 & X1). rewrite X1. cbn [bind]. destruct (P _ X1) as [P1 P2]. assert (s1 = te_seg (x_te x1)) as -> by congruence. assert (i1 = te_idf (x_te x1)) as -> by congruence. eauto.
  Qed.
  Lemma seg_of_filter : forall os s, seg_of s os = seg_of s (filter (@for_dict E) os).
  Proof. induction os as [|o os IH]; intro s; [reflexivity|]. destruct o; cbn [filter for_dict seg_of seg_of1]; cbn [bind]; rewrite <- ?IH; try reflexivity. match goal with |- bind ?e _ = _ => destruct e end; cbn [bind]; first [reflexivity|apply IH]. Qed.
  Lemma idf_of_filter : forall os i, idf_of i os = idf_of i (filter (@for_idf E) os).
  Proof.
    induction os as [|o os IH]; intro i; [reflexivity|]. destruct o; cbn [filter for_idf idf_of idf_of1]; cbn [bind]; rewrite <- ?IH; try reflexivity; match goal with |- bind ?e _ = _ => destruct e end; cbn [bind]; first [reflexivity|apply IH].
  Qed.
  Lemma map_of_filter : forall os m, map_of m os = map_of m (filter (@for_stop E) os).
  Proof. induction os as [|o os IH]; intro m; [reflexivity|]. destruct o; cbn [filter for_stop]; unfold map_of in *; cbn [fold_left map_of1]; apply IH. Qed.

  (** ** The stop words *)
  Definition heap_ok (n : nat) (h : sheap) : Prop := h_pkg h = 0 /\ Forall (fun s => fst s = 0) (h_sws h) /\ h_maps h <> [] /\ n <= length (h_sws h).
  Lemma new_heap : forall n h, heap_ok n h -> heap_ok n (h_step h WNew) /\ the_map (h_step h WNew) = the_map h /\ length (h_sws (h_step h WNew)) = S (length (h_sws h)).
  Proof.
    intros n h (H1 & H2 & H3 & H4). cbn [h_step]. unfold heap_ok, the_map. cbn [h_pkg h_sws h_maps]. rewrite app_length. cbn [length]. repeat split; auto; [|lia|lia].
    apply Forall_app. split; [exact H2|]. constructor; [exact H1|constructor].
  Qed.
  Lemma upd_heap : forall n h f, heap_ok n h -> heap_ok n (h_upd h 0 f) /\ the_map (h_upd h 0 f) = f (the_map h).
  Proof.
    intros n h f (H1 & H2 & H3 & H4). split; [|apply upd_map, H3]. split; [exact H1|]. split; [exact H2|]. split; [|exact H4]. cbn [h_upd h_maps]. destruct (h_maps h); [congruence|]. discriminate.
  Qed.
  Definition stop_ok x : Prop := match te_stop (x_te x) with None => True | Some k => k < length (h_sws (x_heap x)) end.
  Lemma new_stop_ok : forall n x, heap_ok n (x_heap x) -> heap_ok n (x_heap (new_stop x)) /\ the_map (x_heap (new_stop x)) = the_map (x_heap x) /\ stop_ok (new_stop x) /\ te_stop (x_te (new_stop x)) <> None.
  Proof.
    intros n x H. destruct (new_heap H) as (K1 & K2 & K3). split; [exact K1|]. split; [exact K2|]. split; [|discriminate]. unfold stop_ok. cbn [new_stop x_te te_stop x_heap]. lia.
  Qed.
  Lemma nth_app_last : forall A (l : list A) y, nth_error (l ++ [y]) (length l) = Some y.
  Proof. intros. rewrite nth_error_app2, Nat.sub_diag by lia. reflexivity. Qed.
  Lemma load_heap : forall n h L fs files, nth_error (h_sws h) L = Some (0, None) -> heap_ok n h ->
    heap_ok n (h_step h (WLoad L fs files)) /\
    the_map (h_step h (WLoad L fs files)) = (if snd (load_stop fs None files) then the_map h else put_all (the_map h) (made (fst (load_stop fs None files)))) /\
    length (h_sws (h_step h (WLoad L fs files))) = length (h_sws h).
  Proof.
    intros n h L fs files En (A1 & A2 & A3 & A4). assert (LL : L < length (h_sws h)) by (apply nth_error_Some; congruence). cbn [h_step]. rewrite En.
    set (h1 := {| h_maps := h_maps h; h_pkg := h_pkg h; h_sws := firstn L (h_sws h) ++ (0, fst (load_stop fs None files)) :: skipn (S L) (h_sws h) |}).
    assert (Hlen : length (h_sws h1) = length (h_sws h)) by (unfold h1; cbn [h_sws]; rewrite app_length; cbn [length]; rewrite firstn_length, skipn_length; lia).
    assert (H1 : heap_ok n h1).
    { split; [exact A1|]. split; [|split; [exact A3|rewrite Hlen; exact A4]]. unfold h1. cbn [h_sws]. rewrite Forall_forall in A2. apply Forall_forall. intros y Hy. apply in_app_or in Hy as [Hy|[<-|Hy]]; [|reflexivity|];
          apply A2; [rewrite <- (firstn_skipn L (h_sws h))|rewrite <- (firstn_skipn (S L) (h_sws h))]; apply in_or_app; auto. }
    assert (Hm : the_map h1 = the_map h) by reflexivity. assert (Hg : h_pkg h1 = 0) by apply H1. destruct (snd (load_stop fs None files)).
    - split; [exact H1|]. split; [exact Hm|exact Hlen].
    - rewrite Hg. destruct (upd_heap (fun m => put_all m (made (fst (load_stop fs None files)))) H1) as [U1 U2]. split; [exact U1|]. split; [rewrite U2, Hm; reflexivity|exact Hlen].
  Qed.
  Lemma step_stop : forall n x o x', heap_ok n (x_heap x) -> stop_ok x -> plain n o -> t_step srt s0 x o = Ok x' ->
    heap_ok n (x_heap x') /\ stop_ok x' /\ the_map (x_heap x') = map_of1 (the_map (x_heap x)) o /\
    (te_stop (x_te x) <> None -> te_stop (x_te x') <> None) /\ (for_dict o = true -> te_stop (x_te x') <> None).
  Proof.
    intros n x o x' Hh Hs Hp H. pose proof (new_stop_ok Hh) as (N1 & N2 & N3 & N4).
    destruct o as [s|fs arg|fs path arg|text|text freq pos|fs files|o]; cbn [t_step plain for_dict map_of1] in *.
    - injection H as <-. auto.
    - apply bind_Ok in H as (r & H1 & H2). injection H2 as <-. auto.
    - apply bind_Ok in H as (r & H1 & H2). injection H2 as <-. repeat split; auto; try apply Hh; discriminate.
    - apply bind_Ok in H as (r & H1 & H2). injection H2 as <-. repeat split; auto; try apply Hh; discriminate.
    - destruct (te_idf (x_te x)); [|discriminate]. apply bind_Ok in H as (r & H1 & H2). injection H2 as <-. repeat split; auto; try apply Hh; discriminate.
    - injection H as <-. cbn [x_heap x_te].
      destruct (@load_heap n (x_heap (new_stop x)) (length (h_sws (x_heap x))) fs files) as (K1 & K2 & K3); [|exact N1|].
      { cbn [new_stop x_heap h_step h_sws]. rewrite nth_app_last. destruct Hh as [-> _]. reflexivity. }
      split; [exact K1|]. split; [change (length (h_sws (x_heap x)) < length (h_sws (h_step (x_heap (new_stop x)) (WLoad (length (h_sws (x_heap x))) fs files)))); rewrite K3; exact N3|]. split; [etransitivity; [exact K2|rewrite N2; reflexivity]|]. split; [intros _; exact N4|discriminate].
    - injection H as <-. cbn [x_heap x_te]. destruct o as [|k w|k w|k fs files|m]; try contradiction.
      + destruct (new_heap Hh) as (K1 & K2 & K3). split; [exact K1|]. split; [|split; [exact K2|split; [auto|discriminate]]]. unfold stop_ok in *. cbn [x_te x_heap]. destruct (te_stop (x_te x)); [lia|exact I].
      + cbn [h_step]. destruct Hh as (A1 & A2 & A3 & A4). destruct (nth_error (h_sws (x_heap x)) k) as [[p st]|] eqn:En; [|apply nth_error_None in En; lia].
        assert (p = 0) as ->. { rewrite Forall_forall in A2. apply nth_error_In in En. apply (A2 _ En). }
        destruct (@upd_heap n (x_heap x) (fun m => set_put m w)) as [U1 U2]; [repeat split; auto|]. split; [exact U1|]. split; [exact Hs|]. split; [exact U2|]. split; [auto|discriminate].
      + cbn [h_step]. destruct Hh as (A1 & A2 & A3 & A4). destruct (nth_error (h_sws (x_heap x)) k) as [[p st]|] eqn:En; [|apply nth_error_None in En; lia].
        assert (p = 0) as ->. { rewrite Forall_forall in A2. apply nth_error_In in En. apply (A2 _ En). }
        destruct (@upd_heap n (x_heap x) (fun m => set_del m w)) as [U1 U2]; [repeat split; auto|]. split; [exact U1|]. split; [exact Hs|]. split; [exact U2|]. split; [auto|discriminate].
  Qed.
  Lemma run_stop : forall n os x x', heap_ok n (x_heap x) -> stop_ok x -> Forall (plain n) os -> t_run srt s0 x os = Ok x' ->
    heap_ok n (x_heap x') /\ stop_ok x' /\ the_map (x_heap x') = map_of (the_map (x_heap x)) os /\
    (te_stop (x_te x) <> None \/ existsb (@for_dict E) os = true -> te_stop (x_te x') <> None).
  Proof.
    intros n. induction os as [|o os IH]; intros x x' Hh Hs Hp H; cbn [t_run] in H.
    - injection H as <-. repeat split; auto; try apply Hh. intros [K|K]; [exact K|discriminate].
    - apply bind_Ok in H as (x1 & H1 & H2). inversion Hp as [|? ? P1 P2]; subst. destruct (step_stop Hh Hs P1 H1) as (A1 & A2 & A3 & A4 & A5). destruct (IH _ _ A1 A2 P2 H2) as (B1 & B2 & B3 & B4).
      repeat split; auto; try apply B1; [rewrite B3, A3; reflexivity|]. intros [K|K]; apply B4; [auto|]. cbn [existsb] in K. apply orb_true_iff in K as [K|K]; auto.
  Qed.
  Lemma stop_map_eq : forall n x, heap_ok n (x_heap x) -> stop_ok x -> te_stop (x_te x) <> None -> stop_map x = Some (the_map (x_heap x)).
  Proof.
    intros n x (A1 & A2 & A3 & A4) Hs Hn. unfold stop_map, stop_ok in *. destruct (te_stop (x_te x)) as [k|]; [|congruence]. destruct (nth_error (h_sws (x_heap x)) k) as [[p st]|] eqn:En; [|apply nth_error_None in En; lia].
    rewrite Forall_forall in A2. apply nth_error_In in En. pose proof (A2 _ En) as K. cbn in K. subst p. reflexivity.
  Qed.

  (** ** What a history says *)
  Definition seg_says (b : bool) (s : seg E) : Prop := usable s /\ (b = true <-> s_dict s <> None).
  Lemma seg_run : forall n os b s s', Forall (plain n) os -> seg_says b s -> seg_of s os = Ok s' -> seg_says (has_dict b os) s'.
  Proof.
    intros n. induction os as [|o os IH]; intros b s s' Hp H Hr; cbn [seg_of] in Hr; [injection Hr as <-; exact H|]. apply bind_Ok in Hr as (s1 & H1 & H2). inversion Hp as [|? ? P1 P2]; subst.
    destruct o as [t|fs arg|fs path arg|text|text freq pos|fs files|o]; cbn [has_dict seg_of1 plain] in *; try (injection H1 as <-; eapply IH; eassumption).
    - injection H1 as <-. eapply IH; [exact P2| |exact H2]. split; [exact P1|]. destruct (s_dict t); split; congruence.
    - apply bind_Ok in H1 as ([s2 e] & K1 & K2). injection K2 as <-. destruct (load_usable (proj1 H) K1) as [U1 U2]. eapply IH; [exact P2| |exact H2]. split; [exact U1|]. tauto.
  Qed.
  Definition idf_says (b : bool) (i : option (idf E)) : Prop := match i with Some j => b = true /\ idf_ready j | None => b = false end.
  Lemma idf_runs : forall os b i i', idf_says b i -> idf_of i os = Ok i' -> idf_says (b || has_idf os) i'.
  Proof.
    induction os as [|o os IH]; intros b i i' H Hr; cbn [idf_of] in Hr; [injection Hr as <-; cbn; rewrite orb_false_r; exact H|]. apply bind_Ok in Hr as (i1 & H1 & H2).
    destruct o as [t|fs arg|fs path arg|text|text freq pos|fs files|o]; unfold has_idf in *; cbn [idf_of1 existsb orb] in *; try (injection H1 as <-; eapply IH; eassumption).
    - apply bind_Ok in H1 as (r & K1 & K2). injection K2 as <-. rewrite orb_true_r. apply (IH true (Some (fst r))); [|exact H2]. split; [reflexivity|eapply load_idf_ready, K1].
    - apply bind_Ok in H1 as (r & K1 & K2). injection K2 as <-. rewrite orb_true_r. apply (IH true (Some r)); [|exact H2]. split; [reflexivity|eapply load_idf_str_ready, K1].
    - destruct i as [j|]; [|discriminate]. apply bind_Ok in H1 as (r & K1 & K2). injection K2 as <-. eapply IH; [|exact H2]. destruct H as [H H']. split; [exact H|eapply idf_add_ready; eassumption].
  Qed.
  Lemma has_dict_for : forall os, has_dict false os = true -> existsb (@for_dict E) os = true.
  Proof.
    induction os as [|o os IH]; intro H; [discriminate|]. destruct o; cbn [has_dict existsb for_dict orb] in *; auto.
  Qed.

  (** ** ExtractTags *)
  Lemma count_total : forall l ws (m : fmap E), exists m', fm_count (Some l) ws m = Ok m'.
  Proof. induction ws as [|w ws IH]; intro m; cbn [fm_count]; [eauto|]. destruct (_ <? 2); [apply IH|]. destruct (in_list _ l); apply IH. Qed.
  Lemma add_nonempty : forall (m : fmap E) w, fm_add m w <> [].
  Proof. intros [|[k f] m] w; cbn [fm_add]; [discriminate|]. destruct (beqb k w); discriminate. Qed.
  Lemma count_empty : forall l ws (m m' : fmap E), fm_count (Some l) ws m = Ok m' -> (m' = [] <-> m = [] /\ kept E l ws = []).
  Proof.
    induction ws as [|w ws IH]; intros m m' H; cbn [fm_count] in H; [injection H as <-; unfold kept; cbn; tauto|]. unfold kept in *. cbn [map filter]. rewrite Nat.leb_antisym.
    destruct (_ <? 2); cbn [negb andb]; [apply IH, H|]. destruct (in_list _ l); cbn [negb]; [apply IH, H|].
    rewrite (IH _ _ H). split; intros [K1 K2]; [exfalso; revert K1; apply add_nonempty|discriminate].
  Qed.
  Lemma weigh_total : forall i m, idf_ready i -> exists r, weigh (Some i) m = Ok r.
  Proof. intros i m (d & H1 & H2). destruct (weigh_ok H2 H1 m) as (r & K & _). eauto. Qed.
  Lemma weigh_none : forall m, weigh (E := E) None m = match m with [] => Ok [] | _ => Panic end.
  Proof. intros [|[k v] m]; reflexivity. Qed.

  Lemma extract_shape : forall o1 o2 em c0 (d : dict E) c l oi text topK ws, same_keys_in_any_order o1 -> same_keys_in_any_order o2 -> sorts srt ->
    reachable c0 d -> cut d c em text (Some true) = Ok ws -> match oi with Some i => idf_ready i | None => True end ->
    (topK < 0 \/ oi = None /\ kept E l ws <> [])%Z /\ extract_tags srt o1 o2 d c em (Some l) oi text topK = Panic \/
    (0 <= topK)%Z /\ (oi <> None \/ kept E l ws = []) /\ exists out, extract_tags srt o1 o2 d c em (Some l) oi text topK = Ok out.
  Proof.
    intros o1 o2 em c0 d c l oi text topK ws Ho1 Ho2 Hs Hr Hc Hi. unfold extract_tags. rewrite Hc. cbn [bind]. destruct (count_total l ws []) as (m & Hm). rewrite Hm. cbn [bind].
    set (md := map _ m). pose proof (count_empty Hm) as He. assert (Hmd : o2 md = [] <-> m = []).
    { split; intro K; [|subst; apply Permutation_nil; apply (Ho2 [])]. specialize (Ho2 md). rewrite K in Ho2. apply Permutation_sym, Permutation_nil in Ho2. unfold md in Ho2. destruct m; [reflexivity|discriminate]. }
    assert (Hend : forall w : list (wseg E), ((topK < 0)%Z /\ (if (topK <? Z.of_nat (length w))%Z then if (topK <? 0)%Z then Panic else Ok (firstn (Z.to_nat topK) w) else Ok w) = Panic) \/
        (0 <= topK)%Z /\ exists out, (if (topK <? Z.of_nat (length w))%Z then if (topK <? 0)%Z then Panic else Ok (firstn (Z.to_nat topK) w) else Ok w) = Ok out).
    { intro w. destruct (Z.ltb_spec topK (Z.of_nat (length w))); destruct (Z.ltb_spec topK 0); [left; auto|right; eauto|lia|right; eauto]. }
    destruct oi as [i|].
    - destruct (weigh_total (o2 md) Hi) as (w & Hw). rewrite Hw. cbn [bind]. destruct (Hend (@srt (wseg E) (reverse_less (@seg_less E)) w)) as [[K1 K2]|[K1 K2]]; [left; auto|]. right. split; [exact K1|]. split; [left; discriminate|exact K2].
    - rewrite weigh_none. destruct (o2 md) as [|y r] eqn:Eo.
      + assert (K : kept E l ws = []) by (apply He; apply Hmd; reflexivity). cbn [bind]. destruct (Hend (@srt (wseg E) (reverse_less (@seg_less E)) [])) as [[K1 K2]|[K1 K2]]; [left; auto|]. right. auto.
      + left. cbn [bind]. split; [right; split; [reflexivity|]|reflexivity]. intro K. assert (m = []) by (apply He; auto). assert (y :: r = []) by (apply Hmd; assumption). discriminate.
  Qed.

  Lemma zero_says : seg_says false s0 /\ idf_says false None.
  Proof. split; [|reflexivity]. split; [exact u0|]. rewrite Z0. split; [discriminate|congruence]. Qed.

  Lemma heap_run_ok : forall h0, assigns h0 = false -> heap_ok (length (h_sws (h_run h0))) (h_run h0).
  Proof.
    intros h0 Ha. destruct (@one_map h0 h_init Ha eq_refl ltac:(constructor)) as [K1 K2]. repeat split; auto. apply maps_nonempty. discriminate.
  Qed.

  Lemma c80_state : forall h0 os x, assigns h0 = false -> Forall (plain (length (h_sws (h_run h0)))) os -> t_run srt s0 (t_zero (h_run h0) s0) os = Ok x ->
    seg_says (has_dict false os) (te_seg (x_te x)) /\ idf_says (has_idf os) (te_idf (x_te x)) /\
    (has_dict false os = true -> stop_map x = Some (the_map (x_heap x))) /\ the_map (x_heap x) = map_of (the_map (h_run h0)) os.
  Proof.
    intros h0 os x Ha Hp H. destruct zero_says as [Z1 Z2]. destruct (run_parts H) as [P1 P2]. cbn [t_zero x_te te_seg te_idf] in *.
    destruct (run_stop (n := length (h_sws (h_run h0))) (x := t_zero (h_run h0) s0) (heap_run_ok Ha) I Hp H) as (A1 & A2 & A3 & A4).
    split; [eapply seg_run; eassumption|]. split; [apply (idf_runs Z2 P2)|]. split; [|exact A3]. intro Hd. eapply stop_map_eq; [exact A1|exact A2|]. apply A4. right. apply has_dict_for, Hd.
  Qed.

  Lemma c80_extract : forall h0 os x o1 o2 em text topK, assigns h0 = false -> Forall (plain (length (h_sws (h_run h0)))) os -> t_run srt s0 (t_zero (h_run h0) s0) os = Ok x ->
    same_keys_in_any_order o1 -> same_keys_in_any_order o2 -> sorts srt ->
    (s_dict (te_seg (x_te x)) = None /\ has_dict false os = false /\ t_extract srt o1 o2 em x text topK = Panic) \/
    exists d ws, s_dict (te_seg (x_te x)) = Some d /\ has_dict false os = true /\ cut d (s_cfg (te_seg (x_te x))) em text (Some true) = Ok ws /\
      ((topK < 0 \/ has_idf os = false /\ kept E (map_of (the_map (h_run h0)) os) ws <> [])%Z /\ t_extract srt o1 o2 em x text topK = Panic \/
       (0 <= topK)%Z /\ (has_idf os = true \/ kept E (map_of (the_map (h_run h0)) os) ws = []) /\ exists out, t_extract srt o1 o2 em x text topK = Ok out).
  Proof.
    intros h0 os x o1 o2 em text topK Ha Hp H Ho1 Ho2 Hs. destruct (c80_state Ha Hp H) as ([S1 S2] & S3 & S4 & S5). unfold t_extract. destruct (s_dict (te_seg (x_te x))) as [d|] eqn:Ed.
    - right. unfold usable in S1. rewrite Ed in S1. assert (Hd : has_dict false os = true) by (apply S2; discriminate). destruct (@c24 E _ d em (s_cfg (te_seg (x_te x))) text [] S1) as (ws & W & _); [constructor|left; cbn; lia|].
      exists d, ws. split; [reflexivity|]. split; [exact Hd|]. split; [exact W|]. rewrite (S4 Hd), S5.
      destruct (@extract_shape o1 o2 em _ d (s_cfg (te_seg (x_te x))) (map_of (the_map (h_run h0)) os) (te_idf (x_te x)) text topK ws Ho1 Ho2 Hs S1 W) as [[K1 K2]|(K1 & K2 & K3)].
      { destruct (te_idf (x_te x)); [apply S3|exact I]. }
      + left. split; [|exact K2]. destruct K1 as [K1|[K1 K1']]; [auto|]. right. rewrite K1 in S3. auto.
      + right. split; [exact K1|]. split; [|exact K3]. destruct K2 as [K2|K2]; [|auto]. left. destruct (te_idf (x_te x)); [apply S3|congruence].
    - left. split; [reflexivity|]. split; [|reflexivity]. destruct (has_dict false os); [|reflexivity]. destruct S2 as [S2 _]. exfalso. apply S2; reflexivity.
  Qed.

  Lemma c80_order : forall h0 os os' x o1 o2 em text topK, assigns h0 = false -> Forall (plain (length (h_sws (h_run h0)))) os -> Forall (plain (length (h_sws (h_run h0)))) os' ->
    filter (@for_dict E) os = filter (@for_dict E) os' -> filter (@for_idf E) os = filter (@for_idf E) os' -> filter (@for_stop E) os = filter (@for_stop E) os' ->
    t_run srt s0 (t_zero (h_run h0) s0) os = Ok x ->
    exists x', t_run srt s0 (t_zero (h_run h0) s0) os' = Ok x' /\ t_extract srt o1 o2 em x text topK = t_extract srt o1 o2 em x' text topK.
  Proof.
    intros h0 os os' x o1 o2 em text topK Ha Hp Hp' F1 F2 F3 H. destruct (run_parts H) as [P1 P2]. rewrite seg_of_filter, F1, <- seg_of_filter in P1. rewrite idf_of_filter, F2, <- idf_of_filter in P2.
    destruct (@run_back os' (t_zero (h_run h0) s0) _ _ P1 P2) as (x' & H'). exists x'. split; [exact H'|]. destruct (run_parts H') as [P1' P2'].
    assert (Es : te_seg (x_te x) = te_seg (x_te x')) by congruence. assert (Ei : te_idf (x_te x) = te_idf (x_te x')) by congruence.
    destruct (c80_state Ha Hp H) as ([_ S2] & _ & S4 & S5). destruct (c80_state Ha Hp' H') as ([_ S2'] & _ & S4' & S5'). unfold t_extract. rewrite <- Es in S2'. rewrite <- Es, <- Ei. destruct (s_dict (te_seg (x_te x))) as [d|]; [|reflexivity].
    rewrite S4, S4' by (first [apply S2|apply S2']; discriminate). rewrite S5, S5', map_of_filter, F3, <- map_of_filter. reflexivity.
  Qed.

  Lemma stopped_map : forall w os m, in_list w (map_of m os) = stopped w (in_list w m) os.
  Proof.
    intro w. assert (B : forall (p q : bool), (p = true <-> q = true) -> p = q) by (intros [] [] K; try reflexivity; destruct K as [K1 K2]; (discriminate (K1 eq_refl) || discriminate (K2 eq_refl))).
    induction os as [|o os IH]; intro m; [reflexivity|]. unfold map_of in *. cbn [fold_left]. rewrite IH. destruct o as [t|fs arg|fs path arg|text|text freq pos|fs files|o]; cbn [map_of1 stopped]; try reflexivity.
    - f_equal. destruct (snd (load_stop fs None files)); cbn [negb andb]; [rewrite orb_false_r; reflexivity|]. apply B. rewrite put_all_in, orb_true_iff, <- in_list_true.
      destruct (fst (load_stop fs None files)) as [l|]; cbn [made is_stop]; [tauto|]. cbn. split; [intros [K|K]; [discriminate|auto]|intros [K|K]; [auto|discriminate]].
    - destruct o as [|k v|k v|k fs files|l]; try reflexivity; f_equal; apply B.
      + rewrite put_in, orb_true_iff, beqb_eq. tauto.
      + rewrite del_in, andb_true_iff, negb_true_iff, beqb_neq. tauto.
  Qed.

  Lemma seg_total : forall n os b s, Forall (plain n) os -> in_order b os -> usable s -> exists s', seg_of s os = Ok s'.
  Proof.
    intros n. induction os as [|o os IH]; intros b s Hp Hf Hs; cbn [seg_of]; [eauto|]. inversion Hp as [|? ? P1 P2]; subst.
    destruct o as [t|fs arg|fs path arg|text|text freq pos|fs files|o]; cbn [seg_of1 in_order plain bind] in *; try (eapply IH; intuition eassumption).
    destruct Hf as [F1 F2]. destruct (@load_total E s fs arg) as (s' & err & K & _); [|exact F1|].
    { intro Hl. unfold usable in Hs. destruct (s_dict s) as [d|]; [eauto|congruence]. }
    rewrite K. cbn [bind fst]. destruct (load_usable Hs K) as [U _]. eapply IH; eassumption.
  Qed.
  Lemma idf_add_total : sorts srt -> forall i text freq pos, idf_ready i -> exists i', idf_add srt i text freq pos = Ok i'.
  Proof.
    intros Hs i text freq pos (d & H1 & H2). unfold idf_add. rewrite H1. destruct (op_total (OpAdd text freq pos) H2) as (d' & K & _). cbn [run_op] in K. rewrite K. cbn [bind].
    set (l := srt (@float_less E) (i_freqs i ++ [freq])). assert (Hl : length l <> 0).
    { destruct (Hs _ (@float_less E) (i_freqs i ++ [freq])) as [P _]. apply Permutation_length in P. rewrite app_length in P. cbn [length] in P. unfold l. lia. }
    destruct (nth_error l (length l / 2)) as [m|] eqn:En.
    - unfold get. rewrite En. cbn [bind]. eauto.
    - apply nth_error_None in En. pose proof (Nat.div_lt (length l) 2). lia.
  Qed.
  Lemma idf_total : sorts srt -> forall os b i, in_order b os -> idf_says b i -> exists i', idf_of i os = Ok i'.
  Proof.
    intros Hsrt. induction os as [|o os IH]; intros b i Hf Hi; cbn [idf_of]; [eauto|].
    destruct o as [t|fs arg|fs path arg|text|text freq pos|fs files|o]; cbn [idf_of1 in_order bind] in *; try (eapply IH; intuition eassumption).
    - destruct Hf as [F1 F2]. destruct (@load_total E s0 fs (Some (match arg with Some f => f | None => path end))) as (s' & err & K & _); [congruence|exact F1|].
      assert (Hl : load_idf fs path s0 arg = Ok ({| i_median := lit64 E 0 0; i_freqs := []; i_seg := s' |}, err)) by (unfold load_idf, idf_load; cbn [new_idf i_seg i_median i_freqs]; rewrite K; reflexivity).
      rewrite Hl. cbn [bind fst]. eapply IH; [exact F2|]. split; [reflexivity|apply (load_idf_ready Hl)].
    - destruct (load_idf_str s0 text) as [j| |] eqn:El; cbn [bind].
      + eapply IH; [exact Hf|]. split; [reflexivity|apply (load_idf_str_ready El)].
      + exfalso. unfold load_idf_str in El. assert (G : P_Api.good (s_cfg s0) s0) by (split; [reflexivity|rewrite Z0; exact I]). destruct (load_str_ops text (good_ok G)) as (es & d' & _ & _ & K). rewrite K in El. discriminate.
      + exfalso. unfold load_idf_str in El. assert (G : P_Api.good (s_cfg s0) s0) by (split; [reflexivity|rewrite Z0; exact I]). destruct (load_str_ops text (good_ok G)) as (es & d' & _ & _ & K). rewrite K in El. discriminate.
    - destruct Hf as [F1 F2]. subst b. destruct i as [j|]; [|discriminate]. destruct Hi as [_ Hi]. destruct (idf_add_total Hsrt text freq pos Hi) as (j' & K). rewrite K. cbn [bind]. eapply IH; [exact F2|]. split; [reflexivity|eapply idf_add_ready; eassumption].
  Qed.
  Lemma c80_total : sorts srt -> forall n h os, Forall (plain n) os -> in_order false os -> exists x, t_run srt s0 (t_zero h s0) os = Ok x.
  Proof.
    intros Hs n h os Hp Hf. destruct (seg_total Hp Hf u0) as (s & K1). destruct (@idf_total Hs os false None Hf eq_refl) as (i & K2). exact (@run_back os (t_zero h s0) s i K1 K2).
  Qed.
End Tags.
