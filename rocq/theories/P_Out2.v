(** Proofs about the search-mode listings, New and newTag. *)
From Verif Require Import S_Out S_Load P_Str P_Out P_Seg2 P_Load P_Load2 P_Load3 P_Hist P_Dict.
Set Implicit Arguments. Unset Strict Implicit.
Local Open Scope lit_scope.

Scheme listing_mut := Induction for listing Sort Prop with listings_mut := Induction for listings Sort Prop.
Scheme tree_mut := Induction for tree Sort Prop with trees_mut := Induction for trees Sort Prop.

Section Listing.
  Variable E : env.

  Lemma opens_iff : forall (d : dict E) s t w r, deref d (sg_tok s) = Ok t -> t_text t = w :: r ->
    (opens d s <-> (1 <? length (t_segs t)) || is_jp E w = true).
  Proof.
    intros d s t w r Ht Hw. rewrite orb_true_iff, Nat.ltb_lt. unfold is_jp. rewrite existsb_exists. split.
    - intros (t' & H1 & H3). rewrite H1 in Ht. injection Ht as ->. destruct H3 as [H3|(w' & r' & k & H2 & H3)]; [auto|]. rewrite H2 in Hw. injection Hw as -> ->. eauto.
    - intro H. exists t. split; [exact Ht|]. destruct H as [H|(k & H)]; [auto|]. right. exists w, r, k. auto.
  Qed.

  Lemma walk_rest : forall (rec : token E -> res (list (bytes * bytes))) d subs out o, (forall t l, rec t = Ok l -> listing d t l) ->
    walk_subs rec d subs false out = Ok o -> exists items, listings d subs items /\ o = out ++ items.
  Proof.
    intros rec d subs. induction subs as [|s subs IH]; intros out o Hr H; cbn [walk_subs] in H.
    - injection H as <-. exists []. rewrite app_nil_r. split; [constructor|reflexivity].
    - apply bind_Ok in H as (t & H1 & H). apply bind_Ok in H as (b & _ & H).
      assert (Hb : (if b then false else false) = false) by (destruct b; reflexivity). rewrite Hb in H.
      apply bind_Ok in H as (a & H2 & H). apply IH in H as (items & H3 & ->); [|exact Hr].
      exists (a ++ items). split; [econstructor; eauto|]. rewrite app_assoc. reflexivity.
  Qed.
  Lemma walk_first : forall (rec : token E -> res (list (bytes * bytes))) d subs out o, (forall t l, rec t = Ok l -> listing d t l) ->
    walk_subs rec d subs true out = Ok o -> exists skipped rest items, subs = skipped ++ rest /\ Forall (fun s => ~ opens d s) skipped /\
      (rest = [] \/ exists s r, rest = s :: r /\ opens d s) /\ listings d rest items /\ o = out ++ items.
  Proof.
    intros rec d subs. induction subs as [|s subs IH]; intros out o Hr H; cbn [walk_subs] in H.
    - injection H as <-. exists [], [], []. split; [reflexivity|]. split; [constructor|]. split; [auto|]. split; [apply listings_nil|rewrite app_nil_r; reflexivity].
    - apply bind_Ok in H as (t & H1 & H). apply bind_Ok in H as (b & Hb & H). destruct b.
      + apply bind_Ok in H as (a & H2 & H). apply (walk_rest Hr) in H as (items & H3 & ->).
        exists [], (s :: subs), (a ++ items). repeat apply conj; auto; [|econstructor; eauto|rewrite app_assoc; reflexivity].
        right. exists s, subs. split; [reflexivity|]. destruct (1 <? length (t_segs t)) eqn:El.
        * apply Nat.ltb_lt in El. exists t. auto.
        * apply bind_Ok in Hb as (w & Hw & Hb). apply get_Ok in Hw. destruct (t_text t) as [|w' r] eqn:Et; [discriminate|]. injection Hw as ->.
          injection Hb as Hb. rewrite (opens_iff H1 Et), Hb, orb_true_r. reflexivity.
      + apply IH in H as (sk & rest & items & -> & H4 & H5 & H6 & ->); [|exact Hr]. exists (s :: sk), rest, items. repeat apply conj; auto.
        constructor; [|exact H4]. destruct (1 <? length (t_segs t)) eqn:El; [discriminate|]. apply bind_Ok in Hb as (w & Hw & Hb). apply get_Ok in Hw.
        destruct (t_text t) as [|w' r] eqn:Et; [discriminate|]. injection Hw as ->. rewrite (opens_iff H1 Et), El. injection Hb as ->. discriminate.
  Qed.
  Lemma pos_listing : forall (d : dict E) f t l, token_to_pos f d t = Ok l -> listing d t l.
  Proof.
    intros d f. induction f as [|f IH]; intros t l H; [discriminate|]. cbn [token_to_pos] in H. apply bind_Ok in H as (o & H & H2). injection H2 as <-.
    rewrite join_eq. apply (walk_first IH) in H as (sk & rest & items & H1 & H3 & H4 & H5 & ->). econstructor; eauto.
  Qed.
  Lemma seg_loop_listing : forall (d : dict E) f segs out l, seg_loop (token_to_pos f d) d segs out = Ok l -> exists items, listings d segs items /\ l = out ++ items.
  Proof.
    intros d f segs. induction segs as [|s segs IH]; intros out l H; cbn [seg_loop] in H.
    - injection H as <-. exists []. rewrite app_nil_r. split; [constructor|reflexivity].
    - apply bind_Ok in H as (t & H1 & H). apply bind_Ok in H as (a & H2 & H). apply IH in H as (items & H3 & ->). apply pos_listing in H2.
      exists (a ++ items). split; [econstructor; eauto|]. rewrite app_assoc. reflexivity.
  Qed.

  Lemma split_first : forall A (P : A -> Prop) a b a' b', a ++ b = a' ++ b' -> Forall (fun x => ~ P x) a -> Forall (fun x => ~ P x) a' ->
    (b = [] \/ exists s r, b = s :: r /\ P s) -> (b' = [] \/ exists s r, b' = s :: r /\ P s) -> b = b'.
  Proof.
    intros A P a. induction a as [|x a IH]; intros b a' b' H Ha Ha' Hb Hb'; destruct a' as [|x' a']; cbn [app] in H.
    - exact H.
    - exfalso. subst b. destruct Hb as [Hb|(s & r & Hb & Hs)]; [discriminate|]. injection Hb as -> _. inversion Ha'; auto.
    - exfalso. subst b'. destruct Hb' as [Hb'|(s & r & Hb' & Hs)]; [discriminate|]. injection Hb' as -> _. inversion Ha; auto.
    - injection H as -> H. inversion Ha; inversion Ha'; subst. eapply IH; eauto.
  Qed.
  Lemma listing_unique : forall (d : dict E) t l, listing d t l -> forall l', listing d t l' -> l = l'.
  Proof.
    intros d. refine (@listing_mut E d (fun t l _ => forall l', listing d t l' -> l = l') (fun ss l _ => forall l', listings d ss l' -> l = l') _ _ _).
    - intros t sk rest items H1 H2 H3 _ IH l' H. inversion H as [t' sk' rest' items' K1 K2 K3 K4]; subst. f_equal. apply IH.
      rewrite H1 in K1. rewrite (split_first K1 H2 K2 H3 K3). exact K4.
    - intros l' H. inversion H. reflexivity.
    - intros s rest t a b H1 _ IH1 _ IH2 l' H. inversion H; subst. f_equal; [apply IH1|apply IH2]; congruence.
  Qed.
  Lemma listings_unique : forall (d : dict E) ss l, listings d ss l -> forall l', listings d ss l' -> l = l'.
  Proof.
    intros d ss l H. induction H as [|s rest t a b H1 H2 H3 IH]; intros l' H; inversion H; subst; [reflexivity|].
    f_equal; [eapply listing_unique; [exact H2|]|apply IH]; congruence.
  Qed.

  (** *** tokenToBytes *)
  Lemma bytes_subs_tree : forall (rec : token E -> res bytes) d subs out o,
    (forall t x, rec t = Ok x -> exists l, tree d t l /\ x = flat_map render l) ->
    bytes_subs rec d subs out = Ok o -> exists l, trees d subs l /\ o = out ++ flat_map render l.
  Proof.
    intros rec d subs. induction subs as [|s subs IH]; intros out o Hr H; cbn [bytes_subs] in H.
    - injection H as <-. exists []. cbn. rewrite app_nil_r. split; [constructor|reflexivity].
    - apply bind_Ok in H as (t & H1 & H). apply bind_Ok in H as (x & H2 & H). apply Hr in H2 as (a & Ha & ->). apply IH in H as (b & H3 & ->); [|exact Hr].
      exists (a ++ b). split; [econstructor; eauto|]. rewrite flat_map_app, app_assoc. reflexivity.
  Qed.
  Lemma bytes_tree : forall (d : dict E) f t x, token_to_bytes f d t = Ok x -> exists l, tree d t l /\ x = flat_map render l.
  Proof.
    intros d f. induction f as [|f IH]; intros t x H; [discriminate|]. cbn [token_to_bytes] in H. apply bind_Ok in H as (o & H & H2). injection H2 as <-.
    rewrite join_eq. apply (bytes_subs_tree IH) in H as (l & H & ->). exists (l ++ [(concat (t_text t), t_pos t)]). split; [constructor; exact H|].
    cbn [app]. rewrite flat_map_app. cbn [flat_map]. rewrite app_nil_r. reflexivity.
  Qed.
  Lemma bytes_subs_total : forall (rec : token E -> res bytes) d subs out, Forall (fun s => exists t x, deref d (sg_tok s) = Ok t /\ rec t = Ok x) subs ->
    exists o, bytes_subs rec d subs out = Ok o.
  Proof.
    intros rec d subs. induction subs as [|s subs IH]; intros out H; cbn [bytes_subs]; [eauto|]. inversion H as [|? ? (t & x & H1 & H2) H3]; subst.
    rewrite H1. cbn [bind]. rewrite H2. cbn [bind]. auto.
  Qed.
  Lemma bytes_total : forall c (d : dict E), dict_inv c d -> forall f t, valid_ref d t -> length (concat (t_text t)) < f -> exists x, token_to_bytes f d t = Ok x.
  Proof.
    intros c d Hi. induction f as [|f IH]; intros t Hv Hlt; [lia|]. cbn [token_to_bytes].
    assert (Hs : subs_ok d t).
    { destruct Hv as [Hin|[w ->]]; [|left; reflexivity]. pose proof (inv_subs Hi) as HF. rewrite Forall_forall in HF. auto. }
    destruct (@bytes_subs_total (token_to_bytes f d) d (t_segs t) []) as [o Ho].
    - eapply Forall_impl; [|exact (subs_strict Hs)]. cbv beta. intros s (t' & H1 & H2).
      destruct (IH t') as [x Hx]; [eapply deref_valid; exact H1|lia|]. exists t', x. auto.
    - rewrite Ho. cbn [bind]. eauto.
  Qed.
  Lemma tree_listing : forall (d : dict E) t l, listing d t l -> forall l', tree d t l' -> subseq l l'.
  Proof.
    intros d. refine (@listing_mut E d (fun t l _ => forall l', tree d t l' -> subseq l l') (fun ss l _ => forall l', trees d ss l' -> subseq l l') _ _ _).
    - intros t sk rest items H1 H2 H3 _ IH l' H. inversion H as [t' items' K]; subst. apply subseq_app; [|apply subseq_refl]. rewrite H1 in K. clear - IH K.
      revert items' K. induction sk as [|s sk IHs]; intros l K; [apply IH; exact K|]. cbn [app] in K. inversion K; subst. apply subseq_skip_l. auto.
    - intros l' H. constructor.
    - intros s rest t a b H1 _ IH1 _ IH2 l' H. inversion H; subst. apply subseq_app; [apply IH1; congruence|auto].
  Qed.
End Listing.

(** *** LoadDict reads its files in order *)
Section Files.
  Variable E : env.

  Lemma reader_reachable : forall c (l : lcfg E) x d d1, reachable c d -> reader c l x REof (Some d) = Ok (Some d1) -> reachable c d1.
  Proof.
    intros c l x d d1 (os & H) Hr. apply reader_grows in Hr as (os1 & d2 & _ & H1 & H2). injection H1 as <-.
    exists (os ++ os1). rewrite run_ops_app, H. exact H2.
  Qed.
  Lemma readers_reachable : forall c (l : lcfg E) xs d d1, readers c l d xs d1 -> reachable c d -> reachable c d1.
  Proof. intros c l xs d d1 H. induction H; intro Hr; [exact Hr|]. eauto using reader_reachable. Qed.
  Lemma readers_read : forall fs ps xs qs (s : seg E) d, Forall2 (fun p x => fs p = Some (x, REof)) ps xs -> s_dict s = Some d -> reachable (s_cfg s) d ->
    exists d1, readers (s_cfg s) (s_lc s) d xs d1 /\ read_files s fs (ps ++ qs) = read_files (set_dict s (Some d1)) fs qs.
  Proof.
    intros fs ps xs qs s d H. revert s d. induction H as [|p x ps xs Hp H IH]; intros s d Hs Hr.
    - exists d. split; [constructor|]. cbn [app]. destruct s; cbn in *; subst; reflexivity.
    - destruct (c60_total (s_lc s) x Hr) as (d1 & H1). destruct (IH (set_dict s (Some d1)) d1 eq_refl (reader_reachable Hr H1)) as (d2 & H2 & H3).
      exists d2. split; [econstructor; eauto|]. cbn [app read_files]. unfold read_file at 1. rewrite Hp, Hs, H1. cbn [bind fst snd]. exact H3.
  Qed.
  Definition begin_dict (s : seg E) : dict E := if s_load s then match s_dict s with Some d => d | None => new_dict E end else new_dict E.
  Lemma calc_reachable : forall c (d : dict E), reachable c d -> exists d', calc_token d = Ok d' /\ run_ops c d [OpCalc] = Ok d' /\ reachable c d'.
  Proof.
    intros c d Hr. destruct (inv_run [OpCalc] (reachable_inv Hr)) as (d1 & G1 & _). exists d1. split; [|split; [exact G1|]].
    - cbn in G1. destruct (calc_token d) as [d2| |]; try discriminate. exact G1.
    - destruct Hr as (os & H). exists (os ++ [OpCalc]). rewrite run_ops_app, H. exact G1.
  Qed.

  Lemma load_dict_start : forall (s : seg E) fs arg, load_dict s fs arg =
    let s0 := if s_load s then s else {| s_cfg := s_cfg s; s_dict := Some (new_dict E); s_load := true; s_lc := init_lc (s_lc s) |} in
    do r <- read_files s0 fs (match arg with None => [PZhS; PZhT] | Some f => dict_paths f end) ;
    if (snd r : bool) then Ok r else do od <- calc_opt (s_dict (fst r)) ; Ok (set_dict (fst r) od, false).
  Proof. reflexivity. Qed.

  Lemma c70_start : forall (s : seg E), (s_load s = true -> exists d, s_dict s = Some d /\ reachable (s_cfg s) d) ->
    let s0 := if s_load s then s else {| s_cfg := s_cfg s; s_dict := Some (new_dict E); s_load := true; s_lc := init_lc (s_lc s) |} in
    s_dict s0 = Some (begin_dict s) /\ reachable (s_cfg s) (begin_dict s) /\ s_cfg s0 = s_cfg s /\ s_load s0 = true.
  Proof.
    intros s H s0. unfold s0, begin_dict. destruct (s_load s) eqn:El.
    - destruct (H eq_refl) as (d & Hd & Hr). rewrite Hd. auto.
    - repeat apply conj; try reflexivity. exists []. reflexivity.
  Qed.

  Lemma c70_all : forall (s : seg E) fs arg xs, (s_load s = true -> exists d, s_dict s = Some d /\ reachable (s_cfg s) d) ->
    Forall2 (fun p x => fs p = Some (x, REof)) (match arg with None => [PZhS; PZhT] | Some f => dict_paths f end) xs ->
    exists s' d1 d2, load_dict s fs arg = Ok (s', false) /\ readers (s_cfg s) (s_lc s') (begin_dict s) xs d1 /\ run_ops (s_cfg s) d1 [OpCalc] = Ok d2 /\
      s_dict s' = Some d2 /\ s_load s' = true /\ s_cfg s' = s_cfg s.
  Proof.
    intros s fs arg xs Hs HF. destruct (c70_start Hs) as (H1 & H2 & H3 & H4). rewrite load_dict_start.
    set (s0 := if s_load s then s else _) in *. cbv zeta. rewrite <- H3 in H2.
    destruct (readers_read [] HF H1 H2) as (d1 & R1 & R2). rewrite app_nil_r in R2. rewrite R2. cbn [read_files bind snd fst].
    destruct (calc_reachable (readers_reachable R1 H2)) as (d2 & C1 & C2 & _).
    cbn [s_dict set_dict calc_opt]. rewrite C1. cbn [bind]. eexists _, d1, d2. split; [reflexivity|]. cbn. rewrite H3 in *. auto 8.
  Qed.
  Lemma c70_missing : forall (s : seg E) fs arg ps p qs xs, (s_load s = true -> exists d, s_dict s = Some d /\ reachable (s_cfg s) d) ->
    match arg with None => [PZhS; PZhT] | Some f => dict_paths f end = ps ++ p :: qs -> Forall2 (fun p x => fs p = Some (x, REof)) ps xs -> fs p = None ->
    exists s' d1, load_dict s fs arg = Ok (s', true) /\ readers (s_cfg s) (s_lc s') (begin_dict s) xs d1 /\
      s_dict s' = Some d1 /\ s_load s' = true /\ s_cfg s' = s_cfg s.
  Proof.
    intros s fs arg ps p qs xs Hs Ha HF Hp. destruct (c70_start Hs) as (H1 & H2 & H3 & H4). rewrite load_dict_start, Ha.
    set (s0 := if s_load s then s else _) in *. cbv zeta. rewrite <- H3 in H2.
    destruct (readers_read (p :: qs) HF H1 H2) as (d1 & R1 & R2). rewrite R2. cbn [read_files]. unfold read_file at 1. rewrite Hp. cbn [bind snd fst].
    eexists _, d1. split; [reflexivity|]. cbn. rewrite H3 in *. auto 8.
  Qed.
End Files.

(** *** New and NewEmbed *)
Section NewP.
  Variable E : env.

  (** What every constructor leaves behind. *)
  Definition opt_seg (lower an : bool) : seg E :=
    {| s_cfg := {| c_alphanum := an; c_alpha := false; c_num := false; c_lower := lower |};
       s_dict := None; s_load := false; s_lc := {| l_sep := []; l_nofreq := false; l_min := lit64 E 0 0; l_textfreq := [] |} |}.
  Lemma new_opt : forall lower fs files, exists an, (an = true <-> nth_error files 1 = Some (str "alpha")) /\
    new_seg E lower fs files = load_dict (opt_seg lower an) fs (nth_error files 0).
  Proof.
    intros lower fs files. unfold new_seg. destruct files as [|f0 [|f1 fs']].
    - exists false. split; [split; discriminate|reflexivity].
    - exists false. split; [split; discriminate|reflexivity].
    - exists (beqb f1 (str "alpha")). split; [cbn [nth_error]; rewrite beqb_eq; split; congruence|]. destruct (beqb f1 (str "alpha")); reflexivity.
  Qed.
  Lemma embed_opt : forall lower e files, exists an, (an = true <-> nth_error files 1 = Some (str "alpha") \/ nth_error files 1 = Some (str "en")) /\
    new_embed E lower e files = load_embed e (opt_seg lower an) (nth_error files 0).
  Proof.
    intros lower fs files. unfold new_embed. destruct files as [|f0 [|f1 fs']].
    - exists false. split; [split; [discriminate|intros [H|H]; discriminate]|reflexivity].
    - exists false. split; [split; [discriminate|intros [H|H]; discriminate]|reflexivity].
    - exists (beqb f1 (str "alpha") || beqb f1 (str "en")). split.
      + cbn [nth_error]. rewrite orb_true_iff, !beqb_eq. split; (intros [H|H]; [left|right]; congruence).
      + destruct (beqb f1 (str "alpha") || beqb f1 (str "en")); reflexivity.
  Qed.

  Lemma opt_defaults : forall lower an l, defaults (s_lc (opt_seg lower an)) l ->
    l_sep l = [] /\ l_nofreq l = false /\ l_min l = lit64 E 2 0 /\ l_textfreq l = str "2.0".
  Proof. intros lower an l (H1 & H2 & H3 & _ & H5 & _). cbn in *. repeat apply conj; auto. apply H3. apply zero64_refl. Qed.

  Lemma load_dict_state : forall (s s' : seg E) fs arg err, s_load s = false -> load_dict s fs arg = Ok (s', err) ->
    s_cfg s' = s_cfg s /\ s_load s' = true /\ exists d, s_dict s' = Some d /\ reachable (s_cfg s) d.
  Proof.
    intros s s' fs arg err Hl H. unfold load_dict in H. rewrite Hl in H. apply bind_Ok in H as (r & H1 & H2).
    apply (@read_files_grows E fs _ _ (new_dict E)) in H1; [|reflexivity]. destruct H1 as (os & d' & _ & G2 & G3). cbn [s_cfg] in G2.
    assert (Hr : reachable (s_cfg s) d') by (exists os; exact G2). destruct (snd r).
    - injection H2 as ->. cbn [fst] in G3. rewrite G3. cbn. eauto.
    - rewrite G3 in H2. cbn [s_dict set_dict calc_opt] in H2. destruct (calc_reachable Hr) as (d2 & C1 & _ & C3). rewrite C1 in H2. cbn [bind] in H2.
      injection H2 as <- _. cbn. eauto.
  Qed.
  Lemma c71_new : forall lower fs files (s : seg E) err, new_seg E lower fs files = Ok (s, err) ->
    (c_alphanum (s_cfg s) = true <-> nth_error files 1 = Some (str "alpha")) /\ c_alpha (s_cfg s) = false /\ c_num (s_cfg s) = false /\ c_lower (s_cfg s) = lower /\
    l_sep (s_lc s) = [] /\ l_nofreq (s_lc s) = false /\ l_min (s_lc s) = lit64 E 2 0 /\ l_textfreq (s_lc s) = str "2.0" /\
    s_load s = true /\ exists d, s_dict s = Some d /\ reachable (s_cfg s) d.
  Proof.
    intros lower fs files s err H. destruct (new_opt lower fs files) as (an & H1 & H2). rewrite H2 in H.
    destruct (load_dict_state (s := opt_seg lower an) eq_refl H) as (H3 & H4 & d & H5 & H6). pose proof (load_dict_defaults H) as H7. cbn [s_load opt_seg] in H7.
    apply opt_defaults in H7 as (K1 & K2 & K3 & K4). rewrite H3. cbn [s_cfg opt_seg c_alphanum c_alpha c_num c_lower] in *. repeat apply conj; auto; try (apply H1). exists d. auto.
  Qed.
  Lemma c71_new_returns : forall lower fs files, (forall p x fin, fs p = Some (x, fin) -> fin = REof) -> exists s err, new_seg E lower fs files = Ok (s, err).
  Proof.
    intros lower fs files Hf. destruct (new_opt lower fs files) as (an & _ & ->). set (arg := nth_error files 0).
    assert (Hs : s_load (opt_seg lower an) = true -> exists d, s_dict (opt_seg lower an) = Some d /\ reachable (s_cfg (opt_seg lower an)) d) by discriminate.
    assert (Hsplit : forall ps, (exists xs, Forall2 (fun p x => fs p = Some (x, REof)) ps xs) \/
       exists a p b xs, ps = a ++ p :: b /\ Forall2 (fun p x => fs p = Some (x, REof)) a xs /\ fs p = None).
    { induction ps as [|p ps IH]; [left; exists []; constructor|]. destruct (fs p) as [[x fin]|] eqn:Ep.
      - pose proof (Hf _ _ _ Ep). subst fin. destruct IH as [(xs & IH)|(a & q & b & xs & -> & I1 & I2)].
        + left. exists (x :: xs). constructor; auto.
        + right. exists (p :: a), q, b, (x :: xs). split; [reflexivity|]. split; [constructor; auto|exact I2].
      - right. exists [], p, ps, []. repeat split; [constructor|exact Ep]. }
    destruct (Hsplit (match arg with None => [PZhS; PZhT] | Some f => dict_paths f end)) as [(xs & HF)|(a & p & b & xs & Ha & HF & Hp)].
    - destruct (c70_all Hs HF) as (s' & _ & _ & H & _). eauto.
    - destruct (c70_missing Hs Ha HF Hp) as (s' & _ & H & _). eauto.
  Qed.

  Lemma load_strs_state : forall xs (s : seg E), seg_ok s -> exists s', load_strs s xs = Ok s' /\ s_cfg s' = s_cfg s /\ s_load s' = s_load s /\
    match xs with [] => s' = s | _ => (exists d, s_dict s' = Some d /\ dict_inv (s_cfg s) d /\ exists os, run_ops (s_cfg s) (start_dict s) os = Ok d) /\
      (s_dict s = None -> defaults (s_lc s) (s_lc s')) /\ (s_dict s <> None -> s_lc s' = s_lc s) end.
  Proof.
    intros xs. induction xs as [|x xs IH]; intros s Hs; cbn [load_strs]; [eauto|].
    destruct (load_str_ops x Hs) as (es & d' & _ & G2 & G3). rewrite G3. cbn [bind].
    pose proof (load_str_defaults G3) as Hd. set (s1 := {| s_cfg := _ |}) in *.
    assert (Hi : dict_inv (s_cfg s) d') by (eapply grows_ok; [apply (start_inv Hs)|exact G2]).
    destruct (IH s1 Hi) as (s' & H1 & H2 & H3 & H4). exists s'. split; [exact H1|]. split; [exact H2|]. split; [exact H3|].
    assert (Hdef : (s_dict s = None -> defaults (s_lc s) (s_lc s1)) /\ (s_dict s <> None -> s_lc s1 = s_lc s)).
    { destruct (s_dict s); split; try congruence; auto. }
    destruct xs as [|y ys].
    - subst s'. split; [|exact Hdef]. exists d'. split; [reflexivity|]. split; [exact Hi|]. eexists; exact G2.
    - destruct H4 as ((d2 & K1 & K2 & os & K3) & _ & K5). rewrite K5 by (cbn; discriminate). split; [|exact Hdef]. exists d2. split; [exact K1|]. split; [exact K2|].
      eexists (_ ++ os). rewrite run_ops_app, G2. exact K3.
  Qed.

  Lemma load_embed_strs : forall e (s : seg E) arg, exists xs, xs <> [] /\ load_embed e s arg = load_strs s xs.
  Proof.
    intros e s arg. assert (H1 : forall x, exists xs, xs <> [] /\ load_str s x = load_strs s xs).
    { intro x. exists [x]. split; [discriminate|]. cbn [load_strs]. destruct (load_str s x); reflexivity. }
    destruct arg as [d|]; cbn [load_embed]; [|apply H1].
    destruct (beqb d (str "ja")); [apply H1|]. destruct (beqb d (str "zh")); [apply H1|]. destruct (beqb d (str "zh_s")); [apply H1|]. destruct (beqb d (str "zh_t")); [apply H1|].
    destruct (contains d (str ", ") && negb (beqb (l_sep (s_lc s)) (str ","))) eqn:Ec; [|apply H1].
    rewrite zh_st_strs.
    match goal with |- context [load_strs s ?z] => set (zs := z) end. match goal with |- context [Ok (_, if ?b then 1 else 0)] => set (n := if b then 1 else 0) end.
    exists (zs ++ skipn n (split_str d (str ", "))). split.
    - unfold zs, n. destruct (contains d (str "zh,")); [discriminate|]. destruct (contains d (str "zh_s,")); [discriminate|]. destruct (contains d (str "zh_t,")); [discriminate|].
      cbn [orb app]. cbn [skipn]. intro H. unfold split_str in H. destruct (length d); cbn [split_fuel] in H; [discriminate|]. destruct (index (str ", ") d); discriminate.
    - rewrite load_strs_app. destruct (load_strs s zs); reflexivity.
  Qed.
  Lemma c71_embed : forall lower e files, exists (s : seg E), new_embed E lower e files = Ok s /\
    (c_alphanum (s_cfg s) = true <-> nth_error files 1 = Some (str "alpha") \/ nth_error files 1 = Some (str "en")) /\
    c_alpha (s_cfg s) = false /\ c_num (s_cfg s) = false /\ c_lower (s_cfg s) = lower /\
    l_sep (s_lc s) = [] /\ l_nofreq (s_lc s) = false /\ l_min (s_lc s) = lit64 E 2 0 /\ l_textfreq (s_lc s) = str "2.0" /\
    s_load s = false /\ exists d, s_dict s = Some d /\ reachable (s_cfg s) d.
  Proof.
    intros lower e files. destruct (embed_opt lower e files) as (an & H1 & H2). rewrite H2.
    destruct (load_embed_strs e (opt_seg lower an) (nth_error files 0)) as (xs & Hx & ->).
    destruct (@load_strs_state xs (opt_seg lower an)) as (s & S1 & S2 & S3 & S4); [exact I|]. destruct xs as [|x xs]; [congruence|].
    destruct S4 as ((d & D1 & D2 & os & D3) & D4 & _). specialize (D4 eq_refl). apply opt_defaults in D4 as (K1 & K2 & K3 & K4).
    exists s. rewrite S2. cbn [s_cfg opt_seg c_alphanum c_alpha c_num c_lower s_load] in *. repeat apply conj; auto; try (apply H1).
    exists d. split; [exact D1|]. exists os. exact D3.
  Qed.

  Lemma c71_agree : forall lower fs e name opts es, Forall (@wf_line E) es -> dict_paths name = [PUser name] -> fs (PUser name) = Some (file_text es, REof) ->
    (forall i, ~ occurs_at (str ", ") (file_text es) i) -> ~ In (file_text es) [str "zh"; str "zh_s"; str "zh_t"; str "ja"] -> hd [] opts <> str "en" ->
    exists (s1 s2 : seg E) d, new_seg E lower fs (name :: opts) = Ok (s1, false) /\ new_embed E lower e (file_text es :: opts) = Ok s2 /\
      s_cfg s1 = s_cfg s2 /\ s_lc s1 = s_lc s2 /\ s_dict s1 = Some d /\ s_dict s2 = Some d.
  Proof.
    intros lower fs e name opts es Hw Hp Hf Hc Hn Ho.
    destruct (new_opt lower fs (name :: opts)) as (an & A1 & ->). destruct (embed_opt lower e (file_text es :: opts)) as (an' & B1 & ->).
    assert (an' = an).
    { cbn [nth_error] in *. apply eq_true_iff_eq. rewrite A1, B1. split; [intros [H|H]; [exact H|]|auto]. exfalso. destruct opts as [|o opts]; [discriminate|]. cbn in *. congruence. }
    subst an'. cbn [nth_error]. destruct (@c59_dict E (opt_seg lower an) fs name es eq_refl eq_refl eq_refl eq_refl Hw Hp Hf) as (d & s1 & s2 & L1 & L2 & L3 & L4).
    exists s2, s1, d. split; [exact L2|]. split.
    - rewrite <- L1. unfold load_embed. cbn [In] in Hn.
      repeat (match goal with |- context [beqb (file_text es) ?x] => replace (beqb (file_text es) x) with false by (symmetry; apply beqb_neq; intros Hq; rewrite Hq in Hn; tauto) end).
      replace (contains (file_text es) (str ", ")) with false; [reflexivity|]. symmetry. destruct (contains (file_text es) (str ", ")) eqn:Ec; [|reflexivity].
      apply contains_iff in Ec as (u & v & Hu). exfalso. apply (Hc (length u)). exists u, v; auto.
    - destruct (load_dict_state (s := opt_seg lower an) eq_refl L2) as (K1 & _). 
      assert (Hok : seg_ok (opt_seg lower an)) by exact I. destruct (load_str_ops (file_text es) Hok) as (ents & d' & _ & _ & H3). rewrite H3 in L1. injection L1 as <-.
      cbn [s_cfg s_lc]. split; [exact K1|]. split; [|auto].
      unfold load_dict in L2. cbn [s_load opt_seg] in L2. apply bind_Ok in L2 as (r & R1 & R2). apply read_files_lc in R1.
      destruct (snd r) eqn:Er; [injection R2 as ->; discriminate|]. apply bind_Ok in R2 as (od & _ & R2). injection R2 as <-. cbn [s_lc set_dict]. rewrite R1. reflexivity.
  Qed.
End NewP.

(** *** newTag *)
Lemma index_of_nth : forall x l i j, index_of x l i = Some j -> i <= j /\ nth_error l (j - i) = Some x.
Proof.
  intros x l. induction l as [|y l IH]; intros i j H; [discriminate|]. cbn [index_of] in H. destruct (beqb x y) eqn:Ex.
  - injection H as <-. apply beqb_eq in Ex. subst y. rewrite Nat.sub_diag. auto.
  - apply IH in H as [H1 H2]. split; [lia|]. replace (j - i) with (S (j - S i)) by lia. exact H2.
Qed.
Lemma index_of_in : forall x l i, In x l -> exists j, index_of x l i = Some j.
Proof.
  intros x l. induction l as [|y l IH]; intros i H; [destruct H|]. cbn [index_of]. destruct (beqb x y) eqn:Ex; [eauto|].
  destruct H as [->|H]; [rewrite beqb_refl in Ex; discriminate|auto].
Qed.
Lemma tree_unique : forall E (d : dict E) t l, tree d t l -> forall l', tree d t l' -> l = l'.
Proof.
  intros E d. refine (@tree_mut E d (fun t l _ => forall l', tree d t l' -> l = l') (fun ss l _ => forall l', trees d ss l' -> l = l') _ _ _).
  - intros t items _ IH l' H. inversion H; subst. f_equal. auto.
  - intros l' H. inversion H. reflexivity.
  - intros s rest t a b H1 _ IH1 _ IH2 l' H. inversion H; subst. f_equal; [apply IH1; congruence|auto].
Qed.
Lemma c72_spec : forall E c (d : dict E) t, reachable c d -> In t (d_tokens d) ->
  exists l l', tree d t l /\ listing d t l' /\ subseq l' l /\
    forall f, length (concat (t_text t)) < f -> token_to_bytes f d t = Ok (flat_map render l) /\ token_to_string f d t = Ok (flat_map render l').
Proof.
  intros E c d t Hr Ht. assert (Hv : valid_ref d t) by (left; exact Ht). apply reachable_inv in Hr.
  destruct (bytes_total Hr Hv (Nat.lt_succ_diag_r _)) as (x & Hx). apply bytes_tree in Hx as (l & Hl & _).
  destruct (tok_walk_def (@leaf_pos E) Hr Hv) as (l' & Hp). assert (Hl' : listing d t l'). { apply (@pos_listing E d (S (length (concat (t_text t))))). rewrite pos_walk. apply Hp. lia. }
  exists l, l'. split; [exact Hl|]. split; [exact Hl'|]. split; [exact (tree_listing Hl' Hl)|]. intros f Hf. split.
  - destruct (bytes_total Hr Hv Hf) as (y & Hy). rewrite Hy. apply bytes_tree in Hy as (l2 & H2 & ->). rewrite (tree_unique H2 Hl). reflexivity.
  - assert (H : forall f t, token_to_string f d t = rmap (flat_map render) (token_to_pos f d t)).
    { clear. intros f t. rewrite string_walk, pos_walk, <- (@tok_walk_nat _ _ _ (flat_map render) eq_refl (flat_map_app render)). unfold leaf_pos. cbn [flat_map].
      revert t. induction f as [|f IH]; intro t; cbn [tok_walk]; [reflexivity|].
      rewrite (walk_ext (rec' := tok_walk (fun t => render (join (t_text t), t_pos t) ++ []) f d)); [|intro; apply IH]. rewrite app_nil_r. reflexivity. }
    rewrite H, pos_walk, (Hp f Hf). reflexivity.
Qed.
Lemma c09_listing : forall E c (d : dict E) s, reachable c d ->
  exists segs items, internal_segment c (Some d) s true = Ok segs /\ listings d segs items /\ seg_pos c (Some d) s true = Ok items.
Proof.
  intros E c d s Hr. destruct (@out_total E c d s true Hr) as (_ & (l & Hl) & _). pose proof Hl as H. unfold seg_pos in Hl. apply bind_Ok in Hl as (segs & H1 & H2).
  unfold to_pos in H2. apply seg_loop_listing in H2 as (items & H3 & H4). cbn [app] in H4. subst l. eauto.
Qed.
