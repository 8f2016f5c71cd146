(** Reachable dictionaries satisfy the invariants; consequences for Segment. *)
From Verif Require Import S_Split P_Utf8 P_Split S_Seg P_Dict P_Seg.
Set Implicit Arguments. Unset Strict Implicit.

(** Same texts at the same references. *)
Definition text_le (E : env) (d d' : dict E) : Prop :=
  forall r t, deref d r = Ok t -> exists t', deref d' r = Ok t' /\ t_text t' = t_text t.

Lemma covers_ext : forall E (d d' : dict E) text a b segs, text_le d d' -> covers d text a b segs -> covers d' text a b segs.
Proof.
  intros E d d' text a b segs Hle H. induction H; [constructor|].
  destruct (Hle _ _ H2) as (t' & Ht' & Htx). eapply cov_cons; eauto. rewrite Htx. assumption.
Qed.

Lemma covers_le : forall E (d : dict E) text a b segs, covers d text a b segs -> a <= b.
Proof. intros E d text a b segs H; induction H; lia. Qed.

Lemma covers_deref : forall E (d : dict E) text a b segs, covers d text a b segs ->
  Forall (fun s => exists t, deref d (sg_tok s) = Ok t) segs.
Proof. intros E d text a b segs H; induction H; constructor; eauto. Qed.

Lemma kept_ext : forall E (d d' : dict E) s, text_le d d' -> (exists t, deref d (sg_tok s) = Ok t) -> kept d' s = kept d s.
Proof.
  intros E d d' s Hle [t Ht]. destruct (Hle _ _ Ht) as (t' & Ht' & Htx).
  unfold kept. rewrite Ht, Ht', Htx. reflexivity.
Qed.

Lemma filter_kept_ext : forall E (d d' : dict E) segs, text_le d d' ->
  Forall (fun s => exists t, deref d (sg_tok s) = Ok t) segs -> filter (kept d') segs = filter (kept d) segs.
Proof.
  intros E d d' segs Hle H. induction H as [|s segs Hs H IH]; [reflexivity|]. cbn.
  rewrite (kept_ext Hle Hs), IH. reflexivity.
Qed.

Lemma subs_ok_ext : forall E (d d' : dict E) t t', text_le d d' -> t_text t' = t_text t -> t_segs t' = t_segs t ->
  subs_ok d t -> subs_ok d' t'.
Proof.
  intros E d d' t t' Hle Htx Hsg [H|(full & Hc & Hl & Hf)].
  - left. congruence.
  - right. exists full. rewrite Htx, Hsg. repeat apply conj; auto.
    + eapply covers_ext; eassumption.
    + rewrite Hf. symmetry. apply filter_kept_ext; [exact Hle|]. eapply covers_deref; exact Hc.
Qed.

Record dict_inv (E : env) (c : cfg) (d : dict E) : Prop := {
  inv_ok : dict_ok c d;
  inv_subs : Forall (subs_ok d) (d_tokens d)
}.

Lemma text_le_refl : forall E (d : dict E), text_le d d.
Proof. intros E d r t H. exists t. auto. Qed.

Lemma text_le_tokens : forall E (d d' : dict E),
  (forall v t, nth_error (d_tokens d) v = Some t -> exists t', nth_error (d_tokens d') v = Some t' /\ t_text t' = t_text t) ->
  text_le d d'.
Proof.
  intros E d d' H r t Hd. destruct r as [v|w]; cbn [deref] in *.
  - apply get_Ok in Hd. destruct (H _ _ Hd) as (t' & Ht' & Htx). exists t'. rewrite get_Ok. auto.
  - exists t. auto.
Qed.

Lemma text_le_map : forall E (d : dict E) ts, map (@t_text E) ts = map (@t_text E) (d_tokens d) -> text_le d (set_tokens d ts).
Proof.
  intros E d ts Hm. apply text_le_tokens. intros v t Ht. cbn [d_tokens set_tokens].
  assert (Hn : nth_error (map (@t_text E) ts) v = Some (t_text t)) by (rewrite Hm; apply map_nth_error; exact Ht).
  destruct (nth_error ts v) as [t'|] eqn:Et.
  - exists t'. split; [reflexivity|]. rewrite (map_nth_error _ _ _ Et) in Hn. congruence.
  - exfalso. apply nth_error_None in Et. rewrite <- (map_length (@t_text E)) in Et.
    apply nth_error_None in Et. congruence.
Qed.

Lemma add_token_inv : forall E c (d : dict E) t s, dict_inv c d -> t_text t = wsplit E c s -> t_segs t = [] ->
  dict_inv c (add_token d t).
Proof.
  intros E c d t s [H1 H2] Hs Hsg. constructor; [eapply add_token_ok; eassumption|].
  unfold add_token. destruct (t_get (d_trie d) (text_bytes (t_text t))); [exact H2|].
  set (d' := {| d_trie := _ |}). assert (Hle : text_le d d').
  { apply text_le_tokens. intros v t0 Hv. exists t0. split; [|reflexivity]. cbn.
    rewrite nth_error_app1; [exact Hv|]. apply nth_error_Some. congruence. }
  cbn [d_tokens d']. apply Forall_app. split.
  - eapply Forall_impl; [|exact H2]. intros t0 Ht0. eapply subs_ok_ext; try eassumption; reflexivity.
  - constructor; [left; exact Hsg|constructor].
Qed.

Lemma remove_token_inv : forall E c (d d' : dict E) text, dict_inv c d -> remove_token d text = Some d' -> dict_inv c d'.
Proof.
  intros E c d d' text [H1 H2] H. constructor; [eapply remove_token_ok; eassumption|].
  unfold remove_token in H. destruct (t_delete _ _ _); [|discriminate]. injection H as <-. cbn [d_tokens].
  eapply Forall_impl; [|exact H2]. intros t0 Ht0. eapply subs_ok_ext; try eassumption; try reflexivity.
  apply text_le_tokens. intros v t1 Hv. exists t1. auto.
Qed.

(** segmentWords on the words of a token. *)
Lemma segment_token : forall E c (d : dict E) ws s, dict_ok c d -> ws = wsplit E c s ->
  exists segs, segment_words (Some d) ws true = Ok segs /\
    (segs = [] \/ (covers d (concat ws) 0 (length (concat ws)) segs /\ 2 <= length segs)).
Proof.
  intros E c d ws s Hok Hws. destruct (Nat.eq_dec (length ws) 1) as [H1|H1].
  - exists []. unfold segment_words. apply Nat.eqb_eq in H1. rewrite H1. cbn. auto.
  - destruct (@segment_words_spec E c d true ws Hok) as (js & rs & ps & segs & HI & Hch & H2 & H3 & H4).
    + rewrite Hws. apply split_is_stable.
    + rewrite Hws. apply split_nonempty.
    + intros _. exact H1.
    + exists segs. split; [exact H2|].
      destruct ws as [|w ws'].
      * left. cbn in H4. inversion H4; subst; [reflexivity|]. exfalso.
        match goal with H : covers d _ _ _ _ |- _ => apply covers_le in H end. lia.
      * right. split; [exact H4|].
        destruct (@chain_pieces E c d true (w :: ws') Hok) with (js := js) (k := length (w :: ws')) (rs := rs) (ps := ps)
          as (_ & _ & _ & _ & H5); auto.
        -- rewrite Hws. apply split_is_stable.
        -- rewrite <- (map_length sg_tok), H3. apply H5; auto. cbn [length] in *. lia.
Qed.

Lemma keep_subs_spec : forall E (d : dict E) segs, Forall (fun s => exists t, deref d (sg_tok s) = Ok t) segs ->
  keep_subs d segs = Ok (filter (kept d) segs).
Proof.
  intros E d segs H. induction H as [|s segs [t Ht] H IH]; [reflexivity|]. cbn [keep_subs filter].
  assert (Hk : kept d s = keep_sub E (t_text t)).
  { unfold kept, keep_sub, is_jp. rewrite Ht. destruct (t_text t) as [|w [|]]; try reflexivity. clear. induction (runes_of w) as [|r rs IH]; [reflexivity|]. cbn. rewrite IH. destruct (is_kana E r); reflexivity. }
  rewrite Ht, IH, Hk. reflexivity.
Qed.

Lemma calc_segs_spec : forall E c (d : dict E) ts, dict_ok c d ->
  Forall (fun t => exists s, t_text t = wsplit E c s) ts ->
  exists ts', calc_segs d ts = Ok ts' /\ map (@t_text E) ts' = map (@t_text E) ts /\
    map (@t_freq E) ts' = map (@t_freq E) ts /\ map (@t_pos E) ts' = map (@t_pos E) ts /\
    map (@t_dist E) ts' = map (@t_dist E) ts /\
    Forall (subs_ok d) ts'.
Proof.
  intros E c d ts Hok H. induction H as [|t ts [s Hs] H IH].
  - exists []. repeat apply conj; auto.
  - destruct IH as (ts' & I1 & I2 & I3 & I4 & I5 & I6). cbn [calc_segs].
    destruct (segment_token Hok Hs) as (segs & S1 & S2). rewrite S1. cbn [bind].
    assert (Hder : Forall (fun s => exists t, deref d (sg_tok s) = Ok t) segs).
    { destruct S2 as [->|[S2 _]]; [constructor|]. eapply covers_deref; exact S2. }
    rewrite (keep_subs_spec Hder), I1. cbn [bind].
    eexists. split; [reflexivity|]. cbn [map set_segs t_text t_freq t_pos t_dist]. rewrite I2, I3, I4, I5.
    repeat apply conj; auto. constructor; [|exact I6].
    unfold subs_ok. cbn [set_segs t_segs t_text]. destruct S2 as [->|[S2 S3]]; [left; reflexivity|right; eauto].
Qed.

Lemma calc_token_spec : forall E c (d : dict E), dict_ok c d ->
  exists d', calc_token d = Ok d' /\ dict_inv c d' /\ d_trie d' = d_trie d /\ d_max d' = d_max d /\ d_total d' = d_total d /\
    map (@t_text E) (d_tokens d') = map (@t_text E) (d_tokens d) /\
    map (@t_freq E) (d_tokens d') = map (@t_freq E) (d_tokens d) /\
    map (@t_pos E) (d_tokens d') = map (@t_pos E) (d_tokens d) /\
    map (@t_dist E) (d_tokens d') =
      map (fun t => sub32 E (to32 E (m_log2 E (d_total d))) (to32 E (m_log2 E (t_freq t)))) (d_tokens d).
Proof.
  intros E c d Hok. unfold calc_token.
  set (d1 := calc_dist d).
  assert (Hm : map (@t_text E) (d_tokens d1) = map (@t_text E) (d_tokens d)).
  { unfold d1, calc_dist. cbn [set_tokens d_tokens]. rewrite map_map. reflexivity. }
  assert (Hok1 : dict_ok c d1).
  { unfold d1, calc_dist in *. apply set_tokens_ok; [exact Hok|exact Hm]. }
  destruct (@calc_segs_spec E c d1 (d_tokens d1) Hok1 (ok_tokens Hok1)) as (ts' & C1 & C2 & C3 & C4 & C5 & C6).
  rewrite C1. cbn [bind]. eexists. split; [reflexivity|].
  assert (Hle : text_le d1 (set_tokens d1 ts')) by (apply text_le_map; exact C2).
  split; [constructor|].
  - apply set_tokens_ok; assumption.
  - cbn [set_tokens d_tokens]. eapply Forall_impl; [|exact C6]. intros t Ht.
    eapply subs_ok_ext; try eassumption; reflexivity.
  - cbn [set_tokens d_trie d_max d_total d_tokens d1 calc_dist]. repeat apply conj; auto.
    + rewrite C2. exact Hm.
    + rewrite C3. unfold d1, calc_dist. cbn [set_tokens d_tokens]. rewrite map_map. reflexivity.
    + rewrite C4. unfold d1, calc_dist. cbn [set_tokens d_tokens]. rewrite map_map. reflexivity.
    + rewrite C5. unfold d1, calc_dist. cbn [set_tokens d_tokens]. rewrite map_map. reflexivity.
Qed.

(** The sub-segments right after CalcToken. *)
Lemma segment_token_full : forall E c (d : dict E) ws s, dict_ok c d -> ws = wsplit E c s ->
  exists segs, segment_words (Some d) ws true = Ok segs /\ (length ws <= 1 -> segs = []) /\
    (2 <= length ws -> covers d (concat ws) 0 (length (concat ws)) segs /\ 2 <= length segs).
Proof.
  intros E c d ws s Hok Hws. destruct (segment_token Hok Hws) as (segs & S1 & S2). exists segs. split; [exact S1|]. split.
  - intro Hl. destruct S2 as [S2|[S2 S3]]; [exact S2|]. destruct ws as [|w [|]]; cbn in Hl; [|cbn in S1; congruence|lia].
    cbn in S2. inversion S2; subst; [reflexivity|]. match goal with H : covers d _ _ _ _ |- _ => apply covers_le in H end. lia.
  - intro Hl. destruct S2 as [->|S2]; [|exact S2]. exfalso.
    destruct (@segment_words_spec E c d true ws Hok) as (js & rs & ps & segs & HI & Hch & H2 & H3 & H4); try (rewrite Hws; first [apply split_is_stable|apply split_nonempty]); [intros _; lia|].
    rewrite S1 in H2. injection H2 as <-. assert (Hp : length (concat ws) = 0) by (inversion H4; auto). pose proof (@split_nonempty E c s) as Hn. rewrite <- Hws in Hn. destruct ws as [|w ws]; [cbn in Hl; lia|].
    inversion Hn as [|? ? Hw _]; subst. cbn [concat] in Hp. rewrite app_length in Hp. destruct w; [congruence|cbn in Hp; lia].
Qed.
Lemma calc_segs_full : forall E c (d : dict E) ts ts', dict_ok c d -> Forall (fun t => exists s, t_text t = wsplit E c s) ts ->
  calc_segs d ts = Ok ts' -> Forall (subs_full d) ts'.
Proof.
  intros E c d ts ts' Hok H. revert ts'. induction H as [|t ts [s Hs] H IH]; intros ts' Hc; cbn [calc_segs] in Hc; [injection Hc as <-; constructor|].
  destruct (segment_token_full Hok Hs) as (segs & S1 & S2 & S3). rewrite S1 in Hc. cbn [bind] in Hc.
  assert (Hder : Forall (fun s => exists t, deref d (sg_tok s) = Ok t) segs).
  { destruct (le_lt_dec (length (t_text t)) 1) as [Hl|Hl]; [rewrite (S2 Hl); constructor|]. eapply covers_deref. apply S3. lia. }
  rewrite (keep_subs_spec Hder) in Hc. cbn [bind] in Hc. destruct (calc_segs d ts) as [rest| |]; try discriminate. injection Hc as <-. constructor; [|apply IH; reflexivity].
  unfold subs_full. cbn [set_segs t_text t_segs]. split; [intro Hl; rewrite (S2 Hl); reflexivity|]. intro Hl. destruct (S3 Hl). eauto.
Qed.
Lemma subs_full_ext : forall E (d d' : dict E) t, text_le d d' -> subs_full d t -> subs_full d' t.
Proof.
  intros E d d' t Hle [H1 H2]. split; [exact H1|]. intro Hl. destruct (H2 Hl) as (full & C & L & F). exists full. split; [eapply covers_ext; eassumption|]. split; [exact L|].
  rewrite F. symmetry. apply filter_kept_ext; [exact Hle|]. eapply covers_deref; exact C.
Qed.
Lemma calc_token_full : forall E c (d d' : dict E), dict_ok c d -> calc_token d = Ok d' -> Forall (subs_full d') (d_tokens d').
Proof.
  intros E c d d' Hok H. unfold calc_token in H. set (d1 := calc_dist d) in *.
  assert (Hm : map (@t_text E) (d_tokens d1) = map (@t_text E) (d_tokens d)).
  { unfold d1, calc_dist. cbn [set_tokens d_tokens]. rewrite map_map. reflexivity. }
  assert (Hok1 : dict_ok c d1) by (unfold d1, calc_dist in *; apply set_tokens_ok; [exact Hok|exact Hm]).
  destruct (@calc_segs_spec E c d1 (d_tokens d1) Hok1 (ok_tokens Hok1)) as (ts' & C1 & C2 & _). rewrite C1 in H. cbn [bind] in H. injection H as <-.
  cbn [set_tokens d_tokens]. eapply Forall_impl; [|exact (calc_segs_full Hok1 (ok_tokens Hok1) C1)]. intros t Ht. eapply subs_full_ext; [|exact Ht]. apply text_le_map. exact C2.
Qed.

Lemma run_op_inv : forall E c (d : dict E) o, dict_inv c d -> exists d', run_op c d o = Ok d' /\ dict_inv c d'.
Proof.
  intros E c d o Hi. destruct o as [text freq pos|text freq pos|text|]; cbn [run_op].
  - unfold seg_add_token, to_token. rewrite split_words_eq. cbn [bind]. eexists. split; [reflexivity|].
    eapply add_token_inv; [exact Hi|reflexivity|reflexivity].
  - unfold seg_readd_token, to_token. rewrite split_words_eq. cbn [bind t_text].
    destruct (remove_token d (wsplit E c text)) as [d1|] eqn:Er; cbn [bind fst]; eexists; (split; [reflexivity|]); [|exact Hi].
    eapply add_token_inv; [eapply remove_token_inv; eassumption|reflexivity|reflexivity].
  - unfold seg_remove_token. rewrite split_words_eq. cbn [bind].
    destruct (remove_token d (wsplit E c text)) as [d1|] eqn:Er; cbn [bind fst]; eexists; (split; [reflexivity|]); [|exact Hi].
    eapply remove_token_inv; eassumption.
  - destruct (calc_token_spec (inv_ok Hi)) as (d' & H1 & H2 & _). eauto.
Qed.

Lemma new_dict_inv : forall E c, dict_inv c (new_dict E).
Proof. intros. constructor; [apply new_dict_ok|constructor]. Qed.

Lemma run_ops_inv : forall E c os (d : dict E), dict_inv c d -> exists d', run_ops c d os = Ok d' /\ dict_inv c d'.
Proof.
  intros E c os. induction os as [|o os IH]; intros d Hi; cbn [run_ops]; [eauto|].
  destruct (run_op_inv o Hi) as (d1 & H1 & H2). rewrite H1. cbn [bind]. apply IH. exact H2.
Qed.

Lemma reachable_inv : forall E c (d : dict E), reachable c d -> dict_inv c d.
Proof.
  intros E c d [os H]. destruct (run_ops_inv os (new_dict_inv E c)) as (d' & H1 & H2). congruence.
Qed.

(* ---- C01, C04, C06 ---- *)

Lemma wsplit_nil_iff : forall E c s, wsplit E c s = [] <-> s = [].
Proof.
  intros E c s. split; [|intros ->; reflexivity]. intro H.
  pose proof (split_concat E c s) as Hc. rewrite H in Hc. cbn in Hc.
  symmetry in Hc. apply (f_equal (@length _)) in Hc. rewrite norm_length in Hc. destruct s; [reflexivity|discriminate].
Qed.

Lemma segment_inv : forall E c (d : dict E) s m, dict_inv c d ->
  (m = true -> length (wsplit E c s) <> 1) ->
  exists segs, internal_segment c (Some d) s m = Ok segs /\
    covers d (norm E c s) 0 (length s) segs /\
    tiling d (wsplit E c s) (map sg_tok segs) /\
    (m = true -> s <> [] -> 2 <= length segs) /\
    exists js ps, Inv d m (wsplit E c s) (length (wsplit E c s)) js /\
       chain d m (wsplit E c s) js (length (wsplit E c s)) (map sg_tok segs) ps.
Proof.
  intros E c d s m Hi Hm.
  destruct s as [|b s'].
  - exists []. cbn [internal_segment]. split; [reflexivity|]. split; [constructor|].
    split; [exists []; split; [reflexivity|constructor]|]. split; [congruence|].
    exists [], []. split; [|constructor]. split; [reflexivity|]. cbn. intros l Hl. lia.
  - set (s := b :: s') in *. unfold internal_segment. unfold s at 1. fold s. rewrite split_words_eq. cbn [bind].
    destruct (@segment_words_spec E c d m (wsplit E c s) (inv_ok Hi)) as (js & rs & ps & segs & HI & Hch & H2 & H3 & H4).
    + apply split_is_stable.
    + apply split_nonempty.
    + exact Hm.
    + exists segs. rewrite split_concat, norm_length in H4.
      destruct (@chain_pieces E c d m (wsplit E c s) (inv_ok Hi)) with (js := js) (k := length (wsplit E c s)) (rs := rs) (ps := ps)
          as (P1 & P2 & P3 & P4 & P5); auto using split_is_stable.
      split; [exact H2|]. split; [exact H4|]. split.
      { exists ps. rewrite P1, firstn_all, H3. auto. }
      split.
      { intros Hmt _. rewrite <- (map_length sg_tok), H3. apply P5; auto.
        specialize (Hm Hmt). destruct (wsplit E c s) as [|w [|w' l]] eqn:Ew; cbn [length] in *; try lia.
        apply wsplit_nil_iff in Ew. discriminate. }
      exists js, ps. rewrite H3. auto.
Qed.

Lemma search_one : forall E c (d : dict E) s, length (wsplit E c s) = 1 -> internal_segment c (Some d) s true = Ok [].
Proof.
  intros E c d s H. destruct s as [|b s]; [reflexivity|]. unfold internal_segment. rewrite split_words_eq. cbn [bind].
  unfold segment_words. rewrite H. reflexivity.
Qed.

Lemma c01 : forall E c (d : dict E) s m, reachable c d ->
  exists segs, internal_segment c (Some d) s m = Ok segs /\
    ((m = true /\ segs = [] /\ exists w, split_words E c s = Ok [w]) \/ covers d (norm E c s) 0 (length s) segs).
Proof.
  intros E c d s m Hr. apply reachable_inv in Hr.
  destruct m; [destruct (Nat.eq_dec (length (wsplit E c s)) 1) as [H1|H1]|].
  - exists []. split; [apply search_one; exact H1|left]. split; [reflexivity|]. split; [reflexivity|].
    rewrite split_words_eq. destruct (wsplit E c s) as [|w [|]]; try discriminate. eauto.
  - destruct (@segment_inv E c d s true Hr (fun _ => H1)) as (segs & A & B & _). exists segs. auto.
  - destruct (@segment_inv E c d s false Hr ltac:(congruence)) as (segs & A & B & _). exists segs. auto.
Qed.

Lemma c04 : forall E c (d : dict E) s segs, reachable c d -> internal_segment c (Some d) s true = Ok segs ->
  (length segs <> 1) /\
  (forall ws, split_words E c s = Ok ws -> (length ws <= 1 -> segs = []) /\ (2 <= length ws -> 2 <= length segs)).
Proof.
  intros E c d s segs Hr Hs. apply reachable_inv in Hr.
  assert (Hm : length (wsplit E c s) <= 1 /\ segs = [] \/ 2 <= length (wsplit E c s) /\ 2 <= length segs).
  { destruct (Nat.eq_dec (length (wsplit E c s)) 1) as [H1|H1].
    - rewrite (search_one d H1) in Hs. left. split; [lia|congruence].
    - destruct (@segment_inv E c d s true Hr (fun _ => H1)) as (segs' & A & _ & _ & B & _).
      rewrite A in Hs. injection Hs as <-. destruct s as [|b s'].
      + left. cbn. split; [lia|]. cbn in A. congruence.
      + right. split; [|apply B; congruence].
        destruct (wsplit E c (b :: s')) as [|w [|w' l]] eqn:Ew; cbn [length] in *; try lia.
        apply wsplit_nil_iff in Ew. discriminate. }
  split.
  - destruct Hm as [[_ ->]|[_ H]]; [cbn; lia|lia].
  - intros ws Hws. rewrite split_words_eq in Hws. injection Hws as <-.
    destruct Hm as [[H1 H2]|[H1 H2]]; split; intros; auto; lia.
Qed.

Lemma c06 : forall E c (d : dict E) s m segs, reachable c d -> internal_segment c (Some d) s m = Ok segs ->
  Forall (fun sg => exists t, deref d (sg_tok sg) = Ok t /\
     ((exists v, sg_tok sg = InDict v /\ dict_value d (concat (t_text t)) = Some v /\
                 dict_find d (concat (t_text t)) = Ok (t_freq t, t_pos t, true)) \/
      (exists w, sg_tok sg = Fallback w /\ t = fallback_token E w /\ dict_value d w = None))) segs.
Proof.
  intros E c d s m segs Hr Hs. apply reachable_inv in Hr.
  assert (Ht : segs = [] \/ tiling d (wsplit E c s) (map sg_tok segs)).
  { destruct m; [destruct (Nat.eq_dec (length (wsplit E c s)) 1) as [H1|H1]|].
    - rewrite (search_one d H1) in Hs. left. congruence.
    - destruct (@segment_inv E c d s true Hr (fun _ => H1)) as (segs' & A & _ & B & _). right. congruence.
    - destruct (@segment_inv E c d s false Hr ltac:(congruence)) as (segs' & A & _ & B & _). right. congruence. }
  destruct Ht as [->|(ps & _ & HF)]; [constructor|].
  revert ps HF. clear Hs. induction segs as [|sg segs IH]; intros ps HF; [constructor|].
  cbn in HF. inversion HF as [|p r ps' rs' Hp HF']; subst. constructor; [|eapply IH; exact HF'].
  inversion Hp as [p' v Hpne Hv Hp1 Hr1|w Hv Hp1 Hr1]; subst.
  - rewrite dict_value_get in Hv. destruct (ok_entry (inv_ok Hr) Hv) as (t & T1 & T2 & T3 & T4).
    exists t. cbn [deref]. split; [apply get_Ok; exact T1|]. left. exists v. rewrite T3, dict_value_get.
    repeat apply conj; auto.
    unfold dict_find, t_jump. destruct (concat p) as [|b k] eqn:Ek.
    + unfold t_value. rewrite Hv. unfold get. rewrite T1. reflexivity.
    + cbn [app]. rewrite (t_path_key Hv). unfold t_value. rewrite Hv. unfold get. rewrite T1. reflexivity.
  - exists (fallback_token E w). cbn [deref]. split; [reflexivity|]. right. exists w. auto.
Qed.
