(** Two dictionaries with the same words: the results agree. *)
From Verif Require Import S_Split P_Utf8 P_Split S_Seg P_Dict P_Seg P_Seg2 P_Out M_Out P_Meta P_Meta2.
Set Implicit Arguments. Unset Strict Implicit.

(** The entry of the same word in both dictionaries, or the same fallback. *)
Definition tokref (E : env) (d1 d2 : dict E) (r1 r2 : tref) : Prop :=
  (exists w v1 v2, t_get (d_trie d1) w = Some v1 /\ t_get (d_trie d2) w = Some v2 /\ r1 = InDict v1 /\ r2 = InDict v2) \/
  (exists w, r1 = Fallback w /\ r2 = Fallback w).
Definition segrel (E : env) (d1 d2 : dict E) (s1 s2 : segment) : Prop :=
  sg_start s1 = sg_start s2 /\ sg_end s1 = sg_end s2 /\ tokref d1 d2 (sg_tok s1) (sg_tok s2).

Section Ext.
  Variable E : env.
  Variable c : cfg.
  Variables d1 d2 : dict E.
  Hypothesis Hd1 : dict_ok c d1.
  Hypothesis Hd2 : dict_ok c d2.

  Lemma tokref_text : forall r1 r2, tokref d1 d2 r1 r2 -> exists t1 t2, deref d1 r1 = Ok t1 /\ deref d2 r2 = Ok t2 /\ t_text t1 = t_text t2.
  Proof.
    intros r1 r2 [(w & v1 & v2 & G1 & G2 & -> & ->)|(w & -> & ->)]; [|exists (fallback_token E w), (fallback_token E w); auto].
    destruct (ok_entry Hd1 G1) as (t1 & N1 & T1 & _). destruct (ok_entry Hd2 G2) as (t2 & N2 & T2 & _). exists t1, t2. cbn [deref]. unfold get. rewrite N1, N2, T1, T2. auto.
  Qed.
  Lemma positions_rel : forall rs1 rs2, Forall2 (tokref d1 d2) rs1 rs2 -> forall p segs1 segs2, positions d1 p rs1 = Ok segs1 -> positions d2 p rs2 = Ok segs2 ->
    Forall2 (segrel d1 d2) segs1 segs2.
  Proof.
    intros rs1 rs2 H. induction H as [|r1 r2 rs1 rs2 Hr H IH]; intros p segs1 segs2 P1 P2; cbn [positions] in *; [injection P1 as <-; injection P2 as <-; constructor|].
    destruct (tokref_text Hr) as (t1 & t2 & D1 & D2 & Ht). rewrite D1 in P1. rewrite D2 in P2. cbn [bind] in *. rewrite <- Ht in P2.
    apply bind_Ok in P1 as (x1 & Q1 & P1). apply bind_Ok in P2 as (x2 & Q2 & P2). injection P1 as <-. injection P2 as <-.
    constructor; [repeat split; auto|]. eapply IH; eassumption.
  Qed.

  Section Words.
    Variable ws : list bytes.
    Variable m : bool.
    Hypothesis Hs : stable E c ws.
    Hypothesis Hn : Forall (fun w => w <> []) ws.
    Hypothesis HK : forall i j, i < j -> j <= length ws ->
      match t_get (d_trie d1) (concat (slice ws i j)), t_get (d_trie d2) (concat (slice ws i j)) with
      | Some v1, Some v2 => dist_of d1 (InDict v1) = dist_of d2 (InDict v2)
      | None, None => True
      | _, _ => False
      end.

    Lemma cand_rel : forall i l, i <= l -> l < length ws ->
      match cand d1 m ws i (S l), cand d2 m ws i (S l) with
      | Some r1, Some r2 => tokref d1 d2 r1 r2 /\ dist_of d1 r1 = dist_of d2 r2
      | None, None => True
      | _, _ => False
      end.
    Proof.
      intros i l Hi Hl. unfold cand. pose proof (@HK i (S l) ltac:(lia) ltac:(lia)) as K.
      destruct (t_get (d_trie d1) (concat (slice ws i (S l)))) as [v1|] eqn:G1, (t_get (d_trie d2) (concat (slice ws i (S l)))) as [v2|] eqn:G2; try contradiction.
      - destruct (_ && _); [exact I|]. split; [left; eauto 10|exact K].
      - destruct (_ =? _); [|exact I]. destruct (nth_error ws i) as [w|]; [|exact I]. split; [right; eauto|reflexivity].
    Qed.

    Lemma segment_words_rel : exists segs1 segs2, segment_words (Some d1) ws m = Ok segs1 /\ segment_words (Some d2) ws m = Ok segs2 /\ Forall2 (segrel d1 d2) segs1 segs2.
    Proof.
      destruct (m && (length ws =? 1)) eqn:Em.
      { exists [], []. unfold segment_words. rewrite Em. repeat split; constructor. }
      assert (Hsr : m = true -> length ws <> 1). { intros -> Hl. rewrite Hl in Em. discriminate. }
      destruct (@segment_words_spec E c d1 m ws Hd1 Hs Hn Hsr) as (js1 & rs1 & ps1 & segs1 & I1 & C1 & W1 & M1 & _).
      destruct (@segment_words_spec E c d2 m ws Hd2 Hs Hn Hsr) as (js2 & rs2 & ps2 & segs2 & I2 & C2 & W2 & M2 & _).
      exists segs1, segs2. split; [exact W1|]. split; [exact W2|].
      assert (HF : Forall2 (tokref d1 d2) rs1 rs2).
      { eapply (@chains_rel E d1 d2 m m ws ws (length ws) (tokref d1 d2) (le_n _) (le_n _)) with (js1 := js1) (js2 := js2) (m := length ws); try eassumption; try lia.
        - exact cand_rel.
        - intros i1 i2 l r1 r2 L1 L2 Hl Hr G1 G2. destruct (tokref_text Hr) as (t1 & t2 & D1 & D2 & Ht).
          destruct (@cand_spec E c d1 m ws Hd1 Hs Hsr i1 (S l) r1) as (t1' & D1' & _ & N1 & _); [lia|lia|exact G1|].
          destruct (@cand_spec E c d2 m ws Hd2 Hs Hsr i2 (S l) r2) as (t2' & D2' & _ & N2 & _); [lia|lia|exact G2|].
          assert (t1' = t1) by congruence. assert (t2' = t2) by congruence. subst. rewrite Ht in N1. lia. }
      assert (P : forall (d : dict E) (rs : list tref) segs p, positions d p rs = Ok segs -> map sg_tok segs = rs).
      { clear. intros d rs. induction rs as [|r rs IH]; intros segs p H; cbn [positions] in H; [injection H as <-; reflexivity|].
        apply bind_Ok in H as (t & _ & H). apply bind_Ok in H as (rest & H1 & H2). injection H2 as <-. cbn. f_equal. eapply IH, H1. }
      assert (Q : forall (d : dict E) segs js, dict_ok c d -> segment_words (Some d) ws m = Ok segs -> Inv d m ws (length ws) js -> positions d 0 (map sg_tok segs) = Ok segs).
      { intros d segs js Hd W _. unfold segment_words in W. rewrite Em in W. apply bind_Ok in W as (js' & _ & W). apply bind_Ok in W as (rs & _ & W). rewrite (P _ _ _ _ W). exact W. }
      apply (@positions_rel rs1 rs2 HF 0); [rewrite <- M1; eapply Q; eassumption|rewrite <- M2; eapply Q; eassumption].
    Qed.
  End Words.
End Ext.

(** *** Dictionaries after CalcToken *)
Definition tokfull (E : env) (T : bytes -> bytes -> Prop) (d1 d2 : dict E) (t1 t2 : token E) : Prop :=
  t_text t1 = t_text t2 /\ t_freq t1 = t_freq t2 /\ T (t_pos t1) (t_pos t2) /\ t_dist t1 = t_dist t2 /\ Forall2 (segrel d1 d2) (t_segs t1) (t_segs t2).

Lemma map_nth : forall A B (f : A -> B) l l' i a, map f l = map f l' -> nth_error l i = Some a -> exists a', nth_error l' i = Some a' /\ f a' = f a.
Proof.
  intros A B f l l' i a H Hi. assert (K : nth_error (map f l') i = Some (f a)) by (rewrite <- H; apply map_nth_error; exact Hi).
  destruct (nth_error l' i) as [a'|] eqn:N; [|exfalso; apply nth_error_None in N; assert (i < length (map f l')) by (apply nth_error_Some; congruence); rewrite map_length in *; lia].
  exists a'. split; [reflexivity|]. rewrite (map_nth_error f _ _ N) in K. congruence.
Qed.

Lemma F2_imp : forall A B (P Q : A -> B -> Prop) l l', (forall a b, P a b -> Q a b) -> Forall2 P l l' -> Forall2 Q l l'.
Proof. intros A B P Q l l' H HF. induction HF; constructor; auto. Qed.
Lemma F2_len : forall A B (P : A -> B -> Prop) l l', Forall2 P l l' -> length l = length l'.
Proof. intros A B P l l' H. induction H; cbn; auto. Qed.

Section Calc.
  Variable E : env.
  Variable c : cfg.
  Variables e1 e2 d1 d2 : dict E.
  (** A relation between the tags. *)
  Variable T : bytes -> bytes -> Prop.
  Hypothesis Trefl : forall p, T p p.
  Hypothesis He1 : dict_ok c e1.
  Hypothesis He2 : dict_ok c e2.
  Hypothesis Hc1 : calc_token e1 = Ok d1.
  Hypothesis Hc2 : calc_token e2 = Ok d2.
  Hypothesis Htot : d_total d1 = d_total d2.
  (** The same words with the same frequency and related tags. *)
  Hypothesis Hw : forall w, match t_get (d_trie d1) w, t_get (d_trie d2) w with
    | Some v1, Some v2 => exists t1 t2, nth_error (d_tokens d1) v1 = Some t1 /\ nth_error (d_tokens d2) v2 = Some t2 /\ t_freq t1 = t_freq t2 /\ T (t_pos t1) (t_pos t2)
    | None, None => True
    | _, _ => False
    end.

  Lemma calc_unfold : forall e d : dict E, dict_ok c e -> calc_token e = Ok d ->
    exists ts, calc_segs (calc_dist e) (d_tokens (calc_dist e)) = Ok ts /\ d = set_tokens (calc_dist e) ts /\ dict_ok c (calc_dist e).
  Proof.
    intros e d He H. unfold calc_token in H. apply bind_Ok in H as (ts & H1 & H2). injection H2 as <-. exists ts. split; [exact H1|]. split; [reflexivity|].
    apply set_tokens_ok; [exact He|]. rewrite map_map. reflexivity.
  Qed.
  Lemma calc_segs_nth : forall (e : dict E) ts ts', calc_segs e ts = Ok ts' -> forall v t', nth_error ts' v = Some t' ->
    exists t segs kept, nth_error ts v = Some t /\ segment_words (Some e) (t_text t) true = Ok segs /\ keep_subs e segs = Ok kept /\ t' = set_segs t kept.
  Proof.
    intros e. induction ts as [|t ts IH]; intros ts' H v t' Hv; cbn [calc_segs] in H.
    - injection H as <-. destruct v; discriminate.
    - apply bind_Ok in H as (segs & H1 & H). apply bind_Ok in H as (kept & H2 & H). apply bind_Ok in H as (rest & H3 & H). injection H as <-.
      destruct v as [|v]; cbn [nth_error] in *; [injection Hv as <-; exists t, segs, kept; auto|]. exact (IH _ H3 _ _ Hv).
  Qed.
  Lemma calc_get : forall e d : dict E, dict_ok c e -> calc_token e = Ok d -> forall v t, nth_error (d_tokens d) v = Some t ->
    exists t0 segs, nth_error (d_tokens (calc_dist e)) v = Some t0 /\ segment_words (Some (calc_dist e)) (t_text t) true = Ok segs /\ keep_subs (calc_dist e) segs = Ok (t_segs t) /\
      t_text t = t_text t0 /\ t_freq t = t_freq t0 /\ t_pos t = t_pos t0 /\ t_dist t = t_dist t0 /\
      t_dist t = sub32 E (to32 E (m_log2 E (d_total d))) (to32 E (m_log2 E (t_freq t))).
  Proof.
    intros e d He H v t Hv. destruct (calc_unfold He H) as (ts & H1 & -> & _). cbn [set_tokens d_tokens] in Hv.
    destruct (calc_segs_nth H1 Hv) as (t0 & segs & kept & N & W & K & ->). exists t0, segs. cbn [set_segs t_text t_freq t_pos t_dist t_segs]. repeat split; auto.
    unfold calc_dist in N. cbn [set_tokens d_tokens] in N. destruct (nth_error (d_tokens e) v) as [x|] eqn:Nx; [|apply nth_error_None in Nx; assert (v < length (map (fun t => set_dist t (sub32 E (to32 E (m_log2 E (d_total e))) (to32 E (m_log2 E (t_freq t))))) (d_tokens e))) by (apply nth_error_Some; congruence); rewrite map_length in *; lia].
    rewrite (map_nth_error _ _ _ Nx) in N. injection N as <-. reflexivity.
  Qed.

  Lemma trie_of : forall e d : dict E, dict_ok c e -> calc_token e = Ok d -> d_trie d = d_trie (calc_dist e).
  Proof. intros e d He H. destruct (calc_unfold He H) as (ts & _ & -> & _). reflexivity. Qed.
  Lemma calc_ok_dict : forall e d : dict E, dict_ok c e -> calc_token e = Ok d -> dict_ok c d.
  Proof. intros e d He H. destruct (calc_token_spec He) as (d' & H1 & H2 & _). rewrite H in H1. injection H1 as <-. apply H2. Qed.

  Lemma same_word : forall w v1 v2, t_get (d_trie d1) w = Some v1 -> t_get (d_trie d2) w = Some v2 ->
    exists t1 t2, nth_error (d_tokens d1) v1 = Some t1 /\ nth_error (d_tokens d2) v2 = Some t2 /\ t_text t1 = wsplit E c w /\ t_text t2 = wsplit E c w /\ t_freq t1 = t_freq t2 /\ T (t_pos t1) (t_pos t2) /\ t_dist t1 = t_dist t2.
  Proof.
    intros w v1 v2 G1 G2. pose proof (Hw w) as H. rewrite G1, G2 in H. destruct H as (t1 & t2 & N1 & N2 & F & P). exists t1, t2.
    destruct (ok_entry (calc_ok_dict He1 Hc1) G1) as (t1' & N1' & T1 & _). destruct (ok_entry (calc_ok_dict He2 Hc2) G2) as (t2' & N2' & T2 & _).
    assert (t1' = t1) by congruence. assert (t2' = t2) by congruence. subst. repeat split; auto.
    destruct (calc_get He1 Hc1 N1) as (_ & _ & _ & _ & _ & _ & _ & _ & _ & D1). destruct (calc_get He2 Hc2 N2) as (_ & _ & _ & _ & _ & _ & _ & _ & _ & D2).
    rewrite D1, D2, Htot, F. reflexivity.
  Qed.
  Lemma keys_final : forall w, match t_get (d_trie d1) w, t_get (d_trie d2) w with
    | Some v1, Some v2 => dist_of d1 (InDict v1) = dist_of d2 (InDict v2) | None, None => True | _, _ => False end.
  Proof.
    intros w. pose proof (Hw w) as H. destruct (t_get (d_trie d1) w) as [v1|] eqn:G1, (t_get (d_trie d2) w) as [v2|] eqn:G2; auto.
    destruct (same_word G1 G2) as (t1 & t2 & N1 & N2 & _ & _ & _ & _ & D). unfold dist_of, deref, get. rewrite N1, N2. exact D.
  Qed.
  Lemma dist_calc : forall (e d : dict E) v t, dict_ok c e -> calc_token e = Ok d -> nth_error (d_tokens d) v = Some t -> dist_of (calc_dist e) (InDict v) = dist_of d (InDict v).
  Proof.
    intros e d v t He H Hv. destruct (calc_get He H Hv) as (t0 & segs & N & _ & _ & _ & _ & _ & D & _). unfold dist_of, deref, get. rewrite Hv, N. auto.
  Qed.
  Lemma keys_mid : forall w, match t_get (d_trie (calc_dist e1)) w, t_get (d_trie (calc_dist e2)) w with
    | Some v1, Some v2 => dist_of (calc_dist e1) (InDict v1) = dist_of (calc_dist e2) (InDict v2) | None, None => True | _, _ => False end.
  Proof.
    intros w. rewrite <- (trie_of He1 Hc1), <- (trie_of He2 Hc2). pose proof (keys_final w) as H.
    destruct (t_get (d_trie d1) w) as [v1|] eqn:G1, (t_get (d_trie d2) w) as [v2|] eqn:G2; auto.
    destruct (same_word G1 G2) as (t1 & t2 & N1 & N2 & _). rewrite (dist_calc He1 Hc1 N1), (dist_calc He2 Hc2 N2). exact H.
  Qed.
  Lemma tokref_mid : forall r1 r2, tokref (calc_dist e1) (calc_dist e2) r1 r2 <-> tokref d1 d2 r1 r2.
  Proof. intros r1 r2. unfold tokref. rewrite (trie_of He1 Hc1), (trie_of He2 Hc2). reflexivity. Qed.

  Lemma keep_rel : forall (a1 a2 : dict E) s1 s2, dict_ok c a1 -> dict_ok c a2 -> Forall2 (segrel a1 a2) s1 s2 -> forall k1 k2, keep_subs a1 s1 = Ok k1 -> keep_subs a2 s2 = Ok k2 -> Forall2 (segrel a1 a2) k1 k2.
  Proof.
    intros a1 a2 s1 s2 A1 A2 H. induction H as [|x1 x2 s1 s2 Hx H IH]; intros k1 k2 K1 K2; cbn [keep_subs] in *; [injection K1 as <-; injection K2 as <-; constructor|].
    destruct (@tokref_text E c a1 a2 A1 A2 _ _ (proj2 (proj2 Hx))) as (t1 & t2 & D1 & D2 & Ht). rewrite D1 in K1. rewrite D2 in K2. cbn [bind] in *. rewrite <- Ht in K2.
    apply bind_Ok in K1 as (y1 & Q1 & K1). apply bind_Ok in K2 as (y2 & Q2 & K2). injection K1 as <-. injection K2 as <-. pose proof (IH _ _ Q1 Q2). destruct (keep_sub _ _); auto.
  Qed.

  Lemma tokref_full : forall r1 r2, tokref d1 d2 r1 r2 -> exists t1 t2, deref d1 r1 = Ok t1 /\ deref d2 r2 = Ok t2 /\ tokfull T d1 d2 t1 t2.
  Proof.
    intros r1 r2 [(w & v1 & v2 & G1 & G2 & -> & ->)|(w & -> & ->)].
    - destruct (same_word G1 G2) as (t1 & t2 & N1 & N2 & T1 & T2 & F & P & D). exists t1, t2. cbn [deref]. unfold get. rewrite N1, N2. split; [reflexivity|]. split; [reflexivity|].
      split; [congruence|]. split; [exact F|]. split; [exact P|]. split; [exact D|].
      destruct (calc_get He1 Hc1 N1) as (x1 & s1 & _ & W1 & K1 & _). destruct (calc_get He2 Hc2 N2) as (x2 & s2 & _ & W2 & K2 & _).
      destruct (calc_unfold He1 Hc1) as (_ & _ & _ & O1). destruct (calc_unfold He2 Hc2) as (_ & _ & _ & O2).
      destruct (@segment_words_rel E c (calc_dist e1) (calc_dist e2) O1 O2 (wsplit E c w) true) as (s1' & s2' & W1' & W2' & HF); [apply split_is_stable|apply split_nonempty|intros; apply keys_mid|].
      rewrite T1 in W1. rewrite T2 in W2. assert (s1' = s1) by congruence. assert (s2' = s2) by congruence. subst.
      eapply F2_imp; [|exact (keep_rel O1 O2 HF K1 K2)]. intros a b (A1 & A2 & A3). split; [exact A1|]. split; [exact A2|]. apply tokref_mid. exact A3.
    - exists (fallback_token E w), (fallback_token E w). split; [reflexivity|]. split; [reflexivity|]. split; [reflexivity|]. split; [reflexivity|]. split; [apply Trefl|]. split; [reflexivity|constructor].
  Qed.

  Lemma seg_rel : forall s m, exists segs1 segs2, internal_segment c (Some d1) s m = Ok segs1 /\ internal_segment c (Some d2) s m = Ok segs2 /\ Forall2 (segrel d1 d2) segs1 segs2.
  Proof.
    intros s m. rewrite !internal_segment_eq. apply (@segment_words_rel E c); [exact (calc_ok_dict He1 Hc1)|exact (calc_ok_dict He2 Hc2)|apply split_is_stable|apply split_nonempty|].
    intros; apply keys_final.
  Qed.

  Lemma walk_rel : forall A (f1 f2 : token E -> res (list A)), (forall t1 t2, tokfull T d1 d2 t1 t2 -> f1 t1 = f2 t2) -> forall l1 l2, Forall2 (segrel d1 d2) l1 l2 -> forall b out,
    walk_subs f1 d1 l1 b out = walk_subs f2 d2 l2 b out.
  Proof.
    intros A f1 f2 Hf l1 l2 H. induction H as [|x1 x2 l1 l2 Hx H IH]; intros b out; cbn [walk_subs]; [reflexivity|].
    destruct (tokref_full (proj2 (proj2 Hx))) as (t1 & t2 & -> & -> & Hfull). cbn [bind]. pose proof (Hf _ _ Hfull) as Hft. destruct Hfull as (Tx & _ & _ & _ & HS).
    rewrite Tx, (F2_len HS), Hft. destruct (if 1 <? length (t_segs t2) then Ok true else do w <- get (t_text t2) 0; Ok (is_jp E w)) as [x| |]; cbn [bind]; try reflexivity.
    destruct (if x then false else b); [apply IH|]. destruct (f2 t2); cbn [bind]; auto.
  Qed.
  Lemma tok_slice_rel : forall f t1 t2, tokfull T d1 d2 t1 t2 -> token_to_slice f d1 t1 = token_to_slice f d2 t2.
  Proof.
    induction f as [|f IH]; intros t1 t2 H; [reflexivity|]. cbn [token_to_slice]. pose proof H as (Tx & _ & _ & _ & HS). rewrite (walk_rel IH HS), Tx. reflexivity.
  Qed.
  Lemma loop_rel : forall A (f1 f2 : token E -> res (list A)), (forall t1 t2, tokfull T d1 d2 t1 t2 -> f1 t1 = f2 t2) -> forall l1 l2, Forall2 (segrel d1 d2) l1 l2 -> forall out,
    seg_loop f1 d1 l1 out = seg_loop f2 d2 l2 out.
  Proof.
    intros A f1 f2 Hf l1 l2 H. induction H as [|x1 x2 l1 l2 Hx H IH]; intros out; cbn [seg_loop]; [reflexivity|].
    destruct (tokref_full (proj2 (proj2 Hx))) as (t1 & t2 & -> & -> & Hfull). cbn [bind]. rewrite (Hf _ _ Hfull). destruct (f2 t2); cbn [bind]; auto.
  Qed.
  Lemma slice_rel : forall s m, seg_slice c (Some d1) s m = seg_slice c (Some d2) s m.
  Proof.
    intros s m. unfold seg_slice. destruct (seg_rel s m) as (s1 & s2 & -> & -> & HF). cbn [bind]. unfold to_slice. destruct m.
    - apply loop_rel; [intros; apply tok_slice_rel; assumption|exact HF].
    - apply loop_rel; [|exact HF]. intros t1 t2 (Tx & _). rewrite Tx. reflexivity.
  Qed.
  Hypothesis Teq : forall p q, T p q -> p = q.
  Lemma tok_pos_rel : forall f t1 t2, tokfull T d1 d2 t1 t2 -> token_to_pos f d1 t1 = token_to_pos f d2 t2.
  Proof.
    induction f as [|f IH]; intros t1 t2 H; [reflexivity|]. cbn [token_to_pos]. pose proof H as (Tx & _ & P & _ & HS). rewrite (walk_rel IH HS), Tx, (Teq P). reflexivity.
  Qed.
  Lemma pos_rel : forall s m, seg_pos c (Some d1) s m = seg_pos c (Some d2) s m.
  Proof.
    intros s m. unfold seg_pos. destruct (seg_rel s m) as (s1 & s2 & -> & -> & HF). cbn [bind]. unfold to_pos. destruct m.
    - apply loop_rel; [intros; apply tok_pos_rel; assumption|exact HF].
    - apply loop_rel; [|exact HF]. intros t1 t2 (Tx & _ & P & _). rewrite Tx, (Teq P). reflexivity.
  Qed.
  Lemma outs_of_pos : forall (d : dict E) s m segs, internal_segment c (Some d) s m = Ok segs ->
    seg_slice c (Some d) s m = rmap (map fst) (seg_pos c (Some d) s m) /\ seg_string c (Some d) s m = rmap (flat_map (@render)) (seg_pos c (Some d) s m).
  Proof. intros d s m segs H. unfold seg_slice, seg_string, seg_pos. rewrite H. cbn [bind]. split; [apply c09_slice|apply c09_string]. Qed.
  Lemma outs_rel : forall s m, seg_slice c (Some d1) s m = seg_slice c (Some d2) s m /\ seg_string c (Some d1) s m = seg_string c (Some d2) s m.
  Proof.
    intros s m. destruct (seg_rel s m) as (s1 & s2 & H1 & H2 & _). destruct (outs_of_pos H1) as [-> ->]. destruct (outs_of_pos H2) as [-> ->]. rewrite pos_rel. auto.
  Qed.
End Calc.
