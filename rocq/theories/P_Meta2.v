(** Prefixes of a text: Segment and Cut on the part of the text before a segment. *)
From Verif Require Import S_Split P_Utf8 P_Split S_Seg P_Dict P_Seg P_Seg2 P_Out M_Out P_Meta.
Set Implicit Arguments. Unset Strict Implicit.

Lemma concat_norm_length : forall E c gs, length (concat (map (fun g => concat (map (norm_unit E c) g)) gs)) = length (concat (map snd (concat gs))).
Proof.
  intros E c gs. induction gs as [|g gs IH]; [reflexivity|]. cbn [map concat]. rewrite map_app, concat_app, !app_length, IH. f_equal.
  clear. induction g as [|u us IH]; [reflexivity|]. cbn. rewrite !app_length, IH. f_equal.
  rewrite norm_unit_eq. destruct (alnum_unit E c u); [apply to_low_length|reflexivity].
Qed.

(** The words of the part of the input that holds the first words. *)
Lemma split_prefix : forall E c s ws1 ws2, wsplit E c s = ws1 ++ ws2 -> wsplit E c (firstn (length (concat ws1)) s) = ws1.
Proof.
  intros E c s ws1 ws2 H. destruct (split_is_split E c s) as (gs & a & Hg & Hc & Hw). rewrite H in Hw.
  symmetry in Hw. apply map_eq_app in Hw as (g1 & g2 & -> & Hw1 & Hw2).
  destruct g1 as [|g0 g1]; [cbn in Hw1; subst ws1; reflexivity|].
  pose proof (@groups_prefix E c (g0 :: g1) g2 a Hg ltac:(congruence)) as Hg1. rewrite concat_app in Hc. symmetry in Hc.
  destruct (@units_app _ _ _ Hc) as [Hu _].
  assert (Hp : firstn (length (concat ws1)) s = concat (map snd (concat (g0 :: g1)))).
  { rewrite <- Hw1, concat_norm_length. rewrite <- (units_concat s), Hc, map_app, concat_app, firstn_app, firstn_all, Nat.sub_diag. cbn [firstn]. rewrite app_nil_r. reflexivity. }
  rewrite Hp. eapply is_split_unique; [apply split_is_split|]. exists (g0 :: g1), a. split; [exact Hg1|]. split; [symmetry; exact Hu|symmetry; exact Hw1].
Qed.

Section Prefix.
  Variable E : env.
  Variable c : cfg.
  Variable d : dict E.
  Hypothesis Hr : reachable c d.

  Lemma internal_segment_eq : forall s m, internal_segment c (Some d) s m = segment_words (Some d) (wsplit E c s) m.
  Proof.
    intros s m. unfold internal_segment. rewrite split_words_eq. destruct s; [|reflexivity].
    rewrite split_nil. unfold segment_words. destruct m; reflexivity.
  Qed.
  Lemma covers_app : forall text a b segs1 segs2 , covers d text a b (segs1 ++ segs2) -> exists m, covers d text a m segs1 /\ covers d text m b segs2.
  Proof.
    intros text a b segs1. revert a. induction segs1 as [|s segs1 IH]; intros a segs2 H; cbn [app] in H; [exists a; split; [constructor|exact H]|].
    inversion H as [|from mid to s' rest t H1 H2 H3 H4 H5 H6]; subst. destruct (IH _ _ H6) as (m & K1 & K2). exists m. split; [econstructor; eauto|exact K2].
  Qed.
  Lemma covers_end : forall text text' a b b' segs, covers d text a b segs -> covers d text' a b' segs -> b = b'.
  Proof.
    intros text text' a b b' segs H. revert b'. induction H as [|from mid to s rest t H1 H2 H3 H4 H5 H6 IH]; intros b' H'; inversion H'; subst; auto.
  Qed.
  Lemma norm_split : forall s, wsplit E c (norm E c s) = wsplit E c s.
  Proof. intros s. rewrite <- split_concat. apply split_concat_split. Qed.

  Lemma segment_input_prefix : forall s a b m, internal_segment c (Some d) s false = Ok (a ++ b) -> covers d (norm E c s) 0 m a ->
    internal_segment c (Some d) (firstn m s) false = Ok a.
  Proof.
    intros s a b m H Hm. rewrite internal_segment_eq in *.
    destruct (@segment_prefix E c d (inv_ok (reachable_inv Hr)) (wsplit E c s) (a ++ b) a b) as (k & Hk & Hs & _); [apply split_is_stable|apply split_nonempty|exact H|reflexivity|].
    assert (Hp : wsplit E c (firstn (length (concat (firstn k (wsplit E c s)))) s) = firstn k (wsplit E c s)).
    { apply (@split_prefix E c s _ (skipn k (wsplit E c s))). rewrite firstn_skipn. reflexivity. }
    assert (Hm' : m = length (concat (firstn k (wsplit E c s)))).
    { destruct (c01 (firstn (length (concat (firstn k (wsplit E c s)))) s) false Hr) as (segs & S1 & [(F & _)|S2]); [discriminate|].
      rewrite internal_segment_eq, Hp in S1. rewrite Hs in S1. injection S1 as <-. rewrite (covers_end Hm S2). rewrite firstn_length. apply Nat.min_l.
      transitivity (length (concat (wsplit E c s))); [|rewrite split_concat, norm_length; lia].
      rewrite <- (firstn_skipn k (wsplit E c s)) at 2. rewrite concat_app, app_length. lia. }
    rewrite Hm', Hp. exact Hs.
  Qed.
  Lemma segment_norm : forall s m, internal_segment c (Some d) (norm E c s) m = internal_segment c (Some d) s m.
  Proof. intros s m. rewrite !internal_segment_eq, norm_split. reflexivity. Qed.

  Lemma norm_norm : forall s, norm E c (norm E c s) = norm E c s.
  Proof. intros s. rewrite <- !split_concat. rewrite split_concat_split. reflexivity. Qed.

  Lemma c75_segment : forall s a sg b, internal_segment c (Some d) s false = Ok (a ++ sg :: b) ->
    internal_segment c (Some d) (firstn (sg_start sg) s) false = Ok a /\
    internal_segment c (Some d) (firstn (sg_end sg) s) false = Ok (a ++ [sg]).
  Proof.
    intros s a sg b H. destruct (c01 s false Hr) as (segs & S1 & [(F & _)|S2]); [discriminate|]. rewrite H in S1. injection S1 as <-.
    destruct (covers_app S2) as (m & C1 & C2). inversion C2 as [|from mid to s' rest t H1 H2 H3 H4 H5 H6]; subst. split.
    - eapply segment_input_prefix; eassumption.
    - assert (S3 : covers d (norm E c s) 0 (length s) ((a ++ [sg]) ++ b)) by (rewrite <- app_assoc; exact S2). destruct (covers_app S3) as (m' & C3 & _).
      replace (sg_end sg) with m'; [eapply segment_input_prefix; [rewrite <- app_assoc; exact H|exact C3]|].
      destruct (covers_app C3) as (m'' & _ & C4). inversion C4 as [|from mid to s' rest t' G1 G2 G3 G4 G5 G6]; subst. inversion G6; subst. reflexivity.
  Qed.

  (** The words that Slice/Cut give for the segments. *)
  Lemma slice_texts : forall segs out l, seg_loop (fun t => Ok [join (t_text t)]) d segs out = Ok l ->
    exists l', l = out ++ l' /\ Forall2 (fun s w => exists t, deref d (sg_tok s) = Ok t /\ w = concat (t_text t)) segs l'.
  Proof.
    induction segs as [|s segs IH]; intros out l H; cbn [seg_loop] in H; [injection H as <-; exists []; rewrite app_nil_r; split; [reflexivity|constructor]|].
    apply bind_Ok in H as (t & H1 & H). cbn [bind] in H. destruct (IH _ _ H) as (l' & -> & HF). exists (join (t_text t) :: l').
    split; [rewrite <- app_assoc; reflexivity|]. constructor; [exists t; split; [exact H1|apply join_eq]|exact HF].
  Qed.
  Lemma covers_texts : forall text a b segs l, covers d text a b segs -> b <= length text -> Forall2 (fun s w => exists t, deref d (sg_tok s) = Ok t /\ w = concat (t_text t)) segs l ->
    concat l = slice text a b.
  Proof.
    intros text a b segs l H. revert l. induction H as [|from mid to s rest t H1 H2 H3 H4 H5 H6 IH]; intros l Hb HF; inversion HF as [|? w ? l' (t' & D & W) HF']; subst; [rewrite slice_nil; reflexivity|].
    cbn [concat]. rewrite (IH _ Hb HF'). assert (t' = t) by congruence. subst t'. rewrite H5. pose proof (covers_le H6). apply slice_app; lia.
  Qed.
  Lemma texts_slice : forall segs l, Forall2 (fun s w => exists t, deref d (sg_tok s) = Ok t /\ w = concat (t_text t)) segs l -> forall out,
    seg_loop (fun t => Ok [join (t_text t)]) d segs out = Ok (out ++ l).
  Proof.
    intros segs l H; induction H as [|s w segs l (t & D & ->) HF IH]; intros out; cbn [seg_loop]; [rewrite app_nil_r; reflexivity|].
    rewrite D. cbn [bind]. rewrite IH, join_eq, <- app_assoc. reflexivity.
  Qed.

  Lemma c75_cut : forall s a b, seg_slice c (Some d) s false = Ok (a ++ b) -> seg_slice c (Some d) (concat a) false = Ok a.
  Proof.
    intros s a b H. destruct (c01 s false Hr) as (segs & S1 & [(F & _)|S2]); [discriminate|]. unfold seg_slice in H. rewrite S1 in H. cbn [bind to_slice] in H.
    destruct (slice_texts H) as (l & L1 & L2). cbn in L1. subst l. apply Forall2_app_inv_r in L2 as (sa & sb & A1 & A2 & ->).
    destruct (covers_app S2) as (m & C1 & C2). assert (Hm : m <= length (norm E c s)) by (rewrite norm_length; exact (covers_le C2)).
    rewrite (covers_texts C1 Hm A1). unfold seg_slice.
    assert (Hs : internal_segment c (Some d) (slice (norm E c s) 0 m) false = Ok sa).
    { unfold slice. rewrite Nat.sub_0_r. cbn [skipn]. apply (@segment_input_prefix (norm E c s) sa sb); [rewrite segment_norm; exact S1|rewrite norm_norm; exact C1]. }
    rewrite Hs. cbn [bind to_slice]. apply (texts_slice A1).
  Qed.
End Prefix.
