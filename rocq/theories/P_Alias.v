(** Words that share memory with the argument (C89). *)
From Verif Require Import S_Alias P_Utf8 P_Split P_Dict P_Seg P_Seg2 P_Out.
Set Implicit Arguments. Unset Strict Implicit.

Section Alias.
  Variable E : env.
  Variable c : cfg.
  Variable text : bytes.

  (** References and words from byte [p] to byte [q]. *)
  Inductive span : nat -> list wref -> list bytes -> nat -> Prop :=
  | sp_nil : forall p, span p [] [] p
  | sp_part : forall p m rs ws q, p < m -> m <= length text -> c_lower c && alnum_at E c text p = false -> span m rs ws q -> span p (Part p m :: rs) (slice text p m :: ws) q
  | sp_copy : forall p m rs ws q, p < m -> m <= length text -> c_lower c && alnum_at E c text p = true -> span m rs ws q ->
      span p (Copy (to_lower (slice text p m)) :: rs) (to_lower (slice text p m) :: ws) q.

  Lemma span_app : forall p rs ws m rs' ws' q, span p rs ws m -> span m rs' ws' q -> span p (rs ++ rs') (ws ++ ws') q.
  Proof. intros p rs ws m rs' ws' q H. induction H; intro H'; cbn [app]; [exact H'| |]; constructor; auto. Qed.
  Lemma span_low : forall p m, p < m -> m <= length text -> alnum_at E c text p = true ->
    exists r, low_ref c text p m = Ok r /\ span p [r] [to_low c (slice text p m)] m.
  Proof.
    intros p m H1 H2 H3. unfold low_ref, to_low. rewrite gslice_ok by lia. cbn [bind]. eexists. split; [reflexivity|].
    destruct (c_lower c) eqn:Hc; constructor; auto; try apply sp_nil; rewrite Hc, H3; reflexivity.
  Qed.
  Lemma span_part : forall p m, p < m -> m <= length text -> alnum_at E c text p = false -> part_ref text p m = Ok (Part p m) /\ span p [Part p m] [slice text p m] m.
  Proof. intros p m H1 H2 H3. unfold part_ref. rewrite gslice_ok by lia. split; [reflexivity|]. constructor; auto; [rewrite H3; apply andb_false_r|apply sp_nil]. Qed.
  Lemma alnum_at_decode : forall p, p < length text -> alnum_at E c text p =
    (snd (decode_rune (skipn p text)) <=? 2) && (is_letter E (fst (decode_rune (skipn p text))) && negb (c_alpha c) || is_number E (fst (decode_rune (skipn p text))) && negb (c_num c)).
  Proof.
    intros p H. assert (Hs : skipn p text <> []) by (intro K; apply (f_equal (@length _)) in K; rewrite skipn_length in K; cbn in K; lia).
    unfold alnum_at. rewrite (units_cons Hs), alnum_decode by exact Hs. reflexivity.
  Qed.

  Lemma loop_span : forall fuel cur st inA out outw ws, st <= cur -> cur <= length text ->
    (inA = true -> c_alphanum c = false -> cur = 0 \/ (st < cur /\ alnum_at E c text st = true)) ->
    span 0 out outw (if inA && negb (c_alphanum c) then st else cur) -> split_loop E c fuel text cur st inA outw = Ok ws ->
    exists rs, ref_loop E c fuel text cur st inA out = Ok rs /\ span 0 rs ws (length text).
  Proof.
    assert (HF : forall cur st inA out outw ws, st <= cur -> cur = length text -> (inA = true -> c_alphanum c = false -> cur = 0 \/ (st < cur /\ alnum_at E c text st = true)) ->
      span 0 out outw (if inA && negb (c_alphanum c) then st else cur) ->
      (if inA && negb (c_alphanum c) then if negb (cur =? 0) then do w <- gslice text st cur ; Ok (outw ++ [to_low c w]) else Ok outw else Ok outw) = Ok ws ->
      exists rs, (if inA && negb (c_alphanum c) then if negb (cur =? 0) then do w <- low_ref c text st cur ; Ok (out ++ [w]) else Ok out else Ok out) = Ok rs /\ span 0 rs ws (length text)).
    { intros cur st inA out outw ws Hst Hc Hin Hsp H. destruct inA; cbn [andb] in *; [|injection H as <-; exists out; rewrite <- Hc; auto].
      destruct (c_alphanum c); cbn [negb] in *; [injection H as <-; exists out; rewrite <- Hc; auto|].
      destruct (Hin eq_refl eq_refl) as [Hz|[H1 H2]].
      - rewrite Hz in *. cbn [Nat.eqb negb] in *. injection H as <-. exists out. split; [reflexivity|]. replace (length text) with st by lia. exact Hsp.
      - destruct (Nat.eqb_spec cur 0) as [Hz|Hz]; [lia|]. cbn [negb] in *. destruct (@span_low st cur H1 ltac:(lia) H2) as (r & R1 & R2). rewrite gslice_ok in H by lia. cbn [bind] in H. injection H as <-.
        rewrite R1. cbn [bind]. exists (out ++ [r]). split; [reflexivity|]. rewrite <- Hc. exact (span_app Hsp R2). }
    induction fuel as [|f IH]; intros cur st inA out outw ws Hst Hc Hin Hsp H; cbn [split_loop ref_loop] in *.
    - destruct (Nat.ltb_spec cur (length text)) as [Hlt|Hge]; [discriminate|]. apply (HF cur st inA out outw ws); auto. lia.
    - destruct (Nat.ltb_spec cur (length text)) as [Hlt|Hge]; [|apply (HF cur st inA out outw ws); auto; lia].
      pose proof (alnum_at_decode Hlt) as Hal. cbv zeta in *. set (r := fst (decode_rune (skipn cur text))) in *. set (n := snd (decode_rune (skipn cur text))) in *.
      assert (Hn : 1 <= n /\ cur + n <= length text).
      { assert (Hs : skipn cur text <> []) by (intro K; apply (f_equal (@length _)) in K; rewrite skipn_length in K; cbn in K; lia).
        pose proof (decode_size Hs) as [[Hp _] Hl]. rewrite skipn_length in Hl. fold n in Hp, Hl. lia. }
      destruct ((n <=? 2) && (is_letter E r && negb (c_alpha c) || is_number E r && negb (c_num c))) eqn:Ecls.
      + destruct (c_alphanum c) eqn:Ean.
        * rewrite gslice_ok in H by lia. cbn [bind] in H. destruct (@span_low cur (cur + n) ltac:(lia) ltac:(lia) Hal) as (x & X1 & X2). rewrite X1. cbn [bind].
          refine (IH _ _ _ _ _ _ _ _ _ _ H); [destruct inA; lia|lia|intros _ K; congruence|]. rewrite ?Ean. cbn [negb]. rewrite andb_false_r in *. exact (span_app Hsp X2).
        * cbn [bind] in *. refine (IH _ _ _ _ _ _ _ _ _ _ H).
          -- destruct inA; lia.
          -- lia.
          -- intros _ _. right. destruct inA; [|split; [lia|exact Hal]]. destruct (Hin eq_refl eq_refl) as [Hz|[H1 H2]]; [|split; [lia|exact H2]]. replace st with cur by lia. split; [lia|exact Hal].
          -- rewrite ?Ean in *. cbn [negb andb] in *. destruct inA; exact Hsp.
      + assert (HX : exists out' outw', (if inA then if negb (cur =? 0) && negb (c_alphanum c) then do w <- gslice text st cur ; Ok (outw ++ [to_low c w]) else Ok outw else Ok outw) = Ok outw' /\
          (if inA then if negb (cur =? 0) && negb (c_alphanum c) then do w <- low_ref c text st cur ; Ok (out ++ [w]) else Ok out else Ok out) = Ok out' /\ span 0 out' outw' cur).
        { destruct inA; cbn [andb] in *; [|eauto]. destruct (c_alphanum c) eqn:Ean; cbn [negb] in *; [rewrite andb_false_r; eauto|]. rewrite andb_true_r.
          destruct (Hin eq_refl eq_refl) as [Hz|[H1 H2]].
          - rewrite Hz in *. cbn [Nat.eqb negb]. exists out, outw. replace st with 0 in Hsp by lia. auto.
          - destruct (Nat.eqb_spec cur 0) as [Hz|Hz]; [lia|]. cbn [negb]. destruct (@span_low st cur H1 ltac:(lia) H2) as (x & X1 & X2). rewrite gslice_ok by lia. rewrite X1. cbn [bind].
            do 2 eexists. split; [reflexivity|]. split; [reflexivity|]. exact (span_app Hsp X2). }
        destruct HX as (out' & outw' & X1 & X2 & X3). rewrite X1 in H. rewrite X2. cbn [bind] in *. rewrite gslice_ok in H by lia. cbn [bind] in H.
        destruct (@span_part cur (cur + n) ltac:(lia) ltac:(lia) Hal) as (P1 & P2). rewrite P1. cbn [bind]. refine (IH _ _ _ _ _ _ _ _ _ _ H); [lia|lia|discriminate|]. cbn [andb]. exact (span_app X3 P2).
  Qed.
  Lemma refs_span : forall ws, split_words E c text = Ok ws -> exists rs, split_refs E c text = Ok rs /\ span 0 rs ws (length text).
  Proof.
    intros ws H. apply (@loop_span (length text) 0 0 true [] []); auto; try lia. destruct (true && negb (c_alphanum c)); constructor.
  Qed.
End Alias.

Section Kept.
  Variable E : env.
  Variable c : cfg.
  Variable text : bytes.

  Lemma span_words : forall buf p rs ws q, span E c text p rs ws q -> map (wread buf) rs = shown_words E c text buf p ws.
  Proof.
    intros buf p rs ws q H. induction H as [|p m rs ws q H1 H2 H3 H IH|p m rs ws q H1 H2 H3 H IH]; [reflexivity| |]; cbn [map shown_words wread]; rewrite H3; [|rewrite to_lower_length];
      rewrite slice_length by lia; replace (p + (m - p)) with m by lia; rewrite IH; reflexivity.
  Qed.
  Lemma span_self : forall p rs ws q, span E c text p rs ws q -> map (wread text) rs = ws.
  Proof. intros p rs ws q H. induction H as [|p m rs ws q H1 H2 H3 H IH|p m rs ws q H1 H2 H3 H IH]; [reflexivity| |]; cbn [map wread]; rewrite IH; reflexivity. Qed.
  Lemma span_skip : forall u p rs ws q, span E c text p rs (u ++ ws) q -> span E c text (p + length (concat u)) (skipn (length u) rs) ws q.
  Proof.
    induction u as [|w u IH]; intros p rs ws q H; cbn [app length concat] in *; [rewrite Nat.add_0_r; exact H|].
    rewrite app_length. inversion H as [|p' m rs' ws' q' H1 H2 H3 H4 E1 E2 E3|p' m rs' ws' q' H1 H2 H3 H4 E1 E2 E3]; subst; cbn [skipn]; apply IH in H4; [|rewrite to_lower_length];
      rewrite slice_length by lia; replace (p + (m - p + length (concat u))) with (m + length (concat u)) by lia; exact H4.
  Qed.

  Variable d : dict E.
  Lemma attach_spec : forall nt segs ps p q q' rs, length nt = length text -> covers d nt p q segs -> q <= length nt -> Forall2 (piece d) ps (map sg_tok segs) ->
    Forall2 (fun p r => exists t, deref d r = Ok t /\ t_text t = p) ps (map sg_tok segs) -> span E c text p rs (concat ps) q' ->
    (exists l, attach d rs segs = Ok l /\ map fst l = segs /\ forall buf, texts_now d buf l = Ok (map (shown c d text buf) segs)) /\
    map (shown c d text text) segs = map (fun sg => slice nt (sg_start sg) (sg_end sg)) segs.
  Proof.
    intros nt segs. induction segs as [|s segs IH]; intros ps p q q' rs Hn Hc Hq Hp Ht Hs; cbn [map] in *.
    - split; [exists []; repeat split|reflexivity].
    - inversion Hp as [|p0 r0 ps0 rs0 Hp0 Hp1]; subst. inversion Ht as [|p1 r1 ps1 rs1 Ht0 Ht1]; subst. destruct Ht0 as (t & D & T).
      pose proof (covers_bound Hc Hq) as HB. inversion HB as [|s1 l1 HB0 HB1]; subst. destruct HB0 as (t' & D' & B1 & B2 & B3 & B4). rewrite D in D'. injection D' as <-.
      inversion Hc as [|a mid b s0 rest0 t0 C1 C2 C3 C4 C5 C6]; subst. cbn [concat] in Hs. pose proof (span_skip Hs) as Hk. rewrite B4 in Hk. replace (sg_start s + (sg_end s - sg_start s)) with (sg_end s) in Hk by lia.
      destruct (IH ps0 _ _ _ _ Hn C6 Hq Hp1 Ht1 Hk) as ((l & L1 & L2 & L3) & L4). rewrite L4. cbn [attach]. rewrite D. cbn [bind].
      rewrite D in C4. injection C4 as <-.
      destruct (sg_tok s) as [v|w] eqn:Es.
      + split; [|rewrite <- C5; unfold shown; rewrite Es; cbn [deref] in D; apply get_Ok in D; rewrite D; reflexivity]. cbn [bind]. rewrite L1. cbn [bind]. eexists. split; [reflexivity|]. split; [cbn [map fst]; congruence|]. intro buf. cbn [texts_now]. rewrite Es, D. cbn [bind]. rewrite L3. cbn [bind].
        unfold shown at 2. rewrite Es. cbn [deref] in D. apply get_Ok in D. rewrite D. reflexivity.
      + cbn [deref] in D. injection D as D. assert (Hw : t_text t = [w]) by (subst t; reflexivity). rewrite Hw in *. cbn [app length concat] in *. rewrite app_nil_r in B4.
        assert (HR : exists r, get rs 0 = Ok r /\ (forall buf, wread buf r = shown c d text buf s) /\ wread text r = w).
        { inversion Hs as [|p' m rs' ws' q'' H1 H2 H3 H4 E1 E2 E3|p' m rs' ws' q'' H1 H2 H3 H4 E1 E2 E3]; subst; (eexists; split; [reflexivity|]; split; [|reflexivity]); intro buf; unfold shown; rewrite Es, H3; cbn [wread].
          - rewrite slice_length in B4 by lia. f_equal. lia.
          - reflexivity. }
        destruct HR as (r & R1 & R2 & R3). split; [|rewrite <- R2, R3, <- C5, app_nil_r; reflexivity]. rewrite R1. cbn [bind]. rewrite L1. cbn [bind]. eexists. split; [reflexivity|]. split; [cbn [map fst]; congruence|]. intro buf. cbn [texts_now bind]. rewrite L3. cbn [bind]. rewrite R2. reflexivity.
  Qed.

  Lemma kept_segments : forall m segs, reachable c d -> internal_segment c (Some d) text m = Ok segs ->
    (exists l, segment_refs c d text m = Ok l /\ map fst l = segs /\ forall buf, texts_now d buf l = Ok (map (shown c d text buf) segs)) /\
    map (shown c d text text) segs = map (fun sg => slice (norm E c text) (sg_start sg) (sg_end sg)) segs.
  Proof.
    intros m segs Hr H. apply reachable_inv in Hr. unfold segment_refs. rewrite H. cbn [bind].
    destruct (@refs_span E c text (wsplit E c text) (split_words_eq _ _ _)) as (rs & R1 & R2). rewrite R1. cbn [bind].
    destruct (Bool.bool_dec m true) as [Hm|Hm]; [destruct (Nat.eq_dec (length (wsplit E c text)) 1) as [H1|H1]|].
    - subst m. rewrite (search_one d H1) in H. injection H as <-. split; [exists []; repeat split|reflexivity].
    - destruct (@segment_inv E c d text m Hr (fun _ => H1)) as (segs' & A & B & _ & _ & js & ps & _ & C). rewrite A in H. injection H as <-.
      destruct (@chain_pieces E c d m (wsplit E c text) (inv_ok Hr) (@split_is_stable E c text) (fun _ => H1) js _ _ _ C ltac:(lia)) as (P1 & P2 & P3 & _). rewrite firstn_all in P1. rewrite <- P1 in R2.
      apply (attach_spec (norm_length E c text) B ltac:(rewrite norm_length; lia) P2 P3 R2).
    - assert (Hm' : m = true -> length (wsplit E c text) <> 1) by (intro; contradiction).
      destruct (@segment_inv E c d text m Hr Hm') as (segs' & A & B & _ & _ & js & ps & _ & C). rewrite A in H. injection H as <-.
      destruct (@chain_pieces E c d m (wsplit E c text) (inv_ok Hr) (@split_is_stable E c text) Hm' js _ _ _ C ltac:(lia)) as (P1 & P2 & P3 & _). rewrite firstn_all in P1. rewrite <- P1 in R2.
      apply (attach_spec (norm_length E c text) B ltac:(rewrite norm_length; lia) P2 P3 R2).
  Qed.
End Kept.

Lemma words_refs : forall E c s ws, split_words E c s = Ok ws -> exists rs, split_refs E c s = Ok rs /\ map (wread s) rs = ws /\ forall buf, map (wread buf) rs = shown_words E c s buf 0 ws.
Proof. intros E c s ws H. destruct (refs_span H) as (rs & R1 & R2). exists rs. split; [exact R1|]. split; [exact (span_self R2)|]. intro buf. exact (span_words buf R2). Qed.
