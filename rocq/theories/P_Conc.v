(** Proofs about goroutines that share a dictionary. *)
From Verif Require Import S_Conc S_Split P_Utf8 P_Split P_Dict P_Seg P_Seg2 P_Hist P_Heap.
Set Implicit Arguments. Unset Strict Implicit.

Section Conc.
  Variable E : env.
  (** Running alone. *)
  Fixpoint ev (A : Type) (d : dict E) (p : prog E A) : dict E * res A :=
    match p with
    | Ret a => (d, Ok a)
    | Crash => (d, Panic)
    | Stuck => (d, Hang)
    | Read f => ev d (f d)
    | Write f p => ev (f d) p
    end.
  Fixpoint ro (A : Type) (p : prog E A) : Prop :=
    match p with Write _ _ => False | Read f => forall d, ro (f d) | _ => True end.
  Lemma ro_bnd : forall A B (p : prog E A) (k : A -> prog E B), ro p -> (forall a, ro (k a)) -> ro (bnd p k).
  Proof. intros A B p k. induction p as [a| | |f IH|f p IH]; cbn; intros Hp Hk; auto. Qed.
  Lemma ro_local : forall A (r : res A), ro (local E r).
  Proof. intros A [a| |]; exact I. Qed.
  Lemma ro_read : forall A (f : dict E -> res A), ro (read f).
  Proof. intros A f d. apply ro_local. Qed.
  Lemma ev_ro : forall A (p : prog E A) d, ro p -> fst (ev d p) = d.
  Proof. intros A p. induction p as [a| | |f IH|f p IH]; cbn; intros d H; auto; contradiction. Qed.
  Definition rv (A : Type) (d : dict E) (p : prog E A) : res A := snd (ev d p).
  Lemma rv_bnd : forall A B (p : prog E A) (k : A -> prog E B) d, ro p -> rv d (bnd p k) = (do a <- rv d p ; rv d (k a)).
  Proof. intros A B p k. unfold rv. induction p as [a| | |f IH|f p IH]; cbn; intros d H; auto. contradiction. Qed.
  Lemma rv_local : forall A (r : res A) d, rv d (local E r) = r.
  Proof. intros A [a| |] d; reflexivity. Qed.
  Lemma rv_read : forall A (f : dict E -> res A) d, rv d (read f) = f d.
  Proof. intros A f d. unfold rv. cbn. apply rv_local. Qed.
  Lemma bind_ext : forall A B (r : res A) (f g : A -> res B), (forall a, f a = g a) -> bind r f = bind r g.
  Proof. intros A B [a| |] f g H; cbn; auto. Qed.

  Lemma ro_lookup : forall cap ws id acc, ro (lookup_p E cap ws id acc).
  Proof.
    intros cap. induction ws as [|w ws IH]; intros id acc; [exact I|]. cbn. intro d. destruct (t_jump _ _ _) as [id'|]; [|exact I].
    cbn. intro d1. destruct (t_value _ _) as [v|]; [|apply IH]. cbn. intro d2. destruct (_ && _); [apply IH|exact I].
  Qed.
  Lemma rv_lookup : forall d cap ws id acc, rv d (lookup_p E cap ws id acc) = lookup d cap ws id acc.
  Proof.
    intros d cap. induction ws as [|w ws IH]; intros id acc; [reflexivity|]. unfold rv. cbn. destruct (t_jump _ _ _) as [id'|]; [|reflexivity].
    cbn. destruct (t_value _ _) as [v|]; [|apply IH]. cbn. destruct (_ && _); [apply IH|reflexivity].
  Qed.
  Lemma ro_update : forall search n cur b found js, ro (update_all_p (E := E) search n cur b found js).
  Proof.
    intros search n cur b. induction found as [|v vs IH]; intros js; [exact I|]. cbn [update_all_p]. apply ro_bnd; [apply ro_read|].
    intro t. destruct (cur + length (t_text t)) as [|l]; [exact I|]. destruct (_ || _); [|apply IH]. apply ro_bnd; [apply ro_local|]. intro j. apply IH.
  Qed.
  Lemma rv_update : forall d search n cur b found js, rv d (update_all_p search n cur b found js) = update_all d search n cur b found js.
  Proof.
    intros d search n cur b. induction found as [|v vs IH]; intros js; [reflexivity|]. cbn [update_all_p update_all].
    rewrite rv_bnd by apply ro_read. rewrite rv_read. apply bind_ext. intro t. destruct (cur + length (t_text t)) as [|l]; [reflexivity|].
    destruct (_ || _); [|apply IH]. rewrite rv_bnd by apply ro_local. rewrite rv_local. apply bind_ext. intro j. apply IH.
  Qed.
  Lemma ro_step : forall cap search text cur js, ro (seg_step_p (E := E) cap search text cur js).
  Proof.
    intros. unfold seg_step_p. apply ro_bnd; [apply ro_local|]. intro b. apply ro_bnd; [apply ro_read|]. intro tx. apply ro_bnd; [apply ro_lookup|].
    intro found. apply ro_bnd; [apply ro_update|]. intro js'. apply ro_bnd; [destruct found; [exact I|apply ro_read]|].
    intros [|]; [|exact I]. apply ro_bnd; [apply ro_local|]. intro w. apply ro_bnd; [apply ro_local|]. intro j. exact I.
  Qed.
  Lemma rv_step : forall d search text cur js, rv d (seg_step_p (d_max d) search text cur js) = seg_step d search text cur js.
  Proof.
    intros. unfold seg_step_p, seg_step. rewrite rv_bnd by apply ro_local. rewrite rv_local. apply bind_ext. intro b.
    rewrite rv_bnd by apply ro_read. rewrite rv_read. apply bind_ext. intro tx. rewrite rv_bnd by apply ro_lookup. rewrite rv_lookup. unfold lookup_tokens. apply bind_ext. intro found.
    rewrite rv_bnd by apply ro_update. rewrite rv_update. apply bind_ext. intro js'.
    rewrite rv_bnd by (destruct found; [exact I|apply ro_read]).
    replace (rv d match found with [] => Ret true | v :: _ => read (fun d0 => do t <- get (d_tokens d0) v ; Ok (1 <? length (t_text t))) end)
      with (match found with [] => Ok true | v :: _ => do t <- get (d_tokens d) v ; Ok (1 <? length (t_text t)) end)
      by (destruct found; [reflexivity|symmetry; apply rv_read]).
    apply bind_ext. intros [|]; [|reflexivity]. rewrite rv_bnd by apply ro_local. rewrite rv_local. apply bind_ext. intro w.
    rewrite rv_bnd by apply ro_local. rewrite rv_local. reflexivity.
  Qed.
  Lemma ro_forward : forall cap search text k cur js, ro (seg_forward_p (E := E) cap search text k cur js).
  Proof. intros cap search text. induction k as [|k IH]; intros cur js; [exact I|]. cbn [seg_forward_p]. apply ro_bnd; [apply ro_step|]. intro js'. apply IH. Qed.
  Lemma rv_forward : forall d search text k cur js, rv d (seg_forward_p (d_max d) search text k cur js) = seg_forward d search text k cur js.
  Proof.
    intros d search text. induction k as [|k IH]; intros cur js; [reflexivity|]. cbn [seg_forward_p seg_forward]. rewrite rv_bnd by apply ro_step.
    rewrite rv_step. apply bind_ext. intro js'. apply IH.
  Qed.
  Lemma ro_back : forall js fuel i acc, ro (seg_back_p (E := E) fuel js i acc).
  Proof.
    intros js. induction fuel as [|f IH]; intros [|i] acc; try exact I. cbn [seg_back_p]. apply ro_bnd; [apply ro_local|].
    intros [x [r|]]; [|exact I]. cbn [snd]. apply ro_bnd; [apply ro_read|]. intro t. apply IH.
  Qed.
  Lemma rv_back : forall d js fuel i acc, rv d (seg_back_p fuel js i acc) = seg_back d fuel js i acc.
  Proof.
    intros d js. induction fuel as [|f IH]; intros [|i] acc; try reflexivity. cbn [seg_back_p seg_back]. rewrite rv_bnd by apply ro_local.
    rewrite rv_local. apply bind_ext. intros [x [r|]]; [|reflexivity]. cbn [snd]. rewrite rv_bnd by apply ro_read. rewrite rv_read. apply bind_ext. intro t. apply IH.
  Qed.
  Lemma ro_positions : forall rs p, ro (positions_p E p rs).
  Proof. induction rs as [|r rs IH]; intro p; [exact I|]. cbn [positions_p]. apply ro_bnd; [apply ro_read|]. intro t. apply ro_bnd; [apply IH|]. intro; exact I. Qed.
  Lemma rv_positions : forall d rs p, rv d (positions_p E p rs) = positions d p rs.
  Proof.
    intros d. induction rs as [|r rs IH]; intro p; [reflexivity|]. cbn [positions_p positions]. rewrite rv_bnd by apply ro_read. rewrite rv_read.
    apply bind_ext. intro t. cbv zeta. rewrite rv_bnd by apply ro_positions. rewrite IH. reflexivity.
  Qed.
  Lemma ro_segment_words : forall text search, ro (segment_words_p E text search).
  Proof.
    intros. unfold segment_words_p. destruct (_ && _); [exact I|]. apply ro_bnd; [apply ro_read|]. intro cap. apply ro_bnd; [apply ro_forward|].
    intro js. apply ro_bnd; [apply ro_back|]. intro rs. apply ro_positions.
  Qed.
  Lemma rv_segment_words : forall d text search, rv d (segment_words_p E text search) = segment_words (Some d) text search.
  Proof.
    intros. unfold segment_words_p, segment_words. destruct (_ && _); [reflexivity|]. rewrite rv_bnd by apply ro_read. rewrite rv_read. cbn [bind].
    rewrite rv_bnd by apply ro_forward. rewrite rv_forward. apply bind_ext. intro js. rewrite rv_bnd by apply ro_back. rewrite rv_back.
    apply bind_ext. intro rs. apply rv_positions.
  Qed.
  Lemma ro_segment : forall c s m, ro (segment_p E c s m).
  Proof. intros c [|b s] m; [exact I|]. unfold segment_p. apply ro_bnd; [apply ro_local|]. intro. apply ro_segment_words. Qed.
  Lemma rv_segment : forall d c s m, rv d (segment_p E c s m) = internal_segment c (Some d) s m.
  Proof.
    intros d c [|b s] m; [reflexivity|]. unfold segment_p, internal_segment. rewrite rv_bnd by apply ro_local. rewrite rv_local. apply bind_ext.
    intro. apply rv_segment_words.
  Qed.
  Lemma ro_find : forall w, ro (find_p E w).
  Proof.
    intros w d. destruct (t_jump _ _ _) as [id|]; [|exact I]. intro d1. destruct (t_value _ _) as [v|]; [apply ro_read|]. destruct id; exact I.
  Qed.
  Lemma rv_find : forall d w, rv d (find_p E w) = dict_find d w.
  Proof.
    intros d w. unfold rv, find_p, dict_find. cbn [ev]. destruct (t_jump _ _ _) as [id|]; [|reflexivity]. cbn [ev]. destruct (t_value _ _) as [v|]; [apply rv_read|].
    destruct id; reflexivity.
  Qed.
  Lemma ro_call : forall c k, reads_only k -> ro (call_p c k).
  Proof. intros c [s m|w|t f p|t|] H; try contradiction; apply ro_bnd; intros; try exact I; [apply ro_segment|apply ro_find]. Qed.
  Lemma rv_call : forall c d k, reads_only k -> alone c d k = (do a <- rv d (call_p c k) ; Ok (d, a)).
  Proof.
    intros c d [s m|w|t f p|t|] H; try contradiction; cbn [alone call_p].
    - rewrite rv_bnd by apply ro_segment. rewrite rv_segment. destruct (internal_segment _ _ _ _); reflexivity.
    - rewrite rv_bnd by apply ro_find. rewrite rv_find. destruct (dict_find _ _); reflexivity.
  Qed.
  Lemma ev_bnd : forall A B (p : prog E A) (k : A -> prog E B) d, ev d (bnd p k) =
    match ev d p with (d', Ok a) => ev d' (k a) | (d', Panic) => (d', Panic) | (d', Hang) => (d', Hang) end.
  Proof. intros A B p k. induction p as [a| | |f IH|f p IH]; cbn; intros d; auto. Qed.
  Lemma ev_add : forall t d, ev d (add_token_p t) = (add_token d t, Ok tt).
  Proof.
    intros t d. unfold add_token_p, add_token. cbn [ev]. destruct (t_get _ _); [reflexivity|]. cbn [ev d_tokens d_max d_total d_trie].
    destruct (_ <? _); reflexivity.
  Qed.
  Lemma ev_remove : forall ws d, ev d (remove_token_p E ws) = match remove_token d ws with Some d' => (d', Ok false) | None => (d, Ok true) end.
  Proof. intros ws d. unfold remove_token_p, remove_token. cbn [ev]. destruct (t_delete _ _ _) eqn:Et; [|reflexivity]. cbn [ev]. rewrite Et. reflexivity. Qed.
  Lemma ev_rd : forall A (f : dict E -> res A) d a, f d = Ok a -> ev d (read f) = (d, Ok a).
  Proof. intros A f d a H. cbn [read ev]. rewrite H. reflexivity. Qed.
  Lemma upd_mid : forall A (l : list A) x l' y, upd (l ++ x :: l') (length l) y = l ++ y :: l'.
  Proof. intros A l. induction l as [|a l IH]; intros x l' y; [reflexivity|]. cbn. f_equal. apply IH. Qed.
  Lemma nth_mid : forall A (l : list A) x l', nth_error (l ++ x :: l') (length l) = Some x.
  Proof. intros A l. induction l as [|a l IH]; intros x l'; [reflexivity|]. apply IH. Qed.
  Lemma set_set : forall (d : dict E) l l', set_tokens (set_tokens d l) l' = set_tokens d l'.
  Proof. reflexivity. Qed.
  Lemma ev_dist : forall lt d l done, ev (set_tokens d (done ++ l)) (calc_dist_p lt (seq (length done) (length l))) =
    (set_tokens d (done ++ map (fun t => set_dist t (sub32 E lt (to32 E (m_log2 E (t_freq t))))) l), Ok tt).
  Proof.
    intros lt d l. induction l as [|t l IH]; intro done; [reflexivity|]. cbn [length seq calc_dist_p map]. rewrite ev_bnd.
    rewrite (@ev_rd _ _ _ (t_freq t)) by (cbn [d_tokens set_tokens]; unfold get; rewrite nth_mid; reflexivity). cbn [ev d_tokens set_tokens]. rewrite nth_mid, upd_mid, set_set.
    specialize (IH (done ++ [set_dist t (sub32 E lt (to32 E (m_log2 E (t_freq t))))])). rewrite <- !app_assoc in IH. cbn [app] in IH. rewrite app_length in IH. cbn [length] in IH.
    rewrite Nat.add_1_r in IH. exact IH.
  Qed.
  Lemma ev_keep : forall segs d, ev d (keep_subs_p E segs) = (d, keep_subs d segs).
  Proof.
    induction segs as [|s segs IH]; intro d; [reflexivity|]. cbn [keep_subs_p keep_subs]. rewrite ev_bnd. cbn [read ev]. destruct (deref d (sg_tok s)) as [t| |]; cbn [local ev bind]; try reflexivity.
    rewrite ev_bnd, IH. destruct (keep_subs d segs); reflexivity.
  Qed.
  Lemma keep_sim : forall d1 d2 : dict E, map (@td E) (d_tokens d1) = map (@td E) (d_tokens d2) -> forall segs, keep_subs d1 segs = keep_subs d2 segs.
  Proof.
    intros d1 d2 H. induction segs as [|s segs IH]; [reflexivity|]. cbn [keep_subs]. pose proof (deref_text H (sg_tok s)) as K.
    destruct (deref d1 (sg_tok s)), (deref d2 (sg_tok s)); try contradiction; cbn [bind]; try reflexivity. rewrite IH, K. reflexivity.
  Qed.
  Lemma ev_segs : forall d l done ts, calc_segs (set_tokens d (done ++ l)) l = Ok ts ->
    ev (set_tokens d (done ++ l)) (calc_segs_p E (seq (length done) (length l))) = (set_tokens d (done ++ ts), Ok tt).
  Proof.
    intros d l. assert (G : forall e l done ts, map (@td E) (d_tokens e) = map (@td E) (done ++ l) -> d_trie e = d_trie d -> d_max e = d_max d -> calc_segs e l = Ok ts ->
      ev (set_tokens d (done ++ l)) (calc_segs_p E (seq (length done) (length l))) = (set_tokens d (done ++ ts), Ok tt)).
    { clear l. intros e l. induction l as [|t l IH]; intros done ts Htd Htr Hmx H; cbn [calc_segs] in H; [injection H as <-; reflexivity|].
      apply bind_Ok in H as (segs & H1 & H). apply bind_Ok in H as (kept & H2 & H). apply bind_Ok in H as (rest & H3 & H). injection H as <-.
      cbn [length seq calc_segs_p]. rewrite ev_bnd.
      rewrite (@ev_rd _ _ _ (t_text t)) by (cbn [d_tokens set_tokens]; unfold get; rewrite nth_mid; reflexivity).
      assert (Hsim : segment_words (Some (set_tokens d (done ++ t :: l))) (t_text t) true = Ok segs) by (rewrite <- H1; apply segment_words_sim; [symmetry; exact Htr|symmetry; exact Hmx|symmetry; exact Htd]).
      rewrite ev_bnd. pose proof (rv_segment_words (set_tokens d (done ++ t :: l)) (t_text t) true) as Hrv. rewrite Hsim in Hrv. unfold rv in Hrv.
      rewrite (surjective_pairing (ev (set_tokens d (done ++ t :: l)) (segment_words_p E (t_text t) true))), Hrv, ev_ro by apply ro_segment_words.
      rewrite ev_bnd, ev_keep. rewrite (@keep_sim (set_tokens d (done ++ t :: l)) e) by (symmetry; exact Htd). rewrite H2. cbn [ev d_tokens set_tokens]. rewrite nth_mid, upd_mid, set_set.
      specialize (IH (done ++ [set_segs t kept]) rest). rewrite <- !app_assoc in IH. cbn [app] in IH. rewrite app_length in IH. cbn [length] in IH. rewrite Nat.add_1_r in IH. apply IH; auto.
      rewrite Htd, !map_app. reflexivity. }
    intros done ts H. eapply G; [| | |exact H]; reflexivity.
  Qed.
  Lemma ev_calc : forall d d', calc_token d = Ok d' -> ev d (calc_token_p E) = (d', Ok tt).
  Proof.
    intros d d' H. unfold calc_token in H. apply bind_Ok in H as (ts & H & Hd). injection Hd as <-. unfold calc_token_p. cbn [ev]. rewrite ev_bnd.
    replace d with (set_tokens d ([] ++ d_tokens d)) at 1 by (destruct d; reflexivity). change 0 with (@length (token E) []) at 1. rewrite ev_dist. cbn [app ev d_tokens set_tokens length].
    unfold calc_dist in *. cbn [d_tokens set_tokens] in H. set (l := map _ (d_tokens d)) in *. apply (@ev_segs d l [] ts). exact H.
  Qed.
  Lemma ev_call : forall c d k d' a, alone c d k = Ok (d', a) -> ev d (call_p c k) = (d', Ok a).
  Proof.
    intros c d k d' a H. assert (Hk : reads_only k \/ ~ reads_only k) by (destruct k; cbn; auto). destruct Hk as [Hk|Hk].
    - pose proof (ro_call c Hk) as Hr. rewrite rv_call in H by exact Hk. unfold rv in H.
      rewrite (surjective_pairing (ev d _)), (ev_ro d Hr). destruct (snd (ev d _)); try discriminate. cbn [bind] in H. congruence.
    - destruct k as [s m|w|t f p|t|]; [destruct Hk; exact I|destruct Hk; exact I| | |].
      2:{ cbn [call_p alone] in *. rewrite ev_bnd. unfold seg_remove_token_p, seg_remove_token in *. rewrite ev_bnd. destruct (split_words E c t) as [ws| |]; try discriminate. cbn [local ev bind] in *.
          rewrite ev_remove. destruct (remove_token d ws); cbn [bind fst snd] in *; cbn [ev]; congruence. }
      2:{ cbn [call_p alone] in *. apply bind_Ok in H as (d2 & H & Ha). rewrite ev_bnd, (ev_calc H). cbn [ev]. congruence. }
      cbn [call_p alone] in *. rewrite ev_bnd. unfold seg_add_token_p, seg_add_token in *. rewrite ev_bnd. destruct (to_token _ _ _ _) as [tk| |]; try discriminate.
      cbn [local ev bind] in *. rewrite ev_add. cbn [ev]. congruence.
  Qed.

  (** The machine. *)
  Fixpoint adv (A : Type) (n : nat) (d : dict E) (p : prog E A) : prog E A :=
    match n, p with S n, Read f => adv n d (f d) | _, _ => p end.
  Lemma adv_ro : forall A (p : prog E A) n d, ro p -> ro (adv n d p).
  Proof. intros A p. induction p as [a| | |f IH|f p IH]; intros [|n] d H; cbn in *; auto. Qed.
  Lemma adv_rv : forall A (p : prog E A) n d, rv d (adv n d p) = rv d p.
  Proof. intros A p. unfold rv. induction p as [a| | |f IH|f p IH]; intros [|n] d; cbn in *; auto. Qed.
  Lemma adv_S : forall A (p : prog E A) n d, adv (S n) d p = match adv n d p with Read f => f d | q => q end.
  Proof.
    intros A p. induction p as [a| | |f IH|f p IH]; intros [|n] d; try reflexivity. specialize (IH d n d). cbn in *. exact IH.
  Qed.
  Lemma adv_end : forall A (p : prog E A) d, ro p -> exists n, forall m, n <= m -> adv m d p = local E (rv d p).
  Proof.
    intros A p. induction p as [a| | |f IH|f p IH]; intros d H; cbn in H; try contradiction.
    1-3: exists 0; intros [|m] _; reflexivity.
    destruct (IH d d (H d)) as [n Hn]. exists (S n). intros [|m] Hm; [lia|]. cbn. apply Hn. lia.
  Qed.
  Lemma run_ro : forall sched d (ps : list (prog E (answer E))), Forall (fun p => ro p) ps ->
    fst (run sched (d, ps)) = d /\ forall i, nth_error (snd (run sched (d, ps))) i = option_map (adv (count_occ Nat.eq_dec sched i) d) (nth_error ps i).
  Proof.
    induction sched as [|j sched IH]; intros d ps H.
    - split; [reflexivity|]. intro i. cbn. destruct (nth_error ps i) as [p|]; [destruct p|]; reflexivity.
    - cbn [run]. unfold step. cbn [fst snd]. destruct (nth_error ps j) as [p|] eqn:Ej.
      + assert (Hp : ro p) by (rewrite Forall_forall in H; apply H; eapply nth_error_In; exact Ej).
        assert (Hsame : (forall f, p <> Read f) -> forall i, option_map (adv (count_occ Nat.eq_dec sched i) d) (nth_error ps i) = option_map (adv (count_occ Nat.eq_dec (j :: sched) i) d) (nth_error ps i)).
        { intros Hn i. cbn [count_occ]. destruct (Nat.eq_dec j i) as [<-|]; [|reflexivity]. rewrite Ej. cbn. destruct p; try reflexivity;
            [destruct (count_occ _ _ _); reflexivity..|destruct (Hn f eq_refl)|contradiction]. }
        destruct p as [a| | |f|f p]; try (destruct (IH d ps H) as [I1 I2]; split; [exact I1|]; intro i; rewrite I2; apply Hsame; discriminate); [|contradiction].
        destruct (IH d (upd ps j (f d))) as [I1 I2].
        { apply Forall_forall. intros q Hq. apply In_nth_error in Hq as [i Hi]. destruct (Nat.eq_dec j i) as [<-|Hne].
          - rewrite nth_upd_eq in Hi by (apply nth_error_Some; congruence). injection Hi as <-. exact (Hp d).
          - rewrite nth_upd_neq in Hi by exact Hne. rewrite Forall_forall in H. apply H. eapply nth_error_In; exact Hi. }
        split; [exact I1|]. intro i. rewrite I2. cbn [count_occ]. destruct (Nat.eq_dec j i) as [<-|Hne].
        * rewrite nth_upd_eq by (apply nth_error_Some; congruence). rewrite Ej. reflexivity.
        * rewrite nth_upd_neq by exact Hne. reflexivity.
      + destruct (IH d ps H) as [I1 I2]. split; [exact I1|]. intro i. rewrite I2. cbn [count_occ]. destruct (Nat.eq_dec j i) as [<-|]; [|reflexivity]. rewrite Ej. reflexivity.
  Qed.

  Theorem readers : forall c (d : dict E) ks i k, reachable c d -> (forall k', In k' ks -> reads_only k') -> nth_error ks i = Some k ->
    exists a n, alone c d k = Ok (d, a) /\ forall sched, let m := run sched (start c d ks) in
      fst m = d /\ exists p, nth_error (snd m) i = Some p /\ (p = Ret a \/ exists f, p = Read f) /\ (n <= count_occ Nat.eq_dec sched i -> p = Ret a).
  Proof.
    intros c d ks i k Hr Hks Hk. assert (Hro : reads_only k) by (apply Hks; eapply nth_error_In; exact Hk).
    assert (Ha : exists a, rv d (call_p c k) = Ok a).
    { pose proof (rv_call c d Hro) as H. apply reachable_inv in Hr as Hi. destruct k as [s m|w| | |]; try contradiction; cbn [alone] in H.
      - destruct (c01 (c := c) (d := d) s m Hr) as (segs & Hs & _). rewrite Hs in H. cbn [bind] in H. destruct (rv d _) as [a| |]; try discriminate. eauto.
      - rewrite (find_eq w Hi) in H. destruct (t_get (d_trie d) w) as [v|] eqn:Eg; [destruct (ok_entry (inv_ok Hi) Eg) as (t & T1 & _); rewrite T1 in H|];
          cbn [bind] in H; destruct (rv d _) as [a| |]; try discriminate; eauto. }
    destruct Ha as [a Ha]. destruct (adv_end (p := call_p c k) d (ro_call c Hro)) as [n Hn]. rewrite Ha in Hn. exists a, n.
    split; [rewrite rv_call, Ha by exact Hro; reflexivity|]. intros sched m.
    destruct (run_ro sched d (ps := map (call_p c) ks)) as [R1 R2].
    { apply Forall_forall. intros p Hp. apply in_map_iff in Hp as (k' & <- & Hk'). apply ro_call, Hks, Hk'. }
    split; [exact R1|]. specialize (R2 i). rewrite (map_nth_error _ _ _ Hk) in R2. cbn [option_map] in R2. eexists. split; [exact R2|].
    set (cnt := count_occ _ _ _). split.
    - pose proof (adv_ro cnt d (ro_call c Hro)) as H1. pose proof (adv_rv (call_p c k) cnt d) as H2. rewrite Ha in H2.
      destruct (adv cnt d (call_p c k)) as [a'| | |f|f p]; cbn in H1, H2; try discriminate; try contradiction; [left; unfold rv in H2; cbn in H2; congruence|right; eauto].
    - intro Hc. apply Hn. exact Hc.
  Qed.

  (** Goroutine [i] running alone. *)
  Lemma upd_upd : forall A (l : list A) i x y, upd (upd l i x) i y = upd l i y.
  Proof. intros A l. induction l as [|a l IH]; intros [|i] x y; cbn; auto. f_equal. apply IH. Qed.
  Lemma upd_same : forall A (l : list A) i x, nth_error l i = Some x -> upd l i x = l.
  Proof. intros A l. induction l as [|a l IH]; intros [|i] x H; cbn in *; try discriminate; [congruence|]. f_equal. apply IH, H. Qed.
  Lemma run_one : forall (p : prog E (answer E)) d ps i, nth_error ps i = Some p ->
    exists n, run (repeat i n) (d, ps) = (fst (ev d p), upd ps i (local E (snd (ev d p)))).
  Proof.
    intros p. induction p as [a| | |f IH|f p IH]; intros d ps i H.
    1-3: exists 0; cbn; rewrite upd_same by exact H; reflexivity.
    - destruct (IH d d (upd ps i (f d)) i) as [n Hn]; [apply nth_upd_eq, nth_error_Some; congruence|]. exists (S n). cbn [repeat run ev]. unfold step. cbn [snd fst].
      rewrite H, Hn, upd_upd. reflexivity.
    - destruct (IH (f d) (upd ps i p) i) as [n Hn]; [apply nth_upd_eq, nth_error_Some; congruence|]. exists (S n). cbn [repeat run ev]. unfold step. cbn [snd fst].
      rewrite H, Hn, upd_upd. reflexivity.
  Qed.
  Lemma run_app : forall a b (m : dict E * list (prog E (answer E))), run (a ++ b) m = run b (run a m).
  Proof. induction a as [|i a IH]; intros b m; [reflexivity|]. cbn. apply IH. Qed.
  Theorem call_alone : forall c (d : dict E) (ks : list (call E)) i k d' a, nth_error ks i = Some k -> alone c d k = Ok (d', a) ->
    exists n, run (repeat i n) (start c d ks) = (d', upd (map (@call_p E c) ks) i (Ret a)).
  Proof.
    intros c d ks i k d' a Hk Ha. destruct (run_one (p := call_p c k) d (ps := map (call_p c) ks) (i := i)) as [n Hn]; [apply map_nth_error, Hk|].
    exists n. unfold start. rewrite Hn, (ev_call Ha). reflexivity.
  Qed.

  (** A reader between Insert and append. *)
  Lemma lookup_panics : forall (d : dict E) cap v ws id acc, t_get (d_trie d) (id ++ concat ws) = Some v -> length (d_tokens d) <= v -> ws <> [] ->
    Forall (fun w => w <> []) ws -> lookup d cap ws id acc = Panic.
  Proof.
    intros d cap v. induction ws as [|w ws IH]; intros id acc Hg Hv Hn Hne; [congruence|]. cbn [lookup concat] in *. rewrite app_assoc in Hg.
    inversion Hne as [|? ? Hw Hws]; subst. unfold t_jump. destruct w as [|b w]; [congruence|].
    rewrite (t_path_prefix (q := concat ws)) by (eapply t_path_key; exact Hg). unfold t_value.
    destruct ws as [|w' ws].
    - cbn [concat] in Hg. rewrite app_nil_r in Hg. rewrite Hg. destruct (Nat.ltb_spec v (length (d_tokens d))); [lia|]. rewrite andb_false_r. reflexivity.
    - destruct (t_get (d_trie d) (id ++ b :: w)) as [v'|].
      + destruct (_ && _); [|reflexivity]. apply IH; auto; discriminate.
      + apply IH; auto; discriminate.
  Qed.
  Lemma segment_panics : forall c (d : dict E) s v, s <> [] -> length (wsplit E c s) <= d_max d -> t_get (d_trie d) (norm E c s) = Some v -> length (d_tokens d) <= v ->
    internal_segment c (Some d) s false = Panic.
  Proof.
    intros c d s v Hs Hm Hg Hv. unfold internal_segment. destruct s as [|b s]; [congruence|]. set (t := b :: s) in *. clearbody t. rewrite split_words_eq. cbn [bind].
    pose proof (proj1 (wsplit_nil_iff E c t)) as Hnil. unfold segment_words. cbn [andb]. set (ws := wsplit E c t) in *.
    destruct ws as [|w ws'] eqn:Ew; [exfalso; apply Hs, Hnil; reflexivity|]. rewrite <- Ew in *.
    replace (length ws) with (S (length ws')) at 1 by (rewrite Ew; reflexivity). cbn [seg_forward]. unfold seg_step at 1. cbn [bind].
    rewrite gslice_ok by lia. cbn [bind]. replace (slice ws 0 (Nat.min (0 + d_max d) (length ws))) with ws.
    - unfold lookup_tokens. rewrite (@lookup_panics d (d_max d) v ws [] []); [reflexivity| |exact Hv|rewrite Ew; discriminate|apply split_nonempty]. cbn [app]. unfold ws. rewrite split_concat. exact Hg.
    - unfold slice. cbn [skipn]. rewrite Nat.sub_0_r, firstn_all2; [reflexivity|lia].
  Qed.
  Theorem add_token_panics : forall c (d : dict E) w freq pos, w <> [] -> dict_value d (norm E c w) = None -> length (wsplit E c w) <= d_max d ->
    exists sched, nth_error (snd (run sched (start c d [CAdd w freq pos; CSegment w false]))) 1 = Some Crash.
  Proof.
    intros c d w freq pos Hw Hg Hm. rewrite dict_value_get in Hg.
    assert (H : exists p, run [0; 0; 0] (start c d [CAdd w freq pos; CSegment w false]) =
      ({| d_trie := t_insert (d_trie d) (norm E c w) (length (d_tokens d)); d_max := d_max d; d_tokens := d_tokens d; d_total := d_total d |}, [p; call_p c (@CSegment E w false)])).
    { unfold start. cbn [map]. set (q := call_p c (@CSegment E w false)). cbn [call_p]. unfold seg_add_token_p, to_token. rewrite split_words_eq.
      cbn [bind local bnd]. unfold add_token_p, text_bytes. cbn [t_text]. rewrite split_concat. cbn [bnd run]. unfold step. cbn [snd nth_error fst upd]. rewrite Hg.
      cbn [bnd upd]. eexists. reflexivity. }
    destruct H as [p H]. set (d1 := {| d_trie := _ |}) in *.
    destruct (run_one (p := call_p c (@CSegment E w false)) d1 (ps := [p; call_p c (@CSegment E w false)]) (i := 1) eq_refl) as [n Hn].
    exists ([0; 0; 0] ++ repeat 1 n). rewrite run_app, H, Hn. cbn [snd upd nth_error]. f_equal.
    change (snd (ev d1 ?x)) with (rv d1 x). cbn [call_p]. rewrite rv_bnd by apply ro_segment. rewrite rv_segment, (@segment_panics c d1 w (length (d_tokens d))); auto.
    cbn [d_trie d1]. rewrite t_get_insert, beqb_refl. reflexivity.
  Qed.
  (** Two writers. *)
  Lemma run_read : forall i t (d : dict E) ps f, nth_error ps i = Some (Read f) -> run (i :: t) (d, ps) = run t (d, upd ps i (f d)).
  Proof. intros i t d ps f H. cbn [run]. unfold step. cbn [snd fst]. rewrite H. reflexivity. Qed.
  Lemma run_write : forall i t (d : dict E) ps f p, nth_error ps i = Some (Write f p) -> run (i :: t) (d, ps) = run t (f d, upd ps i p).
  Proof. intros i t d ps f p H. cbn [run]. unfold step. cbn [snd fst]. rewrite H. reflexivity. Qed.
  Lemma run_done : forall i t (d : dict E) ps a, nth_error ps i = Some (Ret a) -> run (i :: t) (d, ps) = run t (d, ps).
  Proof. intros i t d ps a H. cbn [run]. unfold step. cbn [snd fst]. rewrite H. reflexivity. Qed.
  Theorem add_add : forall c (d : dict E) w1 f1 p1 w2 f2 p2, dict_value d (norm E c w1) = None -> dict_value d (norm E c w2) = None ->
    exists sched d', run sched (start c d [CAdd w1 f1 p1; CAdd w2 f2 p2]) = (d', [Ret (@AAdded E); Ret (@AAdded E)]) /\
      (dict_value d' (norm E c w1) = Some (length (d_tokens d))) /\ (dict_value d' (norm E c w2) = Some (length (d_tokens d))) /\
      exists t1 t2, d_tokens d' = d_tokens d ++ [t1; t2] /\ t_text t1 = wsplit E c w1 /\ t_freq t1 = f1 /\ t_pos t1 = p1 /\ t_text t2 = wsplit E c w2.
  Proof.
    intros c d w1 f1 p1 w2 f2 p2 H1 H2. rewrite dict_value_get in H1, H2.
    exists [0; 0; 1; 1; 0; 1; 0; 0; 0; 0; 0; 0; 1; 1; 1; 1; 1; 1]. unfold start. cbn [map call_p]. unfold seg_add_token_p, to_token. rewrite !split_words_eq.
    cbn [bind local bnd]. unfold add_token_p, text_bytes. cbn [t_text t_freq]. rewrite !split_concat. cbn [bnd].
    Ltac rd := erewrite run_read by reflexivity; cbn [bnd upd d_trie d_tokens d_max d_total].
    Ltac wr := erewrite run_write by reflexivity; cbn [bnd upd d_trie d_tokens d_max d_total].
    rd. rewrite H1. cbn [bnd]. rd. rd. rewrite H2. cbn [bnd]. rd. wr. wr. rd. wr. rd. wr. rd.
    destruct (d_max d <? length (wsplit E c w1)); cbn [bnd]; [wr|erewrite run_done by reflexivity]; rd; wr; rd; wr; rd;
      (destruct (_ <? _); cbn [bnd]; [wr|erewrite run_done by reflexivity]); cbn [run]; eexists; (split; [reflexivity|]);
      rewrite !dict_value_get; cbn [d_trie d_tokens]; rewrite !t_get_insert, !beqb_refl;
      (split; [destruct (beqb _ _); reflexivity|]); (split; [reflexivity|]);
      do 2 eexists; (split; [rewrite <- app_assoc; reflexivity|]); auto.
  Qed.
End Conc.
