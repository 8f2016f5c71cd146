(** Proofs about segmentWords: safety, coverage, optimality. *)
From Verif Require Import S_Split P_Utf8 P_Split S_Seg P_Dict.
Set Implicit Arguments. Unset Strict Implicit.

(** Every contiguous range of [ws] is stable under splitting. *)
Definition stable (E : env) (c : cfg) (ws : list bytes) : Prop :=
  forall a b z, ws = a ++ b ++ z -> wsplit E c (concat b) = b.

Lemma split_is_stable : forall E c s, stable E c (wsplit E c s).
Proof. intros E c s a b z H. eapply split_stable; exact H. Qed.

Lemma slice_of : forall A (l : list A) i j, i <= j -> j <= length l -> l = firstn i l ++ slice l i j ++ skipn j l.
Proof.
  intros A l i j H1 H2. unfold slice.
  rewrite <- (firstn_skipn i l) at 1. f_equal.
  rewrite <- (firstn_skipn (j - i) (skipn i l)) at 1. f_equal.
  rewrite skipn_skipn. f_equal. lia.
Qed.

Lemma stable_slice : forall E c ws i j, stable E c ws -> i <= j -> j <= length ws ->
  wsplit E c (concat (slice ws i j)) = slice ws i j.
Proof. intros E c ws i j H H1 H2. eapply H. apply slice_of; assumption. Qed.

Section DP.
  Variable E : env.
  Variable c : cfg.
  Variable d : dict E.
  Variable search : bool.
  Variable ws : list bytes.
  Hypothesis Hd : dict_ok c d.
  Hypothesis Hst : stable E c ws.
  Hypothesis Hne : Forall (fun w => w <> []) ws.
  Hypothesis Hsearch : search = true -> length ws <> 1.

  Let n := length ws.

  (** The (unique) candidate token for words i..j-1. *)
  Definition cand (i j : nat) : option tref :=
    match t_get (d_trie d) (concat (slice ws i j)) with
    | Some v => if search && (i =? 0) && (j =? n) then None else Some (InDict v)
    | None => if j =? S i then match nth_error ws i with Some w => Some (Fallback w) | None => None end else None
    end.

  Definition base (js : list (jumper E)) (i : nat) : f32 E :=
    match i with O => lit32 E 0 0 | S p => match nth_error js p with Some j => fst j | None => lit32 E 0 0 end end.

  (** Effect on the jumper of location [l] of processing position [i]. *)
  Definition app_cand (b : f32 E) (i l : nat) (j : jumper E) : jumper E :=
    match cand i (S l) with
    | Some r => update_jumper j b (dist_of d r) r
    | None => j
    end.

  Lemma cand_text : forall i j v, i <= j -> j <= n -> t_get (d_trie d) (concat (slice ws i j)) = Some v ->
    exists t, nth_error (d_tokens d) v = Some t /\ t_text t = slice ws i j /\ length (t_text t) = j - i /\ j - i <= d_max d.
  Proof.
    intros i j v H1 H2 Hg. destruct (ok_entry Hd Hg) as (t & Ht & Hs & Hc & Hl).
    exists t. rewrite stable_slice in Hs by assumption.
    assert (length (t_text t) = j - i) by (rewrite Hs; apply slice_length; exact H2).
    repeat apply conj; auto. lia.
  Qed.

  Lemma dist_of_dict : forall v t, nth_error (d_tokens d) v = Some t -> dist_of d (InDict v) = t_dist t.
  Proof. intros v t H. unfold dist_of, deref, get. rewrite H. reflexivity. Qed.

  (** What update_all does to every location. *)
  Lemma update_all_spec : forall cur b m s js,
    1 <= s -> cur + s + m <= S n -> length js = n ->
    exists js', update_all d search n cur b
        (somes (map (fun k => t_get (d_trie d) (concat (slice ws cur (cur + k)))) (seq s m))) js = Ok js' /\
      length js' = n /\
      (forall l, l < n -> nth_error js' l =
        if (cur + s <=? S l) && (S l <? cur + s + m)
        then match t_get (d_trie d) (concat (slice ws cur (S l))) with
             | Some _ => option_map (app_cand b cur l) (nth_error js l)
             | None => nth_error js l
             end
        else nth_error js l).
  Proof.
    intros cur b m. induction m as [|m IH]; intros s js Hs Hm Hl.
    - exists js. cbn [seq map somes update_all]. repeat apply conj; auto. intros l Hll.
      destruct (Nat.leb_spec (cur + s) (S l)), (Nat.ltb_spec (S l) (cur + s + 0)); cbn [andb]; try reflexivity; lia.
    - cbn [seq map].
      destruct (t_get (d_trie d) (concat (slice ws cur (cur + s)))) as [v|] eqn:Eg.
      + destruct (@cand_text cur (cur + s) v) as (t & Ht & Htx & Hlen & _); [lia|lia|exact Eg|].
        cbn [somes update_all]. unfold get at 1. rewrite Ht. cbn [bind].
        rewrite Hlen. replace (cur + (cur + s - cur)) with (S (cur + s - 1)) by lia.
        replace (S (cur + s - 1)) with (cur + s) by lia.
        assert (Hnth : exists j, nth_error js (cur + s - 1) = Some j).
        { destruct (nth_error js (cur + s - 1)) eqn:E1; [eauto|]. apply nth_error_None in E1. lia. }
        destruct Hnth as [j Hj].
        destruct (negb search || negb (cur =? 0) || negb (cur + s =? n)) eqn:Ec.
        * unfold get. rewrite Hj. cbn [bind].
          destruct (IH (S s) (upd js (cur + s - 1) (update_jumper j b (t_dist t) (InDict v)))) as (js' & H1 & H2 & H3);
            [lia|lia|rewrite upd_length; exact Hl|].
          exists js'. repeat apply conj; [exact H1|exact H2|]. intros l Hll. rewrite (H3 l Hll).
          destruct (Nat.eq_dec l (cur + s - 1)) as [->|Hneq].
          -- replace (S (cur + s - 1)) with (cur + s) by lia.
             destruct (Nat.leb_spec (cur + S s) (cur + s)); [lia|]. cbn [andb].
             rewrite nth_upd_eq by lia.
             destruct (Nat.leb_spec (cur + s) (cur + s)); [|lia].
             destruct (Nat.ltb_spec (cur + s) (cur + s + S m)); [|lia]. cbn [andb].
             rewrite Eg, Hj. cbn [option_map]. f_equal. unfold app_cand, cand.
             replace (S (cur + s - 1)) with (cur + s) by lia. rewrite Eg.
             destruct (search && (cur =? 0) && (cur + s =? n)) eqn:Es.
             { destruct search, (cur =? 0), (cur + s =? n); discriminate. }
             rewrite (dist_of_dict Ht). reflexivity.
          -- rewrite nth_upd_neq by auto.
             destruct (Nat.leb_spec (cur + S s) (S l)), (Nat.leb_spec (cur + s) (S l)),
               (Nat.ltb_spec (S l) (cur + S s + m)), (Nat.ltb_spec (S l) (cur + s + S m)); cbn [andb]; try reflexivity; lia.
        * destruct (IH (S s) js) as (js' & H1 & H2 & H3); [lia|lia|exact Hl|].
          exists js'. repeat apply conj; [exact H1|exact H2|]. intros l Hll. rewrite (H3 l Hll).
          destruct (Nat.eq_dec l (cur + s - 1)) as [->|Hneq].
          -- replace (S (cur + s - 1)) with (cur + s) by lia.
             destruct (Nat.leb_spec (cur + S s) (cur + s)); [lia|]. cbn [andb].
             destruct (Nat.leb_spec (cur + s) (cur + s)); [|lia].
             destruct (Nat.ltb_spec (cur + s) (cur + s + S m)); [|lia]. cbn [andb].
             rewrite Eg, Hj. cbn [option_map]. f_equal. unfold app_cand, cand.
             replace (S (cur + s - 1)) with (cur + s) by lia. rewrite Eg.
             destruct search, (cur =? 0), (cur + s =? n); try discriminate. reflexivity.
          -- destruct (Nat.leb_spec (cur + S s) (S l)), (Nat.leb_spec (cur + s) (S l)),
               (Nat.ltb_spec (S l) (cur + S s + m)), (Nat.ltb_spec (S l) (cur + s + S m)); cbn [andb]; try reflexivity; lia.
      + cbn [somes].
        destruct (IH (S s) js) as (js' & H1 & H2 & H3); [lia|lia|exact Hl|].
        exists js'. repeat apply conj; [exact H1|exact H2|]. intros l Hll. rewrite (H3 l Hll).
        destruct (Nat.eq_dec l (cur + s - 1)) as [->|Hneq].
        -- replace (S (cur + s - 1)) with (cur + s) by lia.
           destruct (Nat.leb_spec (cur + S s) (cur + s)); [lia|]. cbn [andb].
           destruct (Nat.leb_spec (cur + s) (cur + s)); [|lia].
           destruct (Nat.ltb_spec (cur + s) (cur + s + S m)); [|lia]. cbn [andb].
           rewrite Eg. reflexivity.
        -- destruct (Nat.leb_spec (cur + S s) (S l)), (Nat.leb_spec (cur + s) (S l)),
             (Nat.ltb_spec (S l) (cur + S s + m)), (Nat.ltb_spec (S l) (cur + s + S m)); cbn [andb]; try reflexivity; lia.
  Qed.

  Lemma somes_first : forall (g : nat -> option nat) s m, s <= s ->
    match somes (map g (seq s m)) with
    | [] => forall k, s <= k < s + m -> g k = None
    | v :: _ => exists k, s <= k < s + m /\ g k = Some v /\ forall k', s <= k' < k -> g k' = None
    end.
  Proof.
    intros g s m _. revert s. induction m as [|m IH]; intros s; cbn.
    - intros k Hk. lia.
    - destruct (g s) as [v|] eqn:Eg.
      + exists s. repeat apply conj; auto; intros; lia.
      + specialize (IH (S s)). destruct (somes (map g (seq (S s) m))) as [|v l].
        * intros k Hk. destruct (Nat.eq_dec k s) as [->|]; [exact Eg|apply IH; lia].
        * destruct IH as (k & H1 & H2 & H3). exists k. repeat apply conj; [lia|lia|exact H2|].
          intros k' Hk'. destruct (Nat.eq_dec k' s) as [->|]; [exact Eg|apply H3; lia].
  Qed.

  Lemma seg_step_spec : forall cur js, cur < n -> length js = n ->
    exists js', seg_step d search ws cur js = Ok js' /\ length js' = n /\
      (forall l, l < n -> nth_error js' l =
         if cur <=? l then option_map (app_cand (base js cur) cur l) (nth_error js l) else nth_error js l).
  Proof.
    intros cur js Hcur Hl.
    assert (Hbase : (match cur with O => Ok (lit32 E 0 0) | S p => do j <- get js p ; Ok (fst j) end) = Ok (base js cur)).
    { destruct cur as [|p]; [reflexivity|]. cbn [base]. unfold get.
      destruct (nth_error js p) eqn:Ep; [reflexivity|]. apply nth_error_None in Ep. lia. }
    unfold seg_step. rewrite Hbase. cbn [bind]. fold n.
    set (m := Nat.min (cur + d_max d) n - cur).
    assert (Hm : Nat.min (cur + d_max d) n = cur + m) by lia.
    rewrite gslice_ok by (unfold n; fold n; lia). cbn [bind]. rewrite Hm.
    set (tx := slice ws cur (cur + m)).
    assert (Htx : length tx = m) by (unfold tx; rewrite slice_length; unfold n in *; lia).
    unfold lookup_tokens. rewrite lookup_spec.
    2: { eapply dict_ok_value; eassumption. }
    2: { unfold tx, slice. apply Forall_forall. intros w Hin. rewrite Forall_forall in Hne. apply Hne.
         rewrite <- (firstn_skipn cur ws). apply in_or_app. right.
         rewrite <- (firstn_skipn (cur + m - cur) (skipn cur ws)). apply in_or_app. left. exact Hin. }
    2: { cbn [length]. lia. }
    cbn [bind app].
    assert (Hmap : map (fun k => t_get (d_trie d) (concat (firstn k tx))) (seq 1 (length tx)) =
                   map (fun k => t_get (d_trie d) (concat (slice ws cur (cur + k)))) (seq 1 m)).
    { rewrite Htx. apply map_ext_in. intros k Hk. apply in_seq in Hk. f_equal. f_equal.
      unfold tx, slice. rewrite firstn_firstn. f_equal. lia. }
    rewrite Hmap. set (found := somes _) in *.
    destruct (@update_all_spec cur (base js cur) m 1 js) as (js' & H1 & H2 & H3); [lia|lia|exact Hl|].
    fold found in H1. rewrite H1. cbn [bind].
    (* effect of update_all for all locations *)
    assert (Hall : forall l, l < n -> nth_error js' l =
        if cur <=? l then match t_get (d_trie d) (concat (slice ws cur (S l))) with
             | Some _ => option_map (app_cand (base js cur) cur l) (nth_error js l)
             | None => nth_error js l end else nth_error js l).
    { intros l Hll. rewrite (H3 l Hll).
      destruct (Nat.leb_spec (cur + 1) (S l)), (Nat.leb_spec cur l); try lia; cbn [andb]; [|reflexivity].
      destruct (Nat.ltb_spec (S l) (cur + 1 + m)); [reflexivity|].
      destruct (t_get (d_trie d) (concat (slice ws cur (S l)))) eqn:Eg; [|reflexivity].
      exfalso. destruct (@cand_text cur (S l) n0) as (t & _ & _ & _ & Hmx); [lia|lia|exact Eg|].
      unfold m in *. lia. }
    (* is the fallback needed? *)
    assert (Hadd : (match found with [] => Ok true | v :: _ => do t <- get (d_tokens d) v ; Ok (1 <? length (t_text t)) end)
             = Ok (match t_get (d_trie d) (concat (slice ws cur (S cur))) with Some _ => false | None => true end)).
    { pose proof (@somes_first (fun k => t_get (d_trie d) (concat (slice ws cur (cur + k)))) 1 m (le_n _)) as Hf.
      fold found in Hf. destruct found as [|v vs].
      - destruct (t_get (d_trie d) (concat (slice ws cur (S cur)))) eqn:Eg; [|reflexivity].
        exfalso. destruct (@cand_text cur (S cur) n0) as (t & _ & _ & _ & Hmx); [lia|lia|exact Eg|].
        replace (S cur) with (cur + 1) in Eg by lia. rewrite (Hf 1) in Eg; [discriminate|]. unfold m. lia.
      - destruct Hf as (k & Hk & Hg & Hmin). cbn beta in *.
        destruct (@cand_text cur (cur + k) v) as (t & Ht & _ & Hlen & _); [lia|lia|exact Hg|].
        unfold get. rewrite Ht. cbn [bind]. rewrite Hlen.
        destruct (Nat.eq_dec k 1) as [->|Hk1].
        + replace (S cur) with (cur + 1) by lia. rewrite Hg.
          destruct (Nat.ltb_spec 1 (cur + 1 - cur)); [lia|reflexivity].
        + replace (S cur) with (cur + 1) by lia. rewrite (Hmin 1) by lia.
          destruct (Nat.ltb_spec 1 (cur + k - cur)); [reflexivity|lia]. }
    rewrite Hadd. cbn [bind].
    destruct (t_get (d_trie d) (concat (slice ws cur (S cur)))) as [v0|] eqn:E1.
    - exists js'. repeat apply conj; [reflexivity|exact H2|]. intros l Hll. rewrite (Hall l Hll).
      destruct (Nat.leb_spec cur l); [|reflexivity].
      destruct (t_get (d_trie d) (concat (slice ws cur (S l)))) eqn:Eg; [reflexivity|].
      unfold app_cand, cand. rewrite Eg.
      destruct (Nat.eqb_spec (S l) (S cur)) as [He|He].
      + assert (l = cur) by lia. subst l. congruence.
      + destruct (nth_error js l); reflexivity.
    - destruct (nth_error ws cur) as [w|] eqn:Ew; [|apply nth_error_None in Ew; unfold n in *; lia].
      unfold get at 1. rewrite Ew. cbn [bind].
      destruct (nth_error js' cur) as [j|] eqn:Ej; [|apply nth_error_None in Ej; lia].
      unfold get at 1. rewrite Ej. cbn [bind].
      eexists. repeat apply conj; [reflexivity|rewrite upd_length; exact H2|].
      intros l Hll. destruct (Nat.eq_dec cur l) as [<-|Hneq].
      + rewrite nth_upd_eq by lia. destruct (Nat.leb_spec cur cur); [|lia].
        rewrite (Hall cur Hcur) in Ej. destruct (Nat.leb_spec cur cur); [|lia]. rewrite E1 in Ej.
        rewrite Ej. cbn [option_map]. f_equal. unfold app_cand, cand. rewrite E1, Nat.eqb_refl, Ew. reflexivity.
      + rewrite nth_upd_neq by exact Hneq. rewrite (Hall l Hll).
        destruct (Nat.leb_spec cur l); [|reflexivity].
        destruct (t_get (d_trie d) (concat (slice ws cur (S l)))) eqn:Eg; [reflexivity|].
        unfold app_cand, cand. rewrite Eg.
        destruct (Nat.eqb_spec (S l) (S cur)) as [He|He]; [lia|].
        destruct (nth_error js l); reflexivity.
  Qed.

  Definition fold_cands (js : list (jumper E)) (l : nat) (is : list nat) : jumper E :=
    fold_left (fun j i => app_cand (base js i) i l j) is (lit32 E 0 0, None).

  Definition Inv (cur : nat) (js : list (jumper E)) : Prop :=
    length js = n /\
    forall l, l < n -> nth_error js l = Some (fold_cands js l (seq 0 (Nat.min cur (S l)))).

  Lemma fold_cands_ext : forall js js' l is, (forall i, In i is -> base js i = base js' i) ->
    fold_cands js l is = fold_cands js' l is.
  Proof.
    intros js js' l is. unfold fold_cands. generalize (lit32 E 0 0, @None tref).
    induction is as [|i is IH]; intros j H; [reflexivity|]. cbn.
    rewrite (H i (or_introl eq_refl)). apply IH. intros i' Hi'. apply H. right. exact Hi'.
  Qed.

  Lemma Inv_init : Inv 0 (repeat (lit32 E 0 0, None) n).
  Proof.
    split; [apply repeat_length|]. intros l Hl. cbn. apply nth_error_repeat. exact Hl.
  Qed.

  Lemma Inv_step : forall cur js, cur < n -> Inv cur js ->
    exists js', seg_step d search ws cur js = Ok js' /\ Inv (S cur) js'.
  Proof.
    intros cur js Hcur [Hl HI]. destruct (seg_step_spec Hcur Hl) as (js' & H1 & H2 & H3).
    exists js'. split; [exact H1|]. split; [exact H2|]. intros l Hll. rewrite (H3 l Hll), (HI l Hll).
    assert (Hb : forall i, i <= cur -> base js i = base js' i).
    { intros i Hi. destruct i as [|p]; [reflexivity|]. cbn. rewrite (H3 p) by lia.
      destruct (Nat.leb_spec cur p); [lia|reflexivity]. }
    destruct (Nat.leb_spec cur l).
    - cbn [option_map]. f_equal.
      replace (Nat.min (S cur) (S l)) with (S cur) by lia. replace (Nat.min cur (S l)) with cur by lia.
      rewrite seq_S. cbn [Nat.add]. unfold fold_cands at 2. rewrite fold_left_app. cbn [fold_left].
      rewrite (Hb cur) by lia. f_equal.
      apply fold_cands_ext. intros i Hi. apply in_seq in Hi. apply Hb. lia.
    - f_equal. replace (Nat.min (S cur) (S l)) with (S l) by lia. replace (Nat.min cur (S l)) with (S l) by lia.
      apply fold_cands_ext. intros i Hi. apply in_seq in Hi. apply Hb. lia.
  Qed.

  Lemma Inv_forward : forall todo cur js, cur + todo = n -> Inv cur js ->
    exists js', seg_forward d search ws todo cur js = Ok js' /\ Inv n js'.
  Proof.
    induction todo as [|k IH]; intros cur js Hn HI; cbn [seg_forward].
    - exists js. split; [reflexivity|]. replace n with cur by lia. exact HI.
    - destruct (@Inv_step cur js) as (js1 & H1 & H2); [lia|exact HI|].
      rewrite H1. cbn [bind]. apply IH; [lia|exact H2].
  Qed.

  (** Properties of the final jumpers. *)
  Lemma update_cases : forall (j : jumper E) b x r,
    (update_jumper j b x r = (add32 E b x, Some r)) \/
    (update_jumper j b x r = j /\ eqb32 E (fst j) (lit32 E 0 0) = false).
  Proof.
    intros j b x r. unfold update_jumper. destruct (eqb32 E (fst j) (lit32 E 0 0)) eqn:E1; cbn [orb]; [auto|].
    destruct (ltb32 E (add32 E b x) (fst j)); auto.
  Qed.

  Lemma fold_cands_inv : forall js l is, let j := fold_cands js l is in
    (snd j = None -> j = (lit32 E 0 0, None) /\ forall i, In i is -> cand i (S l) = None) /\
    (forall r, snd j = Some r -> exists i, In i is /\ cand i (S l) = Some r /\ fst j = add32 E (base js i) (dist_of d r)).
  Proof.
    intros js l is. cbv zeta. unfold fold_cands.
    induction is as [|i is IH] using rev_ind.
    - cbn. split; [intros _; split; [reflexivity|contradiction]|discriminate].
    - rewrite fold_left_app. cbn [fold_left].
      set (j := fold_left _ is _) in *. destruct IH as [IH1 IH2].
      unfold app_cand. destruct (cand i (S l)) as [r|] eqn:Ec.
      + destruct (@update_cases j (base js i) (dist_of d r) r) as [Hu|[Hu Hz]].
        * rewrite Hu. cbn [fst snd]. split; [discriminate|]. intros r' Hr'. injection Hr' as <-.
          exists i. repeat apply conj; auto. apply in_or_app; right; left; reflexivity.
        * rewrite Hu. split.
          -- intro Hn. destruct (IH1 Hn) as [Hj _]. rewrite Hj in Hz. cbn in Hz.
             rewrite zero32_refl in Hz. discriminate.
          -- intros r' Hr'. destruct (IH2 r' Hr') as (i' & Hi' & H'). exists i'. split; [|exact H'].
             apply in_or_app; left; exact Hi'.
      + split.
        * intro Hn. destruct (IH1 Hn) as [Hj Hc]. split; [exact Hj|]. intros i' Hi'.
          apply in_app_or in Hi' as [Hi'|[<-|[]]]; auto.
        * intros r' Hr'. destruct (IH2 r' Hr') as (i' & Hi' & H'). exists i'. split; [|exact H'].
          apply in_or_app; left; exact Hi'.
  Qed.

  Lemma cand_diag : forall l, l < n -> exists r, cand l (S l) = Some r.
  Proof.
    intros l Hl. unfold cand. destruct (t_get (d_trie d) (concat (slice ws l (S l)))) as [v|] eqn:Eg.
    - destruct (search && (l =? 0) && (S l =? n)) eqn:Es; [|eauto].
      exfalso. apply andb_prop in Es as [Es E3]. apply andb_prop in Es as [E1 E2].
      apply Nat.eqb_eq in E2, E3. apply Hsearch in E1. unfold n in *. lia.
    - rewrite Nat.eqb_refl. destruct (nth_error ws l) eqn:Ew; [eauto|].
      apply nth_error_None in Ew. unfold n in *. lia.
  Qed.

  Lemma final_jumper : forall js l, Inv n js -> l < n ->
    exists r i x, nth_error js l = Some (x, Some r) /\ i <= l /\ cand i (S l) = Some r /\
                  x = add32 E (base js i) (dist_of d r).
  Proof.
    intros js l [Hl HI] Hll. rewrite (HI l Hll). replace (Nat.min n (S l)) with (S l) by lia.
    destruct (fold_cands_inv js l (seq 0 (S l))) as [H1 H2].
    destruct (fold_cands js l (seq 0 (S l))) as [x [r|]] eqn:Ej.
    - destruct (H2 r eq_refl) as (i & Hi & Hc & Hx). apply in_seq in Hi. exists r, i, x.
      repeat apply conj; auto. lia.
    - exfalso. destruct (H1 eq_refl) as [_ Hno]. destruct (cand_diag Hll) as [r Hr].
      rewrite (Hno l) in Hr; [discriminate|]. apply in_seq. lia.
  Qed.

  Lemma cand_spec : forall i j r, i < j -> j <= n -> cand i j = Some r ->
    exists t, deref d r = Ok t /\ t_text t = slice ws i j /\ length (t_text t) = j - i /\
              piece d (slice ws i j) r /\ (search = true -> i = 0 -> j < n).
  Proof.
    intros i j r Hij Hj Hc. unfold cand in Hc.
    destruct (t_get (d_trie d) (concat (slice ws i j))) as [v|] eqn:Eg.
    - destruct (search && (i =? 0) && (j =? n)) eqn:Es; [discriminate|]. injection Hc as <-.
      destruct (@cand_text i j v) as (t & H1 & H2 & H3 & H4); [lia|lia|exact Eg|].
      exists t. cbn [deref]. unfold get. rewrite H1. repeat apply conj; auto.
      + apply piece_dict.
        * intro Hx. apply (f_equal (@length _)) in Hx. rewrite slice_length in Hx by (unfold n in *; lia). cbn in Hx. lia.
        * rewrite dict_value_get. exact Eg.
      + intros Hs Hi. rewrite Hs in Es. subst i. cbn in Es. apply Nat.eqb_neq in Es. lia.
    - destruct (Nat.eqb_spec j (S i)) as [->|]; [|discriminate].
      destruct (nth_error ws i) as [w|] eqn:Ew; [|discriminate]. injection Hc as <-.
      assert (Hsl : slice ws i (S i) = [w]).
      { unfold slice. replace (S i - i) with 1 by lia.
        pose proof (nth_error_split ws i Ew) as (l1 & l2 & Hw & Hl1). rewrite Hw.
        rewrite skipn_app, skipn_all2 by lia. replace (i - length l1) with 0 by lia. reflexivity. }
      exists (fallback_token E w). cbn [deref]. rewrite Hsl in *. repeat apply conj; auto.
      + cbn [fallback_token t_text length]. lia.
      + apply piece_fallback. rewrite dict_value_get. cbn in Eg. rewrite app_nil_r in Eg. exact Eg.
      + intros Hs Hi. specialize (Hsearch Hs). unfold n in *. lia.
  Qed.

  (** The backward scan. [rev_path js k rs]: rs is the chain of chosen tokens ending at k. *)
  Inductive chain (js : list (jumper E)) : nat -> list tref -> list (list bytes) -> Prop :=
  | chain_O : chain js 0 [] []
  | chain_S : forall i l r rs ps x, i <= l -> l < n ->
      nth_error js l = Some (x, Some r) -> cand i (S l) = Some r -> x = add32 E (base js i) (dist_of d r) ->
      chain js i rs ps -> chain js (S l) (rs ++ [r]) (ps ++ [slice ws i (S l)]).

  Lemma back_spec : forall js, Inv n js -> forall idx1, idx1 <= n ->
    exists rs ps, chain js idx1 rs ps /\
      forall fuel acc, idx1 <= fuel -> seg_back d fuel js idx1 acc = Ok (rs ++ acc).
  Proof.
    intros js HI idx1. induction idx1 as [k IH] using (well_founded_induction lt_wf). intro Hk.
    destruct k as [|l].
    - exists [], []. split; [constructor|]. intros fuel acc _. destruct fuel; reflexivity.
    - destruct (@final_jumper js l HI) as (r & i & x & H1 & H2 & H3 & H4); [lia|].
      destruct (@cand_spec i (S l) r) as (t & Hd1 & Htx & Hlen & _); [lia|lia|exact H3|].
      destruct (IH i ltac:(lia) ltac:(lia)) as (rs & ps & Hch & Hb).
      exists (rs ++ [r]), (ps ++ [slice ws i (S l)]). split.
      + eapply chain_S; eauto.
      + intros fuel acc Hf. destruct fuel as [|f]; [lia|]. cbn [seg_back].
        unfold get. rewrite H1. cbn [bind snd]. rewrite Hd1. cbn [bind]. rewrite Hlen.
        replace (S l - (S l - i)) with i by lia. rewrite Hb by lia.
        rewrite <- app_assoc. reflexivity.
  Qed.

  Lemma chain_pieces : forall js k rs ps, chain js k rs ps -> k <= n ->
    concat ps = firstn k ws /\ Forall2 (piece d) ps rs /\
    Forall2 (fun p r => exists t, deref d r = Ok t /\ t_text t = p) ps rs /\
    Forall (fun p => p <> []) ps /\ (search = true -> 1 < n -> k = n -> 2 <= length rs).
  Proof.
    intros js k rs ps H. induction H as [|i l r rs ps x Hil Hl Hnth Hc Hx Hch IH]; intros Hk.
    - repeat apply conj; try constructor. intros. lia.
    - destruct IH as (I1 & I2 & I3 & I4 & I5); [lia|].
      destruct (@cand_spec i (S l) r) as (t & Hd1 & Htx & Hlen & Hp & Hs); [lia|lia|exact Hc|].
      repeat apply conj.
      + rewrite concat_app, I1. cbn [concat]. rewrite app_nil_r.
        assert (H0 : forall k, firstn k ws = slice ws 0 k) by (intro; unfold slice; rewrite Nat.sub_0_r; reflexivity).
        rewrite !H0. apply slice_app; lia.
      + apply Forall2_app; auto.
      + apply Forall2_app; auto. constructor; [|constructor]. exists t. auto.
      + apply Forall_app. split; auto. constructor; [|constructor]. rewrite <- Htx. intro Hz.
        rewrite Hz in Hlen. cbn [length] in Hlen. lia.
      + intros Hs1 Hn Hkn. rewrite app_length. cbn [length].
        destruct i as [|i]; [specialize (Hs Hs1 eq_refl); lia|].
        inversion Hch; subst. rewrite app_length. cbn [length]. lia.
  Qed.

  Lemma chain_cost : forall js k rs ps, chain js k rs ps -> cost d rs = base js k.
  Proof.
    intros js k rs ps H. induction H as [|i l r rs ps x Hil Hl Hnth Hc Hx Hch IH]; [reflexivity|].
    unfold cost in *. rewrite fold_left_app. cbn [fold_left]. rewrite IH. cbn [base]. rewrite Hnth. cbn [fst].
    symmetry. exact Hx.
  Qed.

  Lemma text_len_concat : forall l, text_len l = length (concat l).
  Proof. induction l as [|w l IH]; cbn; [reflexivity|]. rewrite app_length, IH. reflexivity. Qed.

  (** Byte positions. *)
  Lemma positions_spec : forall rs ps pos,
    Forall2 (fun p r => exists t, deref d r = Ok t /\ t_text t = p) ps rs ->
    exists segs, positions d pos rs = Ok segs /\ map sg_tok segs = rs /\
      forall text rest pre, length pre = pos -> Forall (fun p => concat p <> []) ps ->
        text = pre ++ concat (concat ps) ++ rest ->
        covers d text pos (pos + length (concat (concat ps))) segs.
  Proof.
    induction rs as [|r rs IH]; intros ps pos H.
    - inversion H; subst. exists []. repeat apply conj; try reflexivity.
      intros. cbn. rewrite Nat.add_0_r. constructor.
    - inversion H as [|p ? ps' ? (t & Hd1 & Htx) Hrest]; subst. cbn [positions]. rewrite Hd1. cbn [bind].
      rewrite text_len_concat.
      destruct (IH ps' (pos + length (concat (t_text t))) Hrest) as (segs & H1 & H2 & H3).
      rewrite H1. cbn [bind]. eexists. repeat apply conj; [reflexivity|cbn; rewrite H2; reflexivity|].
      intros text rest pre Hpre Hnep Htext. inversion Hnep; subst.
      assert (Hpos : 0 < length (concat (t_text t))) by (destruct (concat (t_text t)); [congruence|cbn; lia]).
      cbn [concat]. rewrite concat_app, app_length, Nat.add_assoc.
      eapply cov_cons with (t := t); cbn [sg_start sg_end sg_tok]; auto; [lia| |].
      + unfold slice.
        replace (length pre + length (concat (t_text t)) - length pre) with (length (concat (t_text t))) by lia.
        rewrite skipn_app, skipn_all, Nat.sub_diag. cbn [skipn app].
        rewrite <- app_assoc, firstn_app, firstn_all, Nat.sub_diag. cbn. rewrite app_nil_r. reflexivity.
      + eapply (H3 _ rest (pre ++ concat (t_text t))); auto.
        * rewrite app_length. reflexivity.
        * rewrite !app_assoc. reflexivity.
  Qed.

  Theorem segment_words_spec :
    exists js rs ps segs, Inv n js /\ chain js n rs ps /\ segment_words (Some d) ws search = Ok segs /\
      map sg_tok segs = rs /\ covers d (concat ws) 0 (length (concat ws)) segs.
  Proof.
    unfold segment_words. fold n.
    assert (Hc1 : search && (n =? 1) = false).
    { destruct search; [|reflexivity]. cbn. apply Nat.eqb_neq. apply Hsearch. reflexivity. }
    rewrite Hc1.
    destruct (@Inv_forward n 0 (repeat (lit32 E 0 0, None) n)) as (js & H1 & HI); [lia|apply Inv_init|].
    rewrite H1. cbn [bind].
    destruct (@back_spec js HI n) as (rs & ps & Hch & Hb); [lia|].
    rewrite (Hb n []) by lia. rewrite app_nil_r. cbn [bind].
    destruct (chain_pieces Hch (le_n n)) as (P1 & P2 & P3 & P4 & _).
    destruct (@positions_spec rs ps 0 P3) as (segs & S1 & S2 & S3).
    exists js, rs, ps, segs. split; [exact HI|]. split; [exact Hch|]. split; [exact S1|]. split; [exact S2|].
    assert (Hps : concat ps = ws) by (rewrite P1; apply firstn_all).
    replace (length (concat ws)) with (0 + length (concat (concat ps))) by (rewrite Hps; reflexivity).
    apply (S3 _ [] []); auto.
    - rewrite Forall_forall in *. intros p Hp Hc.
      specialize (P4 p Hp). destruct p as [|w p]; [congruence|].
      cbn in Hc. apply app_eq_nil in Hc as [Hc _]. subst w.
      apply (Hne []); [|reflexivity]. rewrite <- Hps. apply in_concat. exists ([] :: p). split; [exact Hp|left; reflexivity].
    - rewrite app_nil_r, Hps. reflexivity.
  Qed.
End DP.
