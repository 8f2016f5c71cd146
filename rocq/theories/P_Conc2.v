(** Segment and Find while other goroutines call RemoveToken and CalcToken. *)
From Verif Require Import S_Conc S_Split S_Meta P_Utf8 P_Split P_Dict P_Seg P_Seg2 P_Hist P_Conc P_Local.
Set Implicit Arguments. Unset Strict Implicit.

(** *** A program is safe if, whatever dictionary satisfying [I] it sees at each step, it does not panic, returns only values in [Q], and its writes keep [I]. *)
Section Safe.
  Variable E : env.
  Variable I : dict E -> Prop.
  Fixpoint safe (A : Type) (Q : A -> Prop) (p : prog E A) : Prop :=
    match p with
    | Ret a => Q a
    | Crash | Stuck => False
    | Read f => forall d, I d -> safe Q (f d)
    | Write f p => (forall d, I d -> I (f d)) /\ safe Q p
    end.
  Lemma safe_bnd : forall A B (Q : A -> Prop) (R : B -> Prop) (p : prog E A) (k : A -> prog E B), safe Q p -> (forall a, Q a -> safe R (k a)) -> safe R (bnd p k).
  Proof. intros A B Q R p k. induction p as [a| | |f IH|f p IH]; cbn; intros Hp Hk; auto; try contradiction. destruct Hp. auto. Qed.
  Lemma safe_mono : forall A (Q R : A -> Prop) (p : prog E A), safe Q p -> (forall a, Q a -> R a) -> safe R p.
  Proof. intros A Q R p. induction p as [a| | |f IH|f p IH]; cbn; intros Hp Hk; auto. destruct Hp. auto. Qed.
  Lemma safe_local : forall A (Q : A -> Prop) r a, r = Ok a -> Q a -> safe Q (local E r).
  Proof. intros A Q r a -> H. exact H. Qed.
  Lemma safe_read : forall A (Q : A -> Prop) (f : dict E -> res A), (forall d, I d -> exists a, f d = Ok a /\ Q a) -> safe Q (read f).
  Proof. intros A Q f H d Hd. destruct (H d Hd) as (a & -> & Ha). exact Ha. Qed.

  (** *** The machine *)
  Variable Q : call E -> answer E -> Prop.
  Definition fine (ks : list (call E)) (m : dict E * list (prog E (answer E))) : Prop := I (fst m) /\ Forall2 (fun k p => safe (Q k) p) ks (snd m).
  Lemma F2_upd : forall A B (R : A -> B -> Prop) l l', Forall2 R l l' -> forall i x b, nth_error l i = Some x -> R x b -> Forall2 R l (upd l' i b).
  Proof.
    intros A B R l l' H. induction H as [|a b l l' Hab H IH]; intros [|i] x y Hi Hx; cbn in Hi; try discriminate; cbn [upd].
    - injection Hi as ->. constructor; assumption.
    - constructor; [assumption|]. eapply IH; eassumption.
  Qed.
  Lemma F2_nth2 : forall A B (R : A -> B -> Prop) l l', Forall2 R l l' -> forall i b, nth_error l' i = Some b -> exists a, nth_error l i = Some a /\ R a b.
  Proof. intros A B R l l' H. induction H; intros [|i] z Hz; try discriminate; cbn in *; [injection Hz as <-; eauto|eauto]. Qed.
  Lemma F2_nth1 : forall A B (R : A -> B -> Prop) l l', Forall2 R l l' -> forall i a, nth_error l i = Some a -> exists b, nth_error l' i = Some b /\ R a b.
  Proof. intros A B R l l' H. induction H; intros [|i] z Hz; try discriminate; cbn in *; [injection Hz as <-; eauto|eauto]. Qed.
  Lemma fine_step : forall ks j m, fine ks m -> fine ks (step j m).
  Proof.
    intros ks j [d ps] [H1 H2]. unfold step. cbn [fst snd] in *. destruct (nth_error ps j) as [p|] eqn:Hj; [|split; assumption]. destruct (F2_nth2 H2 Hj) as (k & Hk & Hs).
    destruct p as [a| | |f|f p]; cbn in Hs; try (split; assumption).
    - split; [exact H1|]. cbn [snd]. eapply F2_upd; [exact H2|exact Hk|]. apply Hs, H1.
    - destruct Hs as [Hs1 Hs2]. split; [apply Hs1, H1|]. cbn [snd]. eapply F2_upd; [exact H2|exact Hk|exact Hs2].
  Qed.
  Lemma fine_run : forall ks sched m, fine ks m -> fine ks (run sched m).
  Proof. intros ks. induction sched as [|j sched IH]; intros m H; [exact H|]. cbn [run]. apply IH, fine_step, H. Qed.

  Lemma step_other : forall i j (m : dict E * list (prog E (answer E))), i <> j -> nth_error (snd (step j m)) i = nth_error (snd m) i.
  Proof. intros i j [d ps] H. unfold step. cbn [fst snd]. destruct (nth_error ps j) as [[a| | |f|f p]|]; try reflexivity; cbn [snd]; apply nth_upd_neq; auto. Qed.
  (** The first steps of an infinite schedule. *)
  Definition first (s : nat -> nat) (n : nat) : list nat := map s (seq 0 n).
  Lemma first_S : forall s n, first s (S n) = s 0 :: first (fun k => s (S k)) n.
  Proof. intros s n. unfold first. cbn [seq map]. f_equal. rewrite <- seq_shift, map_map. reflexivity. Qed.
  Lemma ends : forall ks i k p, nth_error ks i = Some k -> forall s m, fine ks m -> nth_error (snd m) i = Some p -> (forall n, exists l, n <= l /\ s l = i) ->
    exists n a, nth_error (snd (run (first s n) m)) i = Some (Ret a) /\ Q k a.
  Proof.
    intros ks i k p Hk. induction p as [a| | |f IH|f p IH]; intros s m Hf Hp Hs.
    - exists 0, a. split; [exact Hp|]. destruct (F2_nth2 (proj2 Hf) Hp) as (k' & Hk' & Ha). assert (k' = k) by congruence. subst k'. exact Ha.
    - destruct (F2_nth2 (proj2 Hf) Hp) as (k' & _ & []).
    - destruct (F2_nth2 (proj2 Hf) Hp) as (k' & _ & []).
    - destruct (Hs 0) as (l & _ & Hl). revert s m Hf Hp Hs Hl. induction l as [|l IHl]; intros s m Hf Hp Hs Hl.
      + assert (Hs' : forall n, exists l, n <= l /\ s (S l) = i). { intro n. destruct (Hs (S n)) as ([|l] & L1 & L2); [lia|]. exists l. split; [lia|exact L2]. }
        destruct (IH (fst m) (fun k => s (S k)) (step (s 0) m) (fine_step _ Hf)) as (n & a & Ha); [|exact Hs'|exists (S n), a; rewrite first_S; exact Ha].
        rewrite Hl. unfold step. rewrite Hp. cbn [snd]. apply nth_upd_eq, nth_error_Some. congruence.
      + destruct (Nat.eq_dec (s 0) i) as [H0|H0].
        * assert (Hs' : forall n, exists l, n <= l /\ s (S l) = i). { intro n. destruct (Hs (S n)) as ([|l'] & L1 & L2); [lia|]. exists l'. split; [lia|exact L2]. }
          destruct (IH (fst m) (fun k => s (S k)) (step (s 0) m) (fine_step _ Hf)) as (n & a & Ha); [|exact Hs'|exists (S n), a; rewrite first_S; exact Ha].
          rewrite H0. unfold step. rewrite Hp. cbn [snd]. apply nth_upd_eq, nth_error_Some. congruence.
        * assert (Hs' : forall n, exists l, n <= l /\ s (S l) = i). { intro n. destruct (Hs (S n)) as ([|l'] & L1 & L2); [lia|]. exists l'. split; [lia|exact L2]. }
          destruct (IHl (fun k => s (S k)) (step (s 0) m) (fine_step _ Hf)) as (n & a & Ha); [rewrite step_other by auto; exact Hp|exact Hs'|exact Hl|exists (S n), a; rewrite first_S; exact Ha].
    - destruct (Hs 0) as (l & _ & Hl). revert s m Hf Hp Hs Hl. induction l as [|l IHl]; intros s m Hf Hp Hs Hl.
      + assert (Hs' : forall n, exists l, n <= l /\ s (S l) = i). { intro n. destruct (Hs (S n)) as ([|l] & L1 & L2); [lia|]. exists l. split; [lia|exact L2]. }
        destruct (IH (fun k => s (S k)) (step (s 0) m) (fine_step _ Hf)) as (n & a & Ha); [|exact Hs'|exists (S n), a; rewrite first_S; exact Ha].
        rewrite Hl. unfold step. rewrite Hp. cbn [snd]. apply nth_upd_eq, nth_error_Some. congruence.
      + destruct (Nat.eq_dec (s 0) i) as [H0|H0].
        * assert (Hs' : forall n, exists l, n <= l /\ s (S l) = i). { intro n. destruct (Hs (S n)) as ([|l'] & L1 & L2); [lia|]. exists l'. split; [lia|exact L2]. }
          destruct (IH (fun k => s (S k)) (step (s 0) m) (fine_step _ Hf)) as (n & a & Ha); [|exact Hs'|exists (S n), a; rewrite first_S; exact Ha].
          rewrite H0. unfold step. rewrite Hp. cbn [snd]. apply nth_upd_eq, nth_error_Some. congruence.
        * assert (Hs' : forall n, exists l, n <= l /\ s (S l) = i). { intro n. destruct (Hs (S n)) as ([|l'] & L1 & L2); [lia|]. exists l'. split; [lia|exact L2]. }
          destruct (IHl (fun k => s (S k)) (step (s 0) m) (fine_step _ Hf)) as (n & a & Ha); [rewrite step_other by auto; exact Hp|exact Hs'|exact Hl|exists (S n), a; rewrite first_S; exact Ha].
  Qed.
End Safe.

(** *** Tokens keep their text, frequency and tag; words only disappear. *)
Section Tiles.
  Variables (E : env) (c : cfg) (d0 : dict E).
  Hypothesis Hd : dict_ok c d0.
  Definition tfp (t : token E) : list bytes * f64 E * bytes := (t_text t, t_freq t, t_pos t).
  Definition less (d : dict E) : Prop :=
    (forall k v, t_get (d_trie d) k = Some v -> t_get (d_trie d0) k = Some v) /\ d_max d = d_max d0 /\ map tfp (d_tokens d) = map tfp (d_tokens d0).
  Lemma less_refl : less d0.
  Proof. unfold less. auto. Qed.
  Lemma map_nth_eq : forall A B (f : A -> B) l l' i x, map f l = map f l' -> nth_error l' i = Some x -> exists y, nth_error l i = Some y /\ f y = f x.
  Proof.
    intros A B f. induction l as [|a l IH]; intros [|a' l'] [|i] x H Hx; cbn in *; try discriminate; injection H as H1 H2; [injection Hx as <-; eauto|eauto].
  Qed.
  Lemma less_tok : forall d v t, less d -> nth_error (d_tokens d0) v = Some t -> exists t', nth_error (d_tokens d) v = Some t' /\ t_text t' = t_text t /\ t_freq t' = t_freq t /\ t_pos t' = t_pos t.
  Proof. intros d v t (_ & _ & H) Hv. destruct (map_nth_eq H Hv) as (t' & H1 & H2). unfold tfp in H2. exists t'. split; [exact H1|]. injection H2 as A B C. auto. Qed.
  Lemma less_len : forall d, less d -> length (d_tokens d) = length (d_tokens d0).
  Proof. intros d (_ & _ & H). apply (f_equal (@length _)) in H. rewrite !map_length in H. exact H. Qed.

  (** What a reference stands for; it never changes. *)
  Definition stands (r : tref) (w : list bytes) : Prop := exists t, deref d0 r = Ok t /\ t_text t = w.
  Lemma less_deref : forall d r w, less d -> stands r w -> exists t, deref d r = Ok t /\ t_text t = w.
  Proof.
    intros d [v|u] w Hl (t & H1 & H2); [|exists t; auto]. cbn in H1. unfold get in H1. destruct (nth_error (d_tokens d0) v) as [t0|] eqn:Hv; [|discriminate]. injection H1 as ->.
    destruct (less_tok Hl Hv) as (t' & X1 & X2 & _). exists t'. cbn. unfold get. rewrite X1. split; [reflexivity|congruence].
  Qed.

  Variable ws : list bytes.
  Hypothesis Hst : stable E c ws.
  Hypothesis Hne : Forall (fun w => w <> []) ws.
  Let n := length ws.
  Notation safe := (safe less).

  Definition good (cur v : nat) : Prop := exists j, cur < j <= n /\ stands (InDict v) (slice ws cur j).
  Lemma slice_all : forall A (l : list A), slice l 0 (length l) = l.
  Proof. intros A l. unfold slice. rewrite Nat.sub_0_r. apply firstn_all. Qed.
  Lemma get_good : forall d cur j v, less d -> cur < j <= n -> t_get (d_trie d) (concat (slice ws cur j)) = Some v -> stands (InDict v) (slice ws cur j).
  Proof.
    intros d cur j v (Hl & _) Hj Hg. apply Hl in Hg. destruct (ok_entry Hd Hg) as (t & Ht & Hs & _). exists t. cbn. unfold get. rewrite Ht. split; [reflexivity|].
    rewrite Hs. apply stable_slice; [exact Hst|lia|unfold n in *; lia].
  Qed.
  Lemma slice_S : forall A (l : list A) i j x, i <= j -> nth_error l j = Some x -> slice l i (S j) = slice l i j ++ [x].
  Proof.
    intros A l i j x Hij Hx. unfold slice. replace (S j - i) with (S (j - i)) by lia.
    assert (H : nth_error (skipn i l) (j - i) = Some x).
    { rewrite <- Hx. rewrite <- (firstn_skipn i l) at 2. assert (L : length (firstn i l) = i). { rewrite firstn_length. assert (j < length l) by (apply nth_error_Some; congruence). lia. }
      rewrite nth_error_app2 by lia. rewrite L. reflexivity. }
    revert H. generalize (j - i), (skipn i l). intros k. induction k as [|k IH]; intros [|y l'] H; try discriminate; cbn in *; [injection H as ->; reflexivity|].
    f_equal. apply IH, H.
  Qed.
  Lemma safe_lookup : forall cap cur tx done acc, cur <= done -> done + length tx <= n -> tx = slice ws done (done + length tx) -> length acc + length tx <= cap ->
    Forall (good cur) acc -> safe (Forall (good cur)) (lookup_p E cap tx (concat (slice ws cur done)) acc).
  Proof.
    intros cap cur tx. induction tx as [|w tx IH]; intros done acc H1 H2 H3 H4 H5; cbn [lookup_p]; [exact H5|].
    assert (Hw : nth_error ws done = Some w).
    { cbn [length] in H3, H2. unfold slice in H3. replace (done + S (length tx) - done) with (S (length tx)) in H3 by lia.
      rewrite <- (firstn_skipn done ws). rewrite nth_error_app2; rewrite firstn_length; [|lia]. unfold n in *. replace (done - Nat.min done (length ws)) with 0 by lia.
      destruct (skipn done ws); [discriminate|]. cbn in H3. injection H3 as -> _. reflexivity. }
    assert (Htx : tx = slice ws (S done) (S done + length tx)).
    { cbn [length] in H3, H2. unfold slice in *. replace (done + S (length tx) - done) with (S (length tx)) in H3 by lia. replace (S done + length tx - S done) with (length tx) by lia.
      assert (S1 : skipn done ws = w :: skipn (S done) ws). { clear -Hw. revert Hw. generalize done. induction ws as [|x l IHl]; intros [|k] Hk; try discriminate; cbn in *; [congruence|]. apply IHl, Hk. }
      rewrite S1 in H3. cbn in H3. injection H3 as H3. exact H3. }
    assert (Hid : concat (slice ws cur done) ++ w = concat (slice ws cur (S done))) by (rewrite (slice_S H1 Hw), concat_app; cbn; rewrite app_nil_r; reflexivity).
    cbn [length] in H2, H4. intros d1 L1. unfold t_jump. assert (Hw0 : w <> []) by (rewrite Forall_forall in Hne; apply Hne; eapply nth_error_In; exact Hw).
    destruct w as [|b w]; [congruence|]. set (w0 := b :: w) in *. destruct (t_path (d_trie d1) _); [|exact H5]. rewrite Hid.
    intros d2 L2. unfold t_value. destruct (t_get (d_trie d2) _) as [v|] eqn:Hg.
    - intros d3 L3. assert (Hv : stands (InDict v) (slice ws cur (S done))) by (eapply get_good; [exact L2|lia|exact Hg]).
      destruct Hv as (t & Hv1 & Hv2). cbn in Hv1. unfold get in Hv1. destruct (nth_error (d_tokens d0) v) as [t0|] eqn:Hn; [|discriminate]. injection Hv1 as ->.
      assert (Hlt : v < length (d_tokens d3)) by (rewrite (less_len L3); apply nth_error_Some; congruence).
      destruct (Nat.ltb_spec (length acc) cap); [|lia]. destruct (Nat.ltb_spec v (length (d_tokens d3))); [|lia]. cbn [andb].
      apply IH; try lia; [exact Htx|rewrite app_length; cbn; lia|]. apply Forall_app. split; [exact H5|]. constructor; [|constructor].
      exists (S done). split; [lia|]. exists t. cbn. unfold get. rewrite Hn. auto.
    - apply IH; try lia; assumption.
  Qed.

  (** Jumpers: a set one refers to a piece that ends there. *)
  Definition jok (l : nat) (j : jumper E) : Prop :=
    (snd j = None -> fst j = lit32 E 0 0) /\ (forall r, snd j = Some r -> exists i, i <= l /\ stands r (slice ws i (S l))).
  Definition jsok (js : list (jumper E)) : Prop := length js = n /\ forall l j, nth_error js l = Some j -> jok l j.
  Definition has (js : list (jumper E)) (l : nat) : Prop := exists x r, nth_error js l = Some (x, Some r).
  Lemma jok_update : forall l j b x r i, jok l j -> i <= l -> stands r (slice ws i (S l)) -> jok l (update_jumper j b x r) /\ snd (update_jumper j b x r) <> None.
  Proof.
    intros l j b x r i [H1 H2] Hi Hr. destruct (update_cases j b x r) as [->|[-> Hz]].
    - split; [|discriminate]. split; [discriminate|]. intros r' Hr'. cbn in Hr'. injection Hr' as <-. eauto.
    - split; [split; assumption|]. intro Hn. rewrite (H1 Hn), zero32_refl in Hz. discriminate.
  Qed.
  Lemma jsok_upd : forall js l b x r i j, jsok js -> nth_error js l = Some j -> i <= l -> stands r (slice ws i (S l)) ->
    jsok (upd js l (update_jumper j b x r)) /\ (forall k, has js k -> has (upd js l (update_jumper j b x r)) k) /\ has (upd js l (update_jumper j b x r)) l.
  Proof.
    intros js l b x r i j [H1 H2] Hl Hi Hr. destruct (jok_update (j := j) b x (H2 _ _ Hl) Hi Hr) as [J1 J2].
    assert (Hlt : l < length js) by (apply nth_error_Some; congruence).
    assert (Hh : has (upd js l (update_jumper j b x r)) l). { unfold has. rewrite nth_upd_eq by exact Hlt. destruct (update_jumper j b x r) as [y [r'|]]; [eauto|exfalso; apply J2; reflexivity]. }
    split; [|split; [|exact Hh]].
    - split; [rewrite upd_length; exact H1|]. intros k j' Hk. destruct (Nat.eq_dec l k) as [<-|Hn].
      + rewrite nth_upd_eq in Hk by exact Hlt. injection Hk as <-. exact J1.
      + rewrite nth_upd_neq in Hk by exact Hn. eapply H2; exact Hk.
    - intros k Hk. destruct (Nat.eq_dec l k) as [<-|Hn]; [exact Hh|]. unfold has in *. rewrite nth_upd_neq by exact Hn. exact Hk.
  Qed.
  Lemma stands_len : forall r i j, i <= j -> j <= n -> stands r (slice ws i j) -> forall d t, less d -> deref d r = Ok t -> length (t_text t) = j - i /\ t_text t = slice ws i j.
  Proof.
    intros r i j H1 H2 Hs d t Hl Ht. destruct (less_deref Hl Hs) as (t' & T1 & T2). assert (t' = t) by congruence. subst t'. split; [|exact T2].
    rewrite T2. apply slice_length. exact H2.
  Qed.
  Variable search : bool.
  Hypothesis Hsearch : search = true -> n <> 1.
  Definition after (js js' : list (jumper E)) : Prop := jsok js' /\ forall k, has js k -> has js' k.
  Lemma safe_update : forall cur b found js, cur < n -> Forall (good cur) found -> jsok js ->
    safe (fun js' => after js js' /\ forall v vs, found = v :: vs -> stands (InDict v) (slice ws cur (S cur)) -> has js' cur) (update_all_p search n cur b found js).
  Proof.
    intros cur b found. induction found as [|v vs IH]; intros js Hc Hg Hj; cbn [update_all_p].
    - split; [split; [exact Hj|auto]|discriminate].
    - inversion Hg as [|? ? (j & Hj1 & Hs) Hg']; subst. eapply safe_bnd with (Q := fun t => t_text t = slice ws cur j).
      + apply safe_read. intros d L. destruct (less_deref L Hs) as (t & T1 & T2). exists t. cbn in T1. auto.
      + intros t Ht. assert (Hlen : length (t_text t) = j - cur) by (rewrite Ht; apply slice_length; unfold n in *; lia).
        rewrite Hlen. replace (cur + (j - cur)) with j by lia. destruct j as [|l]; [lia|].
        destruct (negb search || negb (cur =? 0) || negb (S l =? n)) eqn:Eg.
        * destruct (nth_error js l) as [jl|] eqn:El; [|apply nth_error_None in El; destruct Hj as [Hj _]; lia].
          unfold get. rewrite El. cbn [local bnd].
          destruct (jsok_upd b (t_dist t) Hj El (i := cur) ltac:(lia) Hs) as (U1 & U2 & U3).
          eapply safe_mono; [apply IH; assumption|]. intros js' ((A1 & A2) & _). split; [split; [exact A1|auto]|].
          intros v' vs' Hv Hs'. injection Hv as <- <-. assert (l = cur).
          { destruct (stands_len (i := cur) (j := S cur) ltac:(lia) ltac:(lia) Hs' less_refl (t := match nth_error (d_tokens d0) v with Some t => t | None => t end)) as [X1 _].
            - destruct Hs' as (t' & X1 & _). cbn in *. unfold get in *. destruct (nth_error (d_tokens d0) v); [reflexivity|discriminate].
            - destruct (stands_len (i := cur) (j := S l) ltac:(lia) ltac:(lia) Hs less_refl (t := match nth_error (d_tokens d0) v with Some t => t | None => t end)) as [X2 _].
              + destruct Hs' as (t' & Y1 & _). cbn in *. unfold get in *. destruct (nth_error (d_tokens d0) v); [reflexivity|discriminate].
              + lia. }
          subst l. auto.
        * eapply safe_mono; [apply IH; assumption|]. intros js' ((A1 & A2) & _). split; [split; [exact A1|auto]|].
          intros v' vs' Hv Hs'. injection Hv as <- <-. exfalso.
          apply orb_false_iff in Eg as [Eg E3]. apply orb_false_iff in Eg as [E1 E2]. apply negb_false_iff in E1, E2, E3. apply Nat.eqb_eq in E2, E3.
          destruct Hs as (t1 & X1 & X2), Hs' as (t2 & Y1 & Y2). assert (t1 = t2) by congruence. subst t2. rewrite X2 in Y2.
          apply (f_equal (@length _)) in Y2. rewrite !slice_length in Y2 by (unfold n in *; lia). apply Hsearch in E1. lia.
  Qed.
  Lemma good_len : forall cur v d t, good cur v -> less d -> get (d_tokens d) v = Ok t -> (1 <? length (t_text t)) = false -> stands (InDict v) (slice ws cur (S cur)).
  Proof.
    intros cur v d t (j & Hj & Hs) Hl Ht Hlen. destruct (stands_len (i := cur) (j := j) ltac:(lia) ltac:(lia) Hs Hl (t := t) Ht) as [H _].
    apply Nat.ltb_ge in Hlen. assert (j = S cur) by lia. subst j. exact Hs.
  Qed.
  Lemma unit_slice : forall i w, nth_error ws i = Some w -> slice ws i (S i) = [w].
  Proof. intros i w H. rewrite (slice_S (le_n i) H). unfold slice. rewrite Nat.sub_diag. reflexivity. Qed.
  Lemma safe_step : forall cur js, cur < n -> jsok js -> safe (fun js' => after js js' /\ has js' cur) (seg_step_p (d_max d0) search ws cur js).
  Proof.
    intros cur js Hc Hj. unfold seg_step_p. fold n. eapply safe_bnd with (Q := fun _ => True).
    { destruct cur as [|p]; [exact I|]. destruct (nth_error js p) eqn:Ep; [|apply nth_error_None in Ep; destruct Hj as [Hj _]; lia]. unfold get. rewrite Ep. exact I. }
    intros b _. eapply safe_bnd with (Q := fun tx => exists m, cur + m <= n /\ m <= d_max d0 /\ tx = slice ws cur (cur + m)).
    { apply safe_read. intros d L. rewrite (proj1 (proj2 L)). exists (slice ws cur (Nat.min (cur + d_max d0) n)). split.
      - unfold gslice. fold n. destruct (Nat.leb_spec cur (Nat.min (cur + d_max d0) n)); [|lia]. destruct (Nat.leb_spec (Nat.min (cur + d_max d0) n) n); [|lia]. reflexivity.
      - exists (Nat.min (cur + d_max d0) n - cur). split; [lia|]. split; [lia|]. f_equal. lia. }
    intros tx (m & M1 & M2 & ->). assert (Hlen : length (slice ws cur (cur + m)) = m) by (rewrite slice_length by (unfold n in *; lia); lia).
    eapply safe_bnd with (Q := Forall (good cur)).
    { replace (@nil byte) with (concat (slice ws cur cur)) by (unfold slice; rewrite Nat.sub_diag; reflexivity).
      apply safe_lookup; rewrite ?Hlen; cbn [length]; try lia; [reflexivity|constructor]. }
    intros found Hf. eapply safe_bnd; [apply safe_update; eassumption|]. intros js' ((A1 & A2) & A3). cbn beta in A3.
    eapply safe_bnd with (Q := fun add : bool => add = true \/ has js' cur).
    { destruct found as [|v vs]; [left; reflexivity|]. apply safe_read. intros d L. inversion Hf as [|? ? Hv Hf']; subst. destruct Hv as (j & J1 & J2).
      destruct (less_deref L J2) as (t & T1 & T2). cbn in T1. rewrite T1. cbn [bind]. eexists. split; [reflexivity|].
      destruct (1 <? length (t_text t)) eqn:El; [auto|]. right. apply (A3 _ _ eq_refl). eapply good_len; [exists j; eauto|exact L|exact T1|exact El]. }
    intros add Hadd. destruct add.
    - destruct (nth_error ws cur) as [w|] eqn:Ew; [|apply nth_error_None in Ew; unfold n in *; lia]. unfold get. rewrite Ew. cbn [local bnd].
      destruct (nth_error js' cur) as [j|] eqn:Ej; [|apply nth_error_None in Ej; destruct A1 as [A1 _]; lia]. cbn [local bnd].
      destruct (jsok_upd (r := Fallback w) b (lit32 E 32 0) A1 Ej (i := cur) (le_n cur)) as (U1 & U2 & U3).
      { exists (fallback_token E w). split; [reflexivity|]. symmetry. apply (unit_slice Ew). }
      split; [split; [exact U1|auto]|exact U3].
    - destruct Hadd as [?|Hh]; [discriminate|]. split; [split; assumption|exact Hh].
  Qed.
  Lemma safe_forward : forall todo cur js, cur + todo = n -> jsok js -> (forall l, l < cur -> has js l) ->
    safe (fun js' => jsok js' /\ forall l, l < n -> has js' l) (seg_forward_p (d_max d0) search ws todo cur js).
  Proof.
    induction todo as [|k IH]; intros cur js Hn Hj Hh; cbn [seg_forward_p].
    - split; [exact Hj|]. intros l Hl. apply Hh. lia.
    - eapply safe_bnd; [apply safe_step; [lia|exact Hj]|]. intros js' ((A1 & A2) & A3). apply IH; [lia|exact A1|].
      intros l Hl. destruct (Nat.eq_dec l cur) as [->|]; [exact A3|]. apply A2, Hh. lia.
  Qed.
  Definition tiles (rs : list tref) (from : nat) : Prop := exists ps, Forall2 (fun p r => exists t, deref d0 r = Ok t /\ t_text t = p) ps rs /\ concat ps = slice ws from n /\ Forall (fun p => p <> []) ps.
  Lemma safe_back : forall js, jsok js -> (forall l, l < n -> has js l) -> forall idx1 fuel acc, idx1 <= n -> idx1 <= fuel -> tiles acc idx1 ->
    safe (fun rs => tiles rs 0) (seg_back_p fuel js idx1 acc).
  Proof.
    intros js Hj Hh idx1. induction idx1 as [k IH] using (well_founded_induction lt_wf). intros fuel acc Hk Hf Ht.
    destruct k as [|l]; [destruct fuel; exact Ht|]. destruct fuel as [|f]; [lia|]. cbn [seg_back_p].
    destruct (Hh l ltac:(lia)) as (x & r & Hl). unfold get. rewrite Hl. cbn [local bnd snd].
    destruct (proj2 (proj2 Hj _ _ Hl) r eq_refl) as (i & Hi & Hs).
    eapply safe_bnd with (Q := fun t => length (t_text t) = S l - i).
    { apply safe_read. intros d L. destruct (less_deref L Hs) as (t & T1 & T2). exists t. split; [exact T1|]. rewrite T2. apply slice_length. unfold n in *; lia. }
    intros t Hlen. rewrite Hlen. replace (S l - (S l - i)) with i by lia. apply IH; try lia.
    destruct Ht as (ps & P1 & P2 & P3). exists (slice ws i (S l) :: ps). split; [constructor; assumption|]. split.
    - cbn [concat]. rewrite P2. apply slice_app; lia.
    - constructor; [|exact P3]. intro Hz. apply (f_equal (@length _)) in Hz. rewrite slice_length in Hz by (unfold n in *; lia). cbn [length] in Hz. lia.
  Qed.
  Lemma safe_positions : forall rs ps pos, Forall2 (fun p r => exists t, deref d0 r = Ok t /\ t_text t = p) ps rs -> safe (fun segs => positions d0 pos rs = Ok segs) (positions_p E pos rs).
  Proof.
    induction rs as [|r rs IH]; intros ps pos H; cbn [positions_p positions]; [reflexivity|]. inversion H as [|p ? ps' ? (t & T1 & T2) Hrest]; subst.
    eapply safe_bnd with (Q := fun t' => t_text t' = t_text t).
    { apply safe_read. intros d L. destruct (less_deref (r := r) (w := t_text t) L) as (t' & X1 & X2); [exists t; eauto|]. eauto. }
    intros t' Ht'. eapply safe_bnd; [eapply IH; exact Hrest|]. intros segs Hs. cbn. cbn beta in Hs. rewrite T1. cbn [bind]. rewrite Ht' in *. rewrite Hs. reflexivity.
  Qed.
  Lemma safe_words : safe (fun l => covers d0 (concat ws) 0 (length (concat ws)) l) (segment_words_p E ws search).
  Proof.
    unfold segment_words_p. fold n. assert (Hb : search && (n =? 1) = false). { destruct search; [|reflexivity]. cbn. apply Nat.eqb_neq. apply Hsearch. reflexivity. } rewrite Hb.
    eapply safe_bnd with (Q := fun cap => cap = d_max d0). { apply safe_read. intros d L. exists (d_max d). split; [reflexivity|apply L]. }
    intros cap ->. eapply safe_bnd.
    { apply safe_forward; [lia| |intros l Hl; lia]. split; [apply repeat_length|]. intros l j Hl. apply nth_error_In, repeat_spec in Hl. subst j. split; [reflexivity|discriminate]. }
    intros js (J1 & J2). eapply safe_bnd.
    { apply safe_back; [exact J1|exact J2|lia|lia|]. exists []. split; [constructor|]. split; [unfold slice; rewrite Nat.sub_diag; reflexivity|constructor]. }
    intros rs (ps & P1 & P2 & P3). eapply safe_mono; [eapply safe_positions; exact P1|]. intros segs Hs. destruct (positions_spec (search := search) (ws := ws) Hsearch 0 P1) as (segs' & S1 & _ & S3).
    assert (segs' = segs) by (cbn beta in Hs; congruence). subst segs'. rewrite slice_all in P2. rewrite P2 in S3. apply (S3 _ [] []); [reflexivity| |rewrite app_nil_r; reflexivity].
    rewrite Forall_forall in *. intros p Hp Hz. destruct p as [|w p]; [apply (P3 _ Hp); reflexivity|]. cbn in Hz. apply app_eq_nil in Hz as [-> _].
    assert (In [] ws) by (rewrite <- P2; apply in_concat; exists ([] :: p); split; [exact Hp|left; reflexivity]). apply (Hne _ H). reflexivity.
  Qed.
End Tiles.

(** *** The calls *)
Section Calls.
  Variables (E : env) (c : cfg) (d0 : dict E).
  Hypothesis Hd : dict_ok c d0.
  Notation safe := (safe (less d0)).
  (** Find: what it finds in [d0], or nothing. *)
  Definition found_ok (w : bytes) (r : f64 E * bytes * bool) : Prop := dict_find d0 w = Ok r /\ dict_value d0 w <> None \/ fst r = (lit64 E 0 0, []).
  Lemma safe_find : forall w, safe (found_ok w) (find_p E w).
  Proof.
    intros w. unfold find_p. intros d1 L1. unfold t_jump. destruct w as [|b w].
    - intros d2 L2. unfold t_value. destruct (t_get (d_trie d2) []) as [v|] eqn:Hg; [|right; reflexivity]. apply (proj1 L2) in Hg.
      eapply safe_mono with (Q := fun r => dict_find d0 [] = Ok r); [|intros r Hr; left; split; [exact Hr|rewrite dict_value_get, Hg; discriminate]].
      apply safe_read. intros d3 L3. destruct (ok_entry Hd Hg) as (t & Ht & _). destruct (less_tok L3 Ht) as (t' & T1 & T2 & T3 & T4). unfold get at 1. rewrite T1. cbn [bind]. eexists. split; [reflexivity|].
      unfold dict_find, t_jump, t_value. rewrite Hg. unfold get. rewrite Ht, T3, T4. reflexivity.
    - set (w0 := b :: w). cbn [app]. destruct (t_path (d_trie d1) w0) eqn:Hp; [|right; reflexivity].
      intros d2 L2. unfold t_value. destruct (t_get (d_trie d2) w0) as [v|] eqn:Hg; [|right; reflexivity]. apply (proj1 L2) in Hg.
      eapply safe_mono with (Q := fun r => dict_find d0 w0 = Ok r); [|intros r Hr; left; split; [exact Hr|rewrite dict_value_get, Hg; discriminate]].
      apply safe_read. intros d3 L3. destruct (ok_entry Hd Hg) as (t & Ht & _). destruct (less_tok L3 Ht) as (t' & T1 & T2 & T3 & T4). unfold get at 1. rewrite T1. cbn [bind]. eexists. split; [reflexivity|].
      pose proof (t_path_key Hg) as Hpk. unfold w0 in Hg, Hpk |- *. unfold dict_find, t_jump, t_value. cbn [app]. rewrite Hpk, Hg. unfold get. rewrite Ht, T3, T4. reflexivity.
  Qed.
  Lemma safe_segment : forall s m, safe (fun l => (m = true /\ l = [] /\ length (wsplit E c s) = 1) \/ covers d0 (norm E c s) 0 (length s) l) (segment_p E c s m).
  Proof.
    intros s m. unfold segment_p. destruct s as [|b s]; [right; rewrite <- (split_concat E c []); constructor|]. set (s0 := b :: s). rewrite split_words_eq. cbn [local bnd].
    destruct (m && (length (wsplit E c s0) =? 1)) eqn:Hm.
    - unfold segment_words_p. rewrite Hm. left. apply andb_prop in Hm as [Hm1 Hm2]. apply Nat.eqb_eq in Hm2. auto.
    - eapply safe_mono; [apply safe_words with (c := c); [exact Hd|apply split_is_stable|apply split_nonempty|]|].
      + intros -> Hn. rewrite Hn in Hm. discriminate.
      + intros l Hl. right. rewrite split_concat in Hl. rewrite norm_length in Hl. exact Hl.
  Qed.
  Lemma less_delete : forall key d, less d0 d -> less d0 {| d_trie := match t_delete (q_drop E) (d_trie d) key with Some t => t | None => d_trie d end; d_max := d_max d; d_tokens := d_tokens d; d_total := d_total d |}.
  Proof.
    intros key d (L1 & L2 & L3). split; [|split; assumption]. cbn [d_trie]. intros k v Hk. apply L1. destruct (t_delete (q_drop E) (d_trie d) key) eqn:Hx; [|exact Hk].
    eapply t_delete_sub; eassumption.
  Qed.
  Lemma safe_remove : forall text, safe (fun _ => True) (seg_remove_token_p E c text).
  Proof.
    intros text. unfold seg_remove_token_p. rewrite split_words_eq. cbn [local bnd]. unfold remove_token_p. intros d1 L1. destruct (t_delete _ (d_trie d1) _); [|exact I].
    split; [apply less_delete|exact I].
  Qed.
  Lemma map_upd_same : forall A B (f : A -> B) l i x y, nth_error l i = Some x -> f y = f x -> map f (upd l i y) = map f l.
  Proof. intros A B f. induction l as [|a l IH]; intros [|i] x y Hi Hf; try discriminate; cbn in *; [injection Hi as ->; congruence|]. f_equal. eapply IH; eassumption. Qed.
  Lemma less_set : forall d i (g : token E -> token E), (forall t, tfp (g t) = tfp t) -> less d0 d ->
    less d0 (match nth_error (d_tokens d) i with Some t => set_tokens d (upd (d_tokens d) i (g t)) | None => d end).
  Proof.
    intros d i g Hg L. destruct (nth_error (d_tokens d) i) as [t|] eqn:Hi; [|exact L]. destruct L as (L1 & L2 & L3). split; [exact L1|]. split; [exact L2|]. cbn [set_tokens d_tokens].
    rewrite (map_upd_same Hi (Hg t)). exact L3.
  Qed.
  Lemma less_get : forall d i, less d0 d -> i < length (d_tokens d0) -> exists t0 t, nth_error (d_tokens d0) i = Some t0 /\ get (d_tokens d) i = Ok t /\ t_text t = t_text t0.
  Proof.
    intros d i L Hi. destruct (nth_error (d_tokens d0) i) as [t0|] eqn:H0; [|apply nth_error_None in H0; lia]. destruct (less_tok L H0) as (t & T1 & T2 & _).
    exists t0, t. unfold get. rewrite T1. auto.
  Qed.
  Lemma safe_dist : forall lt is, Forall (fun i => i < length (d_tokens d0)) is -> safe (fun _ => True) (calc_dist_p lt is).
  Proof.
    intros lt is. induction is as [|i is IH]; intros H; cbn [calc_dist_p]; [exact I|]. inversion H; subst. eapply safe_bnd with (Q := fun _ => True).
    - apply safe_read. intros d L. destruct (less_get L H2) as (t0 & t & _ & T & _). rewrite T. cbn. eauto.
    - intros f _. split; [|auto]. intros d L. apply less_set; [reflexivity|exact L].
  Qed.
  Lemma safe_keep : forall segs text a b, covers d0 text a b segs -> safe (fun _ => True) (keep_subs_p E segs).
  Proof.
    intros segs text a b H. induction H as [|from mid to s rest t H1 H2 H3 H4 H5 H6 IH]; cbn [keep_subs_p]; [exact I|].
    eapply safe_bnd with (Q := fun _ => True).
    - apply safe_read. intros d L. destruct (less_deref (r := sg_tok s) (w := t_text t) L) as (t' & T1 & _); [exists t; auto|]. eauto.
    - intros t' _. eapply safe_bnd; [exact IH|]. intros r _. exact I.
  Qed.
  Lemma safe_segs : forall is, Forall (fun i => i < length (d_tokens d0)) is -> safe (fun _ => True) (calc_segs_p E is).
  Proof.
    intros is. induction is as [|i is IH]; intros H; cbn [calc_segs_p]; [exact I|]. inversion H; subst. eapply safe_bnd with (Q := fun text => exists s, text = wsplit E c s).
    - apply safe_read. intros d L. destruct (less_get L H2) as (t0 & t & T0 & T & Tt). rewrite T. cbn. eexists. split; [reflexivity|].
      rewrite Tt. pose proof (ok_tokens Hd) as Hok. rewrite Forall_forall in Hok. apply Hok. eapply nth_error_In; exact T0.
    - intros text (s & ->). eapply safe_bnd with (Q := fun segs => exists text a b, covers d0 text a b segs).
      + destruct (length (wsplit E c s) =? 1) eqn:H1.
        * unfold segment_words_p. rewrite H1. exists [], 0, 0. constructor.
        * apply Nat.eqb_neq in H1. eapply safe_mono; [apply safe_words with (c := c); [exact Hd|apply split_is_stable|apply split_nonempty|auto]|]. intros l Hl. eauto.
      + intros segs (text & a & b & Hc). eapply safe_bnd; [eapply safe_keep; exact Hc|]. intros kept _. split; [|auto]. intros d L. apply less_set; [reflexivity|exact L].
  Qed.
  Lemma seq_lt : forall d, less d0 d -> Forall (fun i => i < length (d_tokens d0)) (seq 0 (length (d_tokens d))).
  Proof. intros d L. rewrite (less_len L). apply Forall_forall. intros i Hi. apply in_seq in Hi. lia. Qed.
  Lemma safe_calc : safe (fun _ => True) (calc_token_p E).
  Proof.
    unfold calc_token_p. intros d1 L1. intros d2 L2. eapply safe_bnd; [apply safe_dist, seq_lt, L2|]. intros _ _ d3 L3. apply safe_segs, seq_lt, L3.
  Qed.

  Definition call_ok (k : call E) (a : answer E) : Prop :=
    match k with
    | CSegment s m => exists l, a = ASegs l /\ ((m = true /\ l = [] /\ length (wsplit E c s) = 1) \/ covers d0 (norm E c s) 0 (length s) l)
    | CFind w => exists r, a = AFound r /\ found_ok w r
    | CRemove _ => exists e, a = ARemoved e
    | CCalc => a = ACalc
    | CAdd _ _ _ => False
    end.
  Definition no_add (k : call E) : Prop := match k with CAdd _ _ _ => False | _ => True end.
  Lemma safe_call : forall k, no_add k -> safe (call_ok k) (call_p c k).
  Proof.
    intros [s m|w|text freq pos|text|] Hk; cbn [call_p]; try contradiction.
    - eapply safe_bnd; [apply safe_segment|]. intros l Hl. exists l. auto.
    - eapply safe_bnd; [apply safe_find|]. intros r Hr. exists r. auto.
    - eapply safe_bnd; [apply safe_remove|]. intros e _. exists e. reflexivity.
    - eapply safe_bnd; [apply safe_calc|]. intros _ _. reflexivity.
  Qed.
  Lemma start_fine : forall ks, (forall k, In k ks -> no_add k) -> fine (less d0) call_ok ks (start c d0 ks).
  Proof.
    intros ks H. split; [apply less_refl|]. cbn [start snd]. induction ks as [|k ks IH]; [constructor|]. constructor; [apply safe_call, H; left; reflexivity|]. apply IH. intros k' Hk'. apply H. right. exact Hk'.
  Qed.
  Lemma conc_state : forall ks sched, (forall k, In k ks -> no_add k) -> let m := run sched (start c d0 ks) in
    less d0 (fst m) /\ forall i k, nth_error ks i = Some k -> exists p, nth_error (snd m) i = Some p /\ p <> Crash /\ p <> Stuck /\ forall a, p = Ret a -> call_ok k a.
  Proof.
    intros ks sched H m. pose proof (fine_run sched (start_fine H)) as [F1 F2]. fold m in F1, F2. split; [exact F1|].
    intros i k Hk. destruct (F2_nth1 F2 Hk) as (p & P1 & P2). exists p. split; [exact P1|]. repeat split; try (intros ->; contradiction). intros a ->. exact P2.
  Qed.
  Lemma conc_ends : forall ks i k s, (forall k, In k ks -> no_add k) -> nth_error ks i = Some k -> (forall n, exists l, n <= l /\ s l = i) ->
    exists n a, nth_error (snd (run (first s n) (start c d0 ks))) i = Some (Ret a) /\ call_ok k a.
  Proof.
    intros ks i k s H Hk Hs. eapply ends; [exact Hk|apply start_fine, H| |exact Hs]. cbn. apply map_nth_error. exact Hk.
  Qed.
End Calls.

(** *** Removals of words that do not occur in the text *)
Section Quiet.
  Variables (E : env) (c : cfg) (d0 : dict E) (txt : bytes).
  Hypothesis Hd : dict_ok c d0.
  Definition quiet (d : dict E) : Prop :=
    (forall k v, t_get (d_trie d) k = Some v -> t_get (d_trie d0) k = Some v) /\ (forall k, occurs k txt -> t_get (d_trie d) k = t_get (d_trie d0) k) /\
    d_max d = d_max d0 /\ d_tokens d = d_tokens d0.
  Lemma quiet_less : forall d, quiet d -> less d0 d.
  Proof. intros d (H1 & _ & H3 & H4). split; [exact H1|]. split; [exact H3|]. rewrite H4. reflexivity. Qed.
  Lemma quiet_refl : quiet d0.
  Proof. unfold quiet. auto. Qed.
  Lemma ro_safe : forall A (Q : A -> Prop) (p : prog E A), ro p -> safe (less d0) Q p -> safe quiet Q p.
  Proof. intros A Q p. induction p as [a| | |f IH|f p IH]; cbn; intros Hr Hs; auto; [|contradiction]. intros d Hq. apply IH; [apply Hr|apply Hs, quiet_less, Hq]. Qed.
  Notation safe := (safe quiet).
  Definition same (A : Type) (p : prog E A) : Prop := forall a, rv d0 p = Ok a -> safe (eq a) p.
  Lemma same_bnd : forall A B (p : prog E A) (k : A -> prog E B), ro p -> same p -> (forall a, rv d0 p = Ok a -> same (k a)) -> same (bnd p k).
  Proof.
    intros A B p k Hr Hp Hk b Hb. rewrite rv_bnd in Hb by exact Hr. destruct (rv d0 p) as [a| |] eqn:Ha; try discriminate. cbn [bind] in Hb.
    eapply safe_bnd; [apply Hp; exact Ha|]. intros a' <-. eapply Hk; [reflexivity|exact Hb].
  Qed.
  Lemma same_local : forall A (r : res A), same (local E r).
  Proof. intros A [a| |] b Hb; rewrite rv_local in Hb; try discriminate. injection Hb as <-. reflexivity. Qed.
  Lemma same_read : forall A (f : dict E -> res A), (forall d, quiet d -> f d = f d0) -> same (read f).
  Proof. intros A f H a Ha. rewrite rv_read in Ha. intros d Hq. cbn. rewrite (H d Hq), Ha. reflexivity. Qed.
  Lemma same_ret : forall A (a : A), same (Ret (E := E) a).
  Proof. intros A a b Hb. cbn in *. unfold rv in Hb. cbn in Hb. congruence. Qed.
  Lemma lookup_none : forall cap tx id acc, Forall (fun w => w <> []) tx -> (forall k, 1 <= k <= length tx -> t_get (d_trie d0) (id ++ concat (firstn k tx)) = None) -> lookup d0 cap tx id acc = Ok acc.
  Proof.
    intros cap tx. induction tx as [|w tx IH]; intros id acc Hne H; [reflexivity|]. inversion Hne; subst. cbn [lookup]. unfold t_jump. destruct w as [|b w]; [congruence|]. set (w0 := b :: w) in *.
    destruct (t_path (d_trie d0) (id ++ w0)); [|reflexivity]. unfold t_value. pose proof (H 1 ltac:(cbn; lia)) as K. cbn [firstn concat] in K. rewrite app_nil_r in K. rewrite K.
    apply IH; [assumption|]. intros k Hk. specialize (H (S k) ltac:(cbn; lia)). cbn [firstn concat] in H. rewrite app_assoc in H. exact H.
  Qed.
  Lemma same_lookup : forall cap tx id acc, Forall (fun w => w <> []) tx -> (forall k, k <= length tx -> occurs (id ++ concat (firstn k tx)) txt) -> same (lookup_p E cap tx id acc).
  Proof.
    intros cap tx. induction tx as [|w tx IH]; intros id acc Hne H a Ha; [apply same_ret; exact Ha|]. rewrite rv_lookup in Ha. inversion Hne; subst. cbn [lookup_p].
    assert (H' : forall k, k <= length tx -> occurs ((id ++ w) ++ concat (firstn k tx)) txt).
    { intros k Hk. specialize (H (S k) ltac:(cbn; lia)). cbn [firstn concat] in H. rewrite app_assoc in H. exact H. }
    intros d1 L1. unfold t_jump. destruct w as [|b w]; [congruence|]. set (w0 := b :: w) in *. destruct (t_path (d_trie d1) (id ++ w0)) eqn:Hp.
    - assert (Hp0 : t_path (d_trie d0) (id ++ w0) = true).
      { apply t_path_spec. apply t_path_spec in Hp as [Hp|(k & v & Hk & Hx)]; [auto|]. right. exists k, v. split; [apply (proj1 L1), Hk|exact Hx]. }
      intros d2 L2. cbn [lookup] in Ha. replace (t_jump (d_trie d0) w0 id) with (Some (id ++ w0)) in Ha by (unfold t_jump; unfold w0 at 2; rewrite Hp0; reflexivity). unfold t_value in Ha |- *.
      assert (Ho : occurs (id ++ w0) txt) by (specialize (H' 0 ltac:(lia)); cbn in H'; rewrite app_nil_r in H'; exact H').
      rewrite (proj1 (proj2 L2) _ Ho). destruct (t_get (d_trie d0) (id ++ w0)) as [v|]; [|eapply IH; [assumption|exact H'|rewrite rv_lookup; exact Ha]].
      intros d3 L3. rewrite (proj2 (proj2 (proj2 L3))). destruct (_ && _); [|discriminate]. eapply IH; [assumption|exact H'|rewrite rv_lookup; exact Ha].
    - rewrite lookup_none in Ha; [injection Ha as <-; reflexivity|exact Hne|]. intros k Hk. rewrite <- (proj1 (proj2 L1)) by (apply H; lia).
      destruct (t_get (d_trie d1) _) eqn:Hg; [|reflexivity]. exfalso. apply t_path_key in Hg. destruct k as [|k]; [lia|]. cbn [firstn concat] in Hg. rewrite app_assoc in Hg.
      apply t_path_prefix in Hg. congruence.
  Qed.
  Lemma same_tok : forall A (f : list (token E) -> res A), same (read (fun d => f (d_tokens d))).
  Proof. intros A f. apply same_read. intros d L. rewrite (proj2 (proj2 (proj2 L))). reflexivity. Qed.
  Lemma same_update : forall search n cur b found js, same (update_all_p (E := E) search n cur b found js).
  Proof.
    intros search n cur b. induction found as [|v vs IH]; intros js; cbn [update_all_p]; [apply same_ret|]. apply same_bnd; [apply ro_read|apply (@same_tok _ (fun l => get l v))|].
    intros t _. destruct (cur + length (t_text t)) as [|l]; [intros a Ha; discriminate|]. destruct (_ || _); [|apply IH]. apply same_bnd; [apply ro_local|apply same_local|]. intros j _. apply IH.
  Qed.
  Variable ws : list bytes.
  Hypothesis Hne : Forall (fun w => w <> []) ws.
  Hypothesis Hws : concat ws = txt.
  Lemma slice_occurs : forall i j k, occurs (concat (firstn k (slice ws i j))) txt.
  Proof.
    intros i j k. rewrite <- Hws. exists (concat (firstn i ws)), (concat (skipn k (slice ws i j)) ++ concat (skipn (j - i) (skipn i ws))).
    rewrite <- (firstn_skipn i ws) at 1. rewrite concat_app. f_equal. rewrite <- (firstn_skipn (j - i) (skipn i ws)) at 1. rewrite concat_app. fold (slice ws i j).
    rewrite app_assoc. f_equal. rewrite <- concat_app, firstn_skipn. reflexivity.
  Qed.
  Lemma slice_ne : forall i j, Forall (fun w => w <> []) (slice ws i j).
  Proof. intros i j. unfold slice. apply Forall_forall. intros w Hw. rewrite Forall_forall in Hne. apply Hne. rewrite <- (firstn_skipn i ws). apply in_or_app. right. rewrite <- (firstn_skipn (j - i) (skipn i ws)). apply in_or_app. left. exact Hw. Qed.
  Lemma same_step : forall search cur js, same (seg_step_p (d_max d0) search ws cur js).
  Proof.
    intros. unfold seg_step_p. apply same_bnd; [apply ro_local|apply same_local|]. intros b _.
    apply same_bnd; [apply ro_read|apply same_read; intros d L; rewrite (proj1 (proj2 (proj2 L))); reflexivity|]. intros tx Htx. rewrite rv_read in Htx. unfold gslice in Htx.
    destruct (_ && _); [|discriminate]. injection Htx as <-.
    apply same_bnd; [apply ro_lookup|apply same_lookup; [apply slice_ne|intros k _; apply slice_occurs]|].
    intros found _. apply same_bnd; [apply ro_update|apply same_update|]. intros js' _. apply same_bnd; [destruct found; [exact I|apply ro_read]| |].
    { destruct found as [|v vs]; [apply same_ret|apply (@same_tok _ (fun l => do t <- get l v ; Ok (1 <? length (t_text t))))]. }
    intros [|] _; [|apply same_ret]. apply same_bnd; [apply ro_local|apply same_local|]. intros w _. apply same_bnd; [apply ro_local|apply same_local|]. intros j _. apply same_ret.
  Qed.
  Lemma same_forward : forall search k cur js, same (seg_forward_p (d_max d0) search ws k cur js).
  Proof. intros search k. induction k as [|k IH]; intros cur js; cbn [seg_forward_p]; [apply same_ret|]. apply same_bnd; [apply ro_step|apply same_step|]. intros js' _. apply IH. Qed.
  Lemma same_deref : forall r, same (read (fun d : dict E => deref d r)).
  Proof. intro r. apply same_read. intros d L. destruct r; [cbn; rewrite (proj2 (proj2 (proj2 L))); reflexivity|reflexivity]. Qed.
  Lemma same_back : forall js fuel i acc, same (seg_back_p (E := E) fuel js i acc).
  Proof.
    intros js. induction fuel as [|f IH]; intros [|i] acc; cbn [seg_back_p]; try apply same_ret; [intros a Ha; discriminate|]. apply same_bnd; [apply ro_local|apply same_local|].
    intros j _. destruct (snd j) as [r|]; [|intros a Ha; discriminate]. apply same_bnd; [apply ro_read|apply same_deref|]. intros t _. apply IH.
  Qed.
  Lemma same_positions : forall rs p, same (positions_p E p rs).
  Proof.
    induction rs as [|r rs IH]; intros p; cbn [positions_p]; [apply same_ret|]. apply same_bnd; [apply ro_read|apply same_deref|]. intros t _.
    apply same_bnd; [apply ro_positions|apply IH|]. intros rest _. apply same_ret.
  Qed.
  Lemma same_words : forall search, same (segment_words_p E ws search).
  Proof.
    intros search. unfold segment_words_p. destruct (search && _); [apply same_ret|]. apply same_bnd; [apply ro_read|apply same_read; intros d L; rewrite (proj1 (proj2 (proj2 L))); reflexivity|].
    intros cap Hcap. rewrite rv_read in Hcap. injection Hcap as <-. apply same_bnd; [apply ro_forward|apply same_forward|]. intros js _. apply same_bnd; [apply ro_back|apply same_back|]. intros rs _. apply same_positions.
  Qed.
End Quiet.

Section QuietCalls.
  Variables (E : env) (c : cfg) (d0 : dict E) (txt : bytes).
  Hypothesis Hd : dict_ok c d0.
  Notation I := (quiet d0 txt).
  Definition quiet_call (k : call E) : Prop :=
    match k with CSegment _ _ | CFind _ => True | CRemove text => ~ occurs (norm E c text) txt | _ => False end.
  Definition quiet_ok (k : call E) (a : answer E) : Prop :=
    match k with
    | CSegment s m => norm E c s = txt -> alone c d0 k = Ok (d0, a)
    | CFind w => w = txt -> dict_value d0 w <> None -> alone c d0 k = Ok (d0, a)
    | _ => True
    end.
  Lemma same_segment : forall s m, norm E c s = txt -> same d0 txt (segment_p E c s m).
  Proof.
    intros s m Ht. unfold segment_p. destruct s as [|b s'] eqn:Es; [apply same_ret|]. rewrite <- Es in *. apply same_bnd; [apply ro_local|apply same_local|].
    intros ws Hws. rewrite rv_local, split_words_eq in Hws. injection Hws as <-. apply same_words; [apply split_nonempty|rewrite split_concat; exact Ht].
  Qed.
  Lemma same_find : dict_value d0 txt <> None -> same d0 txt (find_p E txt).
  Proof.
    intros Hv a Ha. rewrite rv_find in Ha. rewrite dict_value_get in Hv. destruct (t_get (d_trie d0) txt) as [v|] eqn:Hg; [|congruence]. clear Hv.
    assert (Ho : occurs txt txt) by (exists [], []; rewrite app_nil_r; reflexivity).
    assert (HG : forall d, I d -> t_get (d_trie d) txt = Some v) by (intros d L; rewrite (proj1 (proj2 L)) by exact Ho; exact Hg).
    assert (HJ : forall d, I d -> t_jump (d_trie d) txt [] = Some txt).
    { intros d L. pose proof (t_path_key (HG d L)) as Hp. unfold t_jump. destruct txt as [|b w]; [reflexivity|]. cbn [app]. rewrite Hp. reflexivity. }
    unfold find_p. intros d1 L1. rewrite (HJ _ L1). intros d2 L2. unfold t_value. rewrite (HG _ L2). intros d3 L3. rewrite (proj2 (proj2 (proj2 L3))).
    unfold dict_find in Ha. rewrite (HJ _ (quiet_refl d0 txt)) in Ha. unfold t_value in Ha. rewrite Hg in Ha. rewrite Ha. reflexivity.
  Qed.
  Lemma quiet_delete : forall text d, ~ occurs (norm E c text) txt -> I d ->
    I {| d_trie := match t_delete (q_drop E) (d_trie d) (norm E c text) with Some t => t | None => d_trie d end; d_max := d_max d; d_tokens := d_tokens d; d_total := d_total d |}.
  Proof.
    intros text d Ho (L1 & L2 & L3 & L4). destruct (t_delete (q_drop E) (d_trie d) (norm E c text)) as [t|] eqn:Hx; [|split; [exact L1|split; [exact L2|split; assumption]]].
    split; [|split; [|split; assumption]]; cbn [d_trie].
    - intros k v Hk. apply L1. eapply t_delete_sub; eassumption.
    - intros k Hk. rewrite <- L2 by exact Hk. rewrite (t_delete_get k Hx). destruct (t_get (d_trie d) (norm E c text)).
      + destruct (beqb k (norm E c text)) eqn:Hb; [|reflexivity]. apply beqb_eq in Hb. subst k. contradiction.
      + destruct (q_drop E && is_prefix (norm E c text) k) eqn:Hb; [|reflexivity]. apply andb_prop in Hb as [_ Hb]. exfalso. apply Ho. apply is_prefix_spec in Hb as [x ->].
        eapply occurs_trans; [|exact Hk]. exists [], x. reflexivity.
  Qed.
  Lemma quiet_safe : forall k, quiet_call k -> (forall s' m, k = CSegment s' m -> exists l, internal_segment c (Some d0) s' m = Ok l) -> safe I (quiet_ok k) (call_p c k).
  Proof.
    intros [s' m|w|text freq pos|text|] Hk Hok; cbn [call_p]; try contradiction.
    - destruct (Hok _ _ eq_refl) as (l & Hl). destruct (list_eq_dec Byte.byte_eq_dec (norm E c s') txt) as [Ht|Hn].
      + eapply safe_bnd; [apply (same_segment Ht); rewrite rv_segment; exact Hl|]. intros l' <- _. cbn [alone]. rewrite Hl. reflexivity.
      + eapply safe_bnd; [apply ro_safe; [apply ro_segment|apply (safe_segment Hd)]|]. intros l' _ K. contradiction.
    - destruct (list_eq_dec Byte.byte_eq_dec w txt) as [->|Hn]; [destruct (dict_value d0 txt) as [v|] eqn:Hv|].
      + assert (Hx : exists r, dict_find d0 txt = Ok r).
        { destruct (ok_entry Hd (k := txt) (v := v)) as (t & Ht & _); [rewrite <- dict_value_get; exact Hv|]. unfold dict_value in Hv. unfold dict_find.
          destruct (t_jump (d_trie d0) txt []); [|discriminate]. rewrite Hv. unfold get. rewrite Ht. cbn. eauto. }
        destruct Hx as (r & Hr). eapply safe_bnd; [apply same_find; [congruence|rewrite rv_find; exact Hr]|]. intros r' <- _ _. cbn [alone]. rewrite Hr. reflexivity.
      + eapply safe_bnd; [apply ro_safe; [apply ro_find|apply (safe_find Hd)]|]. intros l' _ _ K. contradiction.
      + eapply safe_bnd; [apply ro_safe; [apply ro_find|apply (safe_find Hd)]|]. intros l' _ K. contradiction.
    - eapply safe_bnd with (Q := fun _ => True); [|intros; exact Logic.I]. unfold seg_remove_token_p. rewrite split_words_eq. cbn [local bnd]. unfold remove_token_p, text_bytes. rewrite split_concat.
      intros d1 L1. destruct (t_delete _ (d_trie d1) _); [|exact Logic.I]. split; [|exact Logic.I]. intros d L. apply quiet_delete; assumption.
  Qed.
  Lemma quiet_fine : forall ks, (forall k, In k ks -> quiet_call k) -> (forall s' m, exists l, internal_segment c (Some d0) s' m = Ok l) -> fine I quiet_ok ks (start c d0 ks).
  Proof.
    intros ks H Hok. split; [apply quiet_refl|]. cbn [start snd]. induction ks as [|k ks IH]; [constructor|]. constructor; [apply quiet_safe; [apply H; left; reflexivity|intros s' m _; apply Hok]|].
    apply IH. intros k' Hk'. apply H. right. exact Hk'.
  Qed.
  Lemma quiet_state : forall ks sched i k a, (forall k, In k ks -> quiet_call k) -> (forall s' m, exists l, internal_segment c (Some d0) s' m = Ok l) ->
    nth_error ks i = Some k -> nth_error (snd (run sched (start c d0 ks))) i = Some (Ret a) -> quiet_ok k a.
  Proof.
    intros ks sched i k a H Hok Hk Hi. destruct (fine_run sched (quiet_fine H Hok)) as [_ F]. destruct (F2_nth1 F Hk) as (p & P1 & P2). rewrite Hi in P1. injection P1 as <-. exact P2.
  Qed.
End QuietCalls.

(** *** What the writes of a program do to the words *)
Section Writes.
  Variables (E : env) (R : dict E -> dict E -> Prop).
  Hypothesis Rr : forall d, R d d.
  Hypothesis Rt : forall a b d, R a b -> R b d -> R a d.
  Fixpoint writes (A : Type) (p : prog E A) : Prop :=
    match p with Ret _ | Crash | Stuck => True | Read f => forall d, writes (f d) | Write f p => (forall d, R d (f d)) /\ writes p end.
  Lemma writes_bnd : forall A B (p : prog E A) (k : A -> prog E B), writes p -> (forall a, writes (k a)) -> writes (bnd p k).
  Proof. intros A B p k. induction p as [a| | |f IH|f p IH]; cbn; intros Hp Hk; auto. destruct Hp. auto. Qed.
  Lemma writes_ro : forall A (p : prog E A), ro p -> writes p.
  Proof. intros A p. induction p as [a| | |f IH|f p IH]; cbn; intros Hp; auto. contradiction. Qed.
  Lemma writes_step : forall j (m : dict E * list (prog E (answer E))), Forall (@writes _) (snd m) -> R (fst m) (fst (step j m)) /\ Forall (@writes _) (snd (step j m)).
  Proof.
    intros j [d ps] H. unfold step. cbn [fst snd] in *. destruct (nth_error ps j) as [p|] eqn:Hj; [|auto]. assert (Hp : writes p) by (rewrite Forall_forall in H; apply H; eapply nth_error_In; exact Hj).
    assert (U : forall q, writes q -> Forall (@writes _) (upd ps j q)).
    { intros q Hq. clear -H Hq. revert j. induction H as [|x l Hx H IH]; intros [|j]; cbn [upd]; try constructor; auto. }
    destruct p as [a| | |f|f p]; cbn [fst snd]; auto. cbn in Hp. destruct Hp. auto.
  Qed.
  Lemma writes_run : forall sched (m : dict E * list (prog E (answer E))), Forall (@writes _) (snd m) -> R (fst m) (fst (run sched m)) /\ Forall (@writes _) (snd (run sched m)).
  Proof.
    induction sched as [|j sched IH]; intros m H; [auto|]. cbn [run]. destruct (writes_step j H) as [H1 H2]. destruct (IH _ H2) as [H3 H4]. split; [eapply Rt; eassumption|exact H4].
  Qed.
End Writes.
Section Removed.
  Variables (E : env) (c : cfg) (ks : list (call E)).
  Hypothesis Hks : forall k, In k ks -> no_add k.
  Definition shrink (d d' : dict E) : Prop :=
    (forall k v, t_get (d_trie d') k = Some v -> t_get (d_trie d) k = Some v) /\
    (forall k, (forall text, In (CRemove text) ks -> ~ exists x, k = norm E c text ++ x) -> t_get (d_trie d') k = t_get (d_trie d) k) /\ d_total d' = d_total d.
  Lemma shrink_refl : forall d, shrink d d.
  Proof. unfold shrink. auto. Qed.
  Lemma shrink_trans : forall a b d, shrink a b -> shrink b d -> shrink a d.
  Proof. intros a b d (A1 & A2 & A3) (B1 & B2 & B3). split; [auto|]. split; [|congruence]. intros k Hk. rewrite B2, A2 by exact Hk. reflexivity. Qed.
  Lemma shrink_set : forall d i (g : token E -> token E), shrink d (match nth_error (d_tokens d) i with Some t => set_tokens d (upd (d_tokens d) i (g t)) | None => d end).
  Proof. intros d i g. destruct (nth_error (d_tokens d) i); [|apply shrink_refl]. unfold shrink. cbn. auto. Qed.
  Lemma ro_keep : forall l, ro (keep_subs_p E l).
  Proof. induction l as [|s l IH]; [exact I|]. cbn [keep_subs_p]. apply ro_bnd; [apply ro_read|]. intro t. apply ro_bnd; [exact IH|]. intro r. exact I. Qed.
  Lemma writes_dist : forall lt is, writes shrink (calc_dist_p (E := E) lt is).
  Proof. intros lt is. induction is as [|i is IH]; [exact I|]. cbn [calc_dist_p]. apply writes_bnd; [apply writes_ro, ro_read|]. intro f. split; [intro d; apply shrink_set|exact IH]. Qed.
  Lemma writes_segs : forall is, writes shrink (calc_segs_p E is).
  Proof.
    intros is. induction is as [|i is IH]; [exact I|]. cbn [calc_segs_p]. apply writes_bnd; [apply writes_ro, ro_read|]. intro t. apply writes_bnd; [apply writes_ro, ro_segment_words|].
    intro l. apply writes_bnd; [apply writes_ro, ro_keep|]. intro l'. split; [intro d; apply shrink_set|exact IH].
  Qed.
  Lemma writes_call : forall k, In k ks -> writes shrink (call_p c k).
  Proof.
    intros k Hin. pose proof (Hks Hin) as Hk. destruct k as [s m|w|text freq pos|text|]; cbn [call_p]; try contradiction.
    - apply writes_ro, ro_bnd; [apply ro_segment|]. intro; exact I.
    - apply writes_ro, ro_bnd; [apply ro_find|]. intro; exact I.
    - apply writes_bnd; [|intro; exact I]. unfold seg_remove_token_p. rewrite split_words_eq. cbn [local bnd]. unfold remove_token_p, text_bytes. rewrite split_concat. intro d1.
      destruct (t_delete _ (d_trie d1) _); [|exact I]. split; [|exact I]. intro d. destruct (t_delete (q_drop E) (d_trie d) (norm E c text)) as [t0|] eqn:Hx; [|unfold shrink; cbn; auto].
      split; [|split; [|reflexivity]]; cbn [d_trie].
      + intros k v Hg. eapply t_delete_sub; eassumption.
      + intros k Hno. rewrite (t_delete_get k Hx). specialize (Hno _ Hin). destruct (t_get (d_trie d) (norm E c text)).
        * destruct (beqb k (norm E c text)) eqn:Hb; [|reflexivity]. apply beqb_eq in Hb. subst k. exfalso. apply Hno. exists []. rewrite app_nil_r. reflexivity.
        * destruct (q_drop E && is_prefix (norm E c text) k) eqn:Hb; [|reflexivity]. apply andb_prop in Hb as [_ Hb]. exfalso. apply Hno. apply is_prefix_spec in Hb. exact Hb.
    - apply writes_bnd; [|intro; exact I]. unfold calc_token_p. intros d1 d2. apply writes_bnd; [apply writes_dist|]. intros _ d3. apply writes_segs.
  Qed.
  Lemma start_writes : forall d, Forall (@writes E shrink _) (snd (start c d ks)).
  Proof. intro d. cbn [start snd]. apply Forall_map. apply Forall_forall. apply writes_call. Qed.
  (** A goroutine that removes a word and where it is. *)
  Definition removing (text : bytes) (d : dict E) (p : prog E (answer E)) : Prop :=
    p = call_p c (CRemove text) \/
    p = Write (fun d => {| d_trie := match t_delete (q_drop E) (d_trie d) (norm E c text) with Some t => t | None => d_trie d end; d_max := d_max d; d_tokens := d_tokens d; d_total := d_total d |}) (Ret (ARemoved false)) \/
    (t_get (d_trie d) (norm E c text) = None /\ exists e, p = Ret (ARemoved e)).
  Lemma delete_gone : forall drop t k t', t_delete drop t k = Some t' -> t_get t' k = None.
  Proof.
    intros drop t k t' H. rewrite (t_delete_get k H). destruct (t_get t k) eqn:Hg; [rewrite beqb_refl; reflexivity|]. destruct (drop && is_prefix k k); [reflexivity|]. reflexivity.
  Qed.
  Lemma delete_none : forall drop t k, t_delete drop t k = None -> t_get t k = None.
  Proof.
    intros drop t k H. destruct (t_get t k) eqn:Hg; [|reflexivity]. unfold t_delete in H. rewrite (t_path_key Hg), Hg in H. discriminate.
  Qed.
  Lemma gone_run : forall text i sched (m : dict E * list (prog E (answer E))), Forall (@writes E shrink _) (snd m) ->
    (exists p, nth_error (snd m) i = Some p /\ removing text (fst m) p) -> exists p, nth_error (snd (run sched m)) i = Some p /\ removing text (fst (run sched m)) p.
  Proof.
    intros text i sched. induction sched as [|j sched IH]; intros m Hw Hm; [exact Hm|]. cbn [run]. destruct (writes_step shrink_refl j Hw) as [Hs Hw']. apply IH; [exact Hw'|]. clear IH sched.
    destruct Hm as (p & Hp & Hr). destruct (Nat.eq_dec i j) as [<-|Hn].
    - assert (Hlt : i < length (snd m)) by (apply nth_error_Some; congruence). destruct Hr as [->|[->|(H1 & e & ->)]].
      + unfold step. rewrite Hp. cbn [call_p]. unfold seg_remove_token_p. rewrite split_words_eq. cbn [local bnd]. unfold remove_token_p, text_bytes. rewrite split_concat. cbn [bnd fst snd].
        rewrite nth_upd_eq by exact Hlt. eexists. split; [reflexivity|]. destruct (t_delete _ (d_trie (fst m)) _) eqn:Hx; [right; left; reflexivity|].
        right. right. split; [eapply delete_none; exact Hx|]. cbn [bnd]. eauto.
      + unfold step. rewrite Hp. cbn [fst snd d_trie]. rewrite nth_upd_eq by exact Hlt. eexists. split; [reflexivity|]. right. right. split; [|eauto]. cbn [d_trie].
        destruct (t_delete (q_drop E) (d_trie (fst m)) (norm E c text)) eqn:Hx; [eapply delete_gone; exact Hx|eapply delete_none; exact Hx].
      + unfold step. rewrite Hp. exists (Ret (ARemoved e)). split; [exact Hp|]. right. right. eauto.
    - rewrite (step_other m Hn). exists p. split; [exact Hp|]. destruct Hr as [Hr|[Hr|(H1 & H2)]]; [left; exact Hr|right; left; exact Hr|]. right. right. split; [|exact H2].
      destruct (t_get (d_trie (fst (step j m))) (norm E c text)) eqn:Hg; [|reflexivity]. apply (proj1 Hs) in Hg. congruence.
  Qed.
  Lemma conc_gone : forall d sched i text a, nth_error ks i = Some (CRemove text) -> nth_error (snd (run sched (start c d ks))) i = Some (Ret a) ->
    t_get (d_trie (fst (run sched (start c d ks)))) (norm E c text) = None.
  Proof.
    intros d sched i text a Hi Hr. destruct (gone_run (text := text) (i := i) sched (start_writes d)) as (p & P1 & P2).
    - exists (call_p c (CRemove text)). split; [apply map_nth_error; exact Hi|left; reflexivity].
    - rewrite Hr in P1. injection P1 as <-. destruct P2 as [P2|[P2|[P2 _]]]; [|discriminate|exact P2].
      exfalso. cbn [call_p] in P2. unfold seg_remove_token_p in P2. rewrite split_words_eq in P2. discriminate.
  Qed.
  Lemma conc_shrink : forall d sched, shrink d (fst (run sched (start c d ks))).
  Proof. intros d sched. apply (writes_run shrink_refl shrink_trans sched (start_writes d)). Qed.
End Removed.
