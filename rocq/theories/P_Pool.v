(** Proofs about the worker pool of tools/benchmark/goroutines. *)
From Verif Require Import P_Split P_Dict P_Seg2 P_Conc S_Conc.
From Verif Require Export M_Pool.
From Coq Require Import Sorting.Permutation.
Set Implicit Arguments. Unset Strict Implicit.

Section Pool.
  Variable E : env.
  Variables (c : cfg) (threads cap : nat) (d : dict E).
  Hypothesis Hr : reachable c d.
  Hypothesis Hcap : 1 <= cap.
  Hypothesis Hthr : 1 <= threads.

  Notation wst := (wstate E).
  Definition prog_of (l : bytes) : prog E (answer E) := call_p c (CSegment l false).
  Definition good (la : bytes * answer E) : Prop := alone c d (CSegment (fst la) false) = Ok (d, snd la).
  Definition running (w : wst) : list bytes := match w with WRun l _ => [l] | _ => [] end.
  Definition gone (w : wst) : nat := match w with WExit => 1 | _ => 0 end.
  Definition past (w : wst) : bool := match w with WEnd | WExit => true | _ => false end.
  Definition gones (ws : list wst) : nat := list_sum (map gone ws).
  Definition okw (w : wst) : Prop := match w with WRun l p => ro p /\ rv d p = rv d (prog_of l) | _ => True end.

  Lemma prog_ok : forall l, exists a, rv d (prog_of l) = Ok a /\ good (l, a).
  Proof.
    intros l. destruct (c01 l false Hr) as (sg & Hs & _). pose proof (@rv_call E c d (CSegment l false) I) as H. cbn [alone] in H. rewrite Hs in H. cbn [bind] in H.
    unfold prog_of, good. destruct (rv d (call_p c (CSegment l false))) as [a| |]; cbn [bind] in H; try discriminate. exists a. split; [reflexivity|].
    cbn [alone fst snd]. rewrite Hs. cbn [bind]. exact H.
  Qed.

  Record inv (all : list bytes) (s : pool E) : Prop := {
    i_dict : p_dict s = d;
    i_len : length (p_work s) = threads;
    i_okw : Forall okw (p_work s);
    i_perm : Permutation (map fst (p_log s) ++ flat_map running (p_work s) ++ p_queue s ++ p_send s) all;
    i_log : Forall good (p_log s);
    i_cnt : p_done s + p_recv s = gones (p_work s);
    i_closed : p_closed s = true -> p_send s = [];
    i_past : existsb past (p_work s) = true -> p_closed s = true /\ p_queue s = []
  }.

  Lemma split_at : forall A (l : list A) i x, nth_error l i = Some x -> exists a b, l = a ++ x :: b /\ length a = i /\ forall y, upd l i y = a ++ y :: b.
  Proof.
    intros A l i x H. destruct (nth_error_split l i H) as (a & b & -> & <-). exists a, b. split; [reflexivity|]. split; [reflexivity|]. intro y. apply upd_mid.
  Qed.
  Lemma gones_mid : forall a w b, gones (a ++ w :: b) = gone w + gones (a ++ b).
  Proof. intros a w b. unfold gones. rewrite !map_app, !list_sum_app. cbn [map list_sum fold_right]. unfold list_sum. cbn [fold_right]. lia. Qed.
  Lemma past_mid : forall a (w : wst) b, existsb past (a ++ w :: b) = past w || existsb past (a ++ b).
  Proof. intros a w b. rewrite !existsb_app. cbn [existsb]. destruct (past w), (existsb past a); reflexivity. Qed.
  Lemma run_mid : forall a w b x, Permutation (flat_map running (a ++ w :: b) ++ x) (running w ++ flat_map running (a ++ b) ++ x).
  Proof.
    intros a w b x. rewrite !flat_map_app. cbn [flat_map]. rewrite <- !app_assoc. apply Permutation_app_swap_app.
  Qed.
  Lemma okw_mid : forall a w w' b, Forall okw (a ++ w :: b) -> okw w' -> okw w /\ Forall okw (a ++ w' :: b).
  Proof.
    intros a w w' b H Hw. apply Forall_app in H. destruct H as [H1 H2]. inversion H2; subst. split; [assumption|]. apply Forall_app. split; [assumption|]. constructor; assumption.
  Qed.

  Lemma start_inv : forall lines runs, inv (concat (repeat lines runs)) (pool_start threads d lines runs).
  Proof.
    intros lines runs. constructor; cbn [p_dict p_work p_log p_queue p_send p_done p_recv p_closed pool_start]; try reflexivity.
    - apply repeat_length.
    - apply Forall_forall. intros w Hw. apply repeat_spec in Hw. subst. exact I.
    - assert (Z : flat_map running (repeat (@WIdle E) threads) = []) by (clear; induction threads as [|n IH]; cbn; auto). rewrite Z. apply Permutation_refl.
    - constructor.
    - clear. unfold gones. induction threads as [|n IH]; [reflexivity|]. cbn. exact IH.
    - discriminate.
    - intro H. exfalso. apply existsb_exists in H. destruct H as (w & Hw & P). apply repeat_spec in Hw. subst. discriminate.
  Qed.

  Lemma main_inv : forall all s s', inv all s -> main_step threads cap s = Some s' -> inv all s'.
  Proof.
    intros all s s' H Hs. unfold main_step in Hs. destruct H as [H1 H2 H3 H4 H5 H6 H7 H8]. destruct (p_send s) as [|l rest] eqn:Es.
    - destruct (p_closed s) eqn:Ec; cbn [negb] in Hs.
      + destruct (_ && _) eqn:Eb; [|discriminate]. apply andb_prop in Eb. destruct Eb as [B1 B2]. apply Nat.ltb_lt in B1, B2. injection Hs as <-.
        constructor; cbn [p_dict p_work p_log p_queue p_send p_done p_recv p_closed]; auto. lia.
      + injection Hs as <-. constructor; cbn [p_dict p_work p_log p_queue p_send p_done p_recv p_closed]; auto.
        intro P. destruct (H8 P) as [X _]. discriminate.
    - destruct (_ <? _); [|discriminate]. injection Hs as <-. constructor; cbn [p_dict p_work p_log p_queue p_send p_done p_recv p_closed]; auto.
      + rewrite <- app_assoc. cbn [app]. exact H4.
      + intro P. specialize (H7 P). discriminate.
      + intro P. destruct (H8 P) as [X _]. specialize (H7 X). discriminate.
  Qed.

  Lemma worker_inv : forall all s s' i, inv all s -> worker_step c threads i s = Some s' -> inv all s'.
  Proof.
    intros all s s' i H Hs. unfold worker_step in Hs. destruct (nth_error (p_work s) i) as [w|] eqn:Ew; [|discriminate].
    destruct (split_at Ew) as (a & b & Hab & Hl & Hu). destruct H as [H1 H2 H3 H4 H5 H6 H7 H8].
    rewrite Hab in H2, H3, H6, H8. rewrite gones_mid in H6. rewrite past_mid in H8.
    rewrite Hab in H4. assert (H4' : Permutation (map fst (p_log s) ++ running w ++ flat_map running (a ++ b) ++ p_queue s ++ p_send s) all).
    { eapply Permutation_trans; [|exact H4]. apply Permutation_app_head. apply Permutation_sym, run_mid. }
    clear H4. rewrite app_length in H2. cbn [length] in H2.
    assert (L : forall w', length (a ++ w' :: b) = threads) by (intro; rewrite app_length; cbn [length]; exact H2).
    assert (R : forall w' x, Permutation (running w' ++ flat_map running (a ++ b) ++ x) (flat_map running (a ++ w' :: b) ++ x)) by (intros; apply Permutation_sym, run_mid).
    destruct w as [|l p| |]; cbn [running gone past orb app] in *.
    - destruct (p_queue s) as [|l q] eqn:Eq.
      + destruct (p_closed s) eqn:Ec; [|discriminate]. injection Hs as <-. unfold with_work.
        constructor; cbn [p_dict p_work p_log p_queue p_send p_done p_recv p_closed]; rewrite ?Hu; auto.
        * destruct (@okw_mid a WIdle WEnd b H3 I) as [_ X]. exact X.
        * eapply Permutation_trans; [|exact H4']. apply Permutation_app_head. apply (run_mid a WEnd b).
        * rewrite gones_mid. exact H6.
      + injection Hs as <-. unfold with_work.
        constructor; cbn [p_dict p_work p_log p_queue p_send p_done p_recv p_closed]; rewrite ?Hu; auto.
        * refine (proj2 (@okw_mid a WIdle _ b H3 _)). exact (conj (@ro_call E c (CSegment l false) I) eq_refl).
        * eapply Permutation_trans; [|exact H4']. apply Permutation_app_head. eapply Permutation_trans; [apply run_mid|]. cbn [running app].
          apply (Permutation_middle (flat_map running (a ++ b)) (q ++ p_send s) l).
        * rewrite gones_mid. exact H6.
        * rewrite past_mid. cbn [past orb]. intro P. destruct (H8 P) as [_ X]. discriminate.
    - destruct (@okw_mid a (WRun l p) (WRun l p) b H3) as [[W1 W2] _]. { apply Forall_app in H3. destruct H3 as [_ H3]. inversion H3; assumption. }
      destruct p as [r| | |f|f p]; try discriminate; injection Hs as <-; unfold with_work.
      + constructor; cbn [p_dict p_work p_log p_queue p_send p_done p_recv p_closed]; rewrite ?Hu; auto.
        * exact (proj2 (@okw_mid a (WRun l (Ret r)) WIdle b H3 I)).
        * eapply Permutation_trans; [|exact H4']. rewrite map_app. cbn [map fst]. rewrite <- app_assoc. apply Permutation_app_head. cbn [app]. constructor.
          apply (run_mid a WIdle b).
        * apply Forall_app. split; [exact H5|]. constructor; [|constructor]. destruct (prog_ok l) as (r' & P1 & P2). rewrite <- W2 in P1. unfold rv in P1; cbn in P1. injection P1 as ->. exact P2.
        * rewrite gones_mid. exact H6.
        * rewrite past_mid. cbn [past orb]. exact H8.
      + constructor; cbn [p_dict p_work p_log p_queue p_send p_done p_recv p_closed]; rewrite ?Hu; auto.
        * refine (proj2 (@okw_mid a (WRun l (Read f)) _ b H3 _)). rewrite H1. split; [apply W1|]. rewrite <- W2. reflexivity.
        * eapply Permutation_trans; [|exact H4']. apply Permutation_app_head. apply (run_mid a (WRun l (f (p_dict s))) b).
        * rewrite gones_mid. exact H6.
        * rewrite past_mid. cbn [past orb]. exact H8.
      + destruct W1.
    - destruct (_ <? _); [|discriminate]. injection Hs as <-. unfold with_work.
      constructor; cbn [p_dict p_work p_log p_queue p_send p_done p_recv p_closed]; rewrite ?Hu; auto.
      + exact (proj2 (@okw_mid a WEnd WExit b H3 I)).
      + eapply Permutation_trans; [|exact H4']. apply Permutation_app_head. apply (run_mid a WExit b).
      + rewrite gones_mid. cbn [gone]. lia.
    - discriminate.
  Qed.
  Lemma step_inv : forall all s s' g, inv all s -> pool_step c threads cap g s = Some s' -> inv all s'.
  Proof. intros all s s' [|i] H Hs; [eapply main_inv; eauto|eapply worker_inv; eauto]. Qed.
  Lemma run_inv : forall all sched s, inv all s -> inv all (pool_run c threads cap sched s).
  Proof.
    intros all. induction sched as [|g t IH]; intros s H; [exact H|]. cbn [pool_run]. apply IH. destruct (pool_step c threads cap g s) as [s'|] eqn:Es; [|exact H].
    eapply step_inv; eauto.
  Qed.

  (** Nothing is blocked for ever. *)
  Lemma gones_le : forall ws, gones ws <= length ws.
  Proof. intros ws. unfold gones. induction ws as [|w ws IH]; cbn; [lia|]. unfold list_sum in IH. destruct w; cbn; lia. Qed.
  Lemma gones_lt : forall ws, gones ws < length ws -> exists i w, nth_error ws i = Some w /\ w <> WExit.
  Proof.
    induction ws as [|w ws IH]; intros H; [cbn in H; lia|]. destruct w as [|l p| |]; try (eexists 0, _; split; [reflexivity|discriminate]).
    destruct IH as (i & w & Hi & Hw); [unfold gones in *; cbn in *; unfold list_sum; lia|]. exists (S i), w. split; assumption.
  Qed.
  Lemma gones_all : forall ws, gones ws = length ws -> Forall (fun w => w = WExit) ws.
  Proof.
    induction ws as [|w ws IH]; intros H; [constructor|]. pose proof (gones_le ws) as G. unfold gones in *. cbn in H. unfold list_sum in *.
    destruct w as [|l p| |]; cbn in H; try lia. constructor; [reflexivity|]. apply IH. lia.
  Qed.
  Lemma run_step : forall all s i l p, inv all s -> nth_error (p_work s) i = Some (WRun l p) -> worker_step c threads i s <> None.
  Proof.
    intros all s i l p H Hi. unfold worker_step. rewrite Hi. pose proof (proj1 (Forall_forall _ _) (i_okw H) _ (nth_error_In _ _ Hi)) as [W1 W2].
    destruct (prog_ok l) as (a & P & _). rewrite <- W2 in P. unfold rv in P; destruct p; cbn in P; discriminate.
  Qed.
  Lemma progress : forall all s, inv all s -> pool_over threads s \/ exists g, pool_step c threads cap g s <> None.
  Proof.
    intros all s H. destruct (p_send s) as [|l rest] eqn:Es.
    - destruct (p_closed s) eqn:Ec.
      + destruct (Nat.lt_ge_cases (p_recv s) threads) as [Lr|Lr].
        * right. destruct (p_done s) as [|k] eqn:Ed.
          -- pose proof (i_cnt H) as G. rewrite Ed in G. destruct (gones_lt (ws := p_work s)) as (i & w & Hi & Hw); [rewrite (i_len H); lia|].
             exists (S i). cbn [pool_step]. destruct w as [|l p| |].
             ++ unfold worker_step. rewrite Hi. destruct (p_queue s); [rewrite Ec|]; discriminate.
             ++ eapply run_step; eauto.
             ++ unfold worker_step. rewrite Hi, Ed. destruct (Nat.ltb_spec 0 threads); [discriminate|lia].
             ++ congruence.
          -- exists 0. cbn [pool_step]. unfold main_step. rewrite Es, Ec, Ed. cbn [negb]. destruct (Nat.ltb_spec (p_recv s) threads); [|lia]. discriminate.
        * left. split; [exact Es|]. split; [exact Ec|]. pose proof (i_cnt H). pose proof (gones_le (p_work s)). rewrite (i_len H) in *. lia.
      + right. exists 0. cbn [pool_step]. unfold main_step. rewrite Es, Ec. discriminate.
    - right. destruct (Nat.lt_ge_cases (length (p_queue s)) cap) as [Lq|Lq].
      + exists 0. cbn [pool_step]. unfold main_step. rewrite Es. destruct (Nat.ltb_spec (length (p_queue s)) cap); [discriminate|lia].
      + exists 1. cbn [pool_step]. pose proof (i_len H) as Hl. destruct (p_work s) as [|w ws] eqn:Ew; [cbn in Hl; lia|].
        assert (P : past w = false).
        { destruct (past w) eqn:P; [|reflexivity]. exfalso. destruct (i_past H) as [X _]; [rewrite Ew; cbn; rewrite P; reflexivity|]. pose proof (i_closed H X). congruence. }
        destruct w as [|l' p| |]; try discriminate.
        * unfold worker_step. rewrite Ew. cbn [nth_error]. destruct (p_queue s) as [|x q]; [cbn in Lq; lia|discriminate].
        * eapply run_step; [exact H|]. rewrite Ew. reflexivity.
  Qed.
  Lemma over_all : forall all s, inv all s -> pool_over threads s ->
    p_dict s = d /\ Forall (fun w => w = WExit) (p_work s) /\ Permutation (map fst (p_log s)) all /\ Forall good (p_log s).
  Proof.
    intros all s H (O1 & O2 & O3). pose proof (i_cnt H) as G. pose proof (gones_le (p_work s)) as L. rewrite (i_len H) in L.
    assert (A : Forall (fun w => w = WExit) (p_work s)) by (apply gones_all; rewrite (i_len H); lia).
    split; [apply (i_dict H)|]. split; [exact A|]. split; [|apply (i_log H)].
    assert (Q : p_queue s = []).
    { apply (i_past H). pose proof (i_len H) as Hl. destruct (p_work s) as [|w ws]; [cbn in Hl; lia|]. inversion A; subst. reflexivity. }
    pose proof (i_perm H) as P. rewrite Q, O1 in P. cbn [app] in P. rewrite app_nil_r in P.
    assert (Z : flat_map running (p_work s) = []) by (clear -A; induction A as [|w ws Hw A IH]; [reflexivity|]; subst; exact IH).
    rewrite Z, app_nil_r in P. exact P.
  Qed.

  (** Every step makes this smaller. *)
  Fixpoint reads (p : prog E (answer E)) : nat := match p with Read f => S (reads (f d)) | Write _ p => S (reads p) | _ => 0 end.
  Definition cost (l : bytes) : nat := S (reads (prog_of l)).
  Definition wcost (w : wst) : nat := match w with WIdle => 3 | WRun _ p => 4 + reads p | WEnd => 2 | WExit => 0 end.
  Definition sum (A : Type) (f : A -> nat) (l : list A) : nat := list_sum (map f l).
  Definition mu (s : pool E) : nat :=
    sum (fun l => 2 + cost l) (p_send s) + (if p_closed s then 0 else 1) + sum (fun l => 1 + cost l) (p_queue s) + sum wcost (p_work s) + p_done s.
  Lemma sum_app : forall A (f : A -> nat) a b, sum f (a ++ b) = sum f a + sum f b.
  Proof. intros A f a b. unfold sum. rewrite map_app, list_sum_app. reflexivity. Qed.
  Lemma sum_cons : forall A (f : A -> nat) x l, sum f (x :: l) = f x + sum f l.
  Proof. reflexivity. Qed.
  Lemma step_mu : forall all s s' g, inv all s -> pool_step c threads cap g s = Some s' -> mu s' < mu s.
  Proof.
    intros all s s' [|i] H Hs; cbn [pool_step] in Hs.
    - unfold main_step in Hs. destruct (p_send s) as [|l rest] eqn:Es.
      + destruct (p_closed s) eqn:Ec; cbn [negb] in Hs.
        * destruct (_ && _) eqn:Eb; [|discriminate]. apply andb_prop in Eb. destruct Eb as [_ B]. apply Nat.ltb_lt in B. injection Hs as <-.
          unfold mu. cbn [p_dict p_work p_log p_queue p_send p_done p_recv p_closed]. rewrite Es, Ec. lia.
        * injection Hs as <-. unfold mu. cbn [p_dict p_work p_log p_queue p_send p_done p_recv p_closed]. rewrite Es, Ec. lia.
      + destruct (_ <? _); [|discriminate]. injection Hs as <-. unfold mu. cbn [p_dict p_work p_log p_queue p_send p_done p_recv p_closed]. rewrite Es, sum_app, !sum_cons. unfold sum. cbn [map list_sum fold_right]. lia.
    - unfold worker_step in Hs. destruct (nth_error (p_work s) i) as [w|] eqn:Ew; [|discriminate]. destruct (split_at Ew) as (a & b & Hab & _ & Hu).
      assert (M : forall x, sum wcost (a ++ x :: b) = wcost x + (sum wcost a + sum wcost b)) by (intro x; rewrite sum_app, sum_cons; lia).
      assert (M0 : sum wcost (p_work s) = wcost w + (sum wcost a + sum wcost b)) by (rewrite Hab; apply M).
      pose proof (proj1 (Forall_forall _ _) (i_okw H) _ (nth_error_In _ _ Ew)) as Ok1.
      destruct w as [|l p| |]; try discriminate.
      + destruct (p_queue s) as [|l q] eqn:Eq.
        * destruct (p_closed s) eqn:Ec; [|discriminate]. injection Hs as <-. unfold mu, with_work. cbn [p_dict p_work p_log p_queue p_send p_done p_recv p_closed].
          rewrite Hu, M, M0, Eq, Ec. cbn [wcost]. lia.
        * injection Hs as <-. unfold mu, with_work. cbn [p_dict p_work p_log p_queue p_send p_done p_recv p_closed]. rewrite Hu, M, M0, Eq, sum_cons. cbn [wcost]. match goal with |- context [reads ?p] => change p with (prog_of l) end. assert (Z : cost l = S (reads (prog_of l))) by reflexivity. cbv beta. lia.
      + destruct p as [r| | |f|f p]; try discriminate; injection Hs as <-; unfold mu, with_work; cbn [p_dict p_work p_log p_queue p_send p_done p_recv p_closed]; rewrite Hu, M, M0; cbn [wcost reads].
        * lia.
        * rewrite (i_dict H). lia.
        * destruct Ok1 as [[] _].
      + destruct (_ <? _); [|discriminate]. injection Hs as <-. unfold mu, with_work. cbn [p_dict p_work p_log p_queue p_send p_done p_recv p_closed]. rewrite Hu, M, M0. cbn [wcost]. lia.
  Qed.
  Lemma over_stops : forall all s g, inv all s -> pool_over threads s -> pool_step c threads cap g s = None.
  Proof.
    intros all s g H Ho. destruct (over_all H Ho) as (_ & A & _). destruct Ho as (O1 & O2 & O3). destruct g as [|i]; cbn [pool_step].
    - unfold main_step. rewrite O1, O2, O3. cbn [negb]. destruct (Nat.ltb_spec threads threads); [lia|reflexivity].
    - unfold worker_step. destruct (nth_error (p_work s) i) as [w|] eqn:Ei; [|reflexivity]. rewrite (proj1 (Forall_forall _ _) A _ (nth_error_In _ _ Ei)). reflexivity.
  Qed.
  Lemma over_run : forall all sched s, inv all s -> pool_over threads s -> pool_run c threads cap sched s = s.
  Proof. intros all. induction sched as [|g t IH]; intros s H Ho; [reflexivity|]. cbn [pool_run]. rewrite (over_stops g H Ho). apply IH; assumption. Qed.
  Lemma part_mu : forall all p s, inv all s -> mu (pool_run c threads cap p s) <= mu s /\
    (forall g, In g p -> pool_step c threads cap g s <> None -> mu (pool_run c threads cap p s) < mu s).
  Proof.
    intros all. induction p as [|x t IH]; intros s H; [split; [apply Nat.le_refl|intros g []]|]. cbn [pool_run].
    destruct (pool_step c threads cap x s) as [s'|] eqn:Es.
    - pose proof (step_mu H Es) as M. destruct (IH s' (step_inv H Es)) as [I1 _]. split; [lia|]. intros. lia.
    - destruct (IH s H) as [I1 I2]. split; [exact I1|]. intros g [->|Hg] Hn; [congruence|]. exact (I2 g Hg Hn).
  Qed.
  Lemma step_who : forall all s g, inv all s -> pool_step c threads cap g s <> None -> g <= threads.
  Proof.
    intros all s [|i] H Hn; [lia|]. cbn [pool_step] in Hn. unfold worker_step in Hn. destruct (nth_error (p_work s) i) as [w|] eqn:Ei; [|congruence].
    assert (L : i < length (p_work s)) by (apply nth_error_Some; congruence). rewrite (i_len H) in L. lia.
  Qed.
  Lemma run_app_pool : forall a b (s : pool E), pool_run c threads cap (a ++ b) s = pool_run c threads cap b (pool_run c threads cap a s).
  Proof. induction a as [|x a IH]; intros b s; [reflexivity|]. cbn [app pool_run]. apply IH. Qed.
  Lemma fair_over : forall all parts s, inv all s -> mu s <= length parts -> (forall p g, In p parts -> g <= threads -> In g p) ->
    pool_over threads (pool_run c threads cap (concat parts) s).
  Proof.
    intros all. induction parts as [|p ps IH]; intros s H Hm Hf.
    - cbn [concat pool_run]. destruct (progress H) as [O|[g Hg]]; [exact O|]. exfalso. cbn [length] in Hm. destruct (pool_step c threads cap g s) as [s'|] eqn:Es; [|congruence].
      pose proof (step_mu H Es). lia.
    - cbn [concat]. rewrite run_app_pool. destruct (progress H) as [O|[g Hg]].
      + rewrite (over_run p H O), (over_run _ H O). exact O.
      + destruct (@part_mu all p s H) as [_ M]. specialize (M g (Hf p g (or_introl eq_refl) (step_who H Hg)) Hg).
        apply IH; [apply run_inv; exact H|cbn [length] in Hm; lia|]. intros q g' Hq Hg'. apply Hf; [right; exact Hq|exact Hg'].
  Qed.
  Lemma end_free : forall all s i, inv all s -> nth_error (p_work s) i = Some WEnd -> worker_step c threads i s <> None.
  Proof.
    intros all s i H Hi. unfold worker_step. rewrite Hi. destruct (split_at Hi) as (a & b & Hab & _). pose proof (i_cnt H) as G. pose proof (i_len H) as L. rewrite Hab in G, L.
    rewrite gones_mid in G. cbn [gone] in G. pose proof (gones_le (a ++ b)) as L2. rewrite app_length in L, L2. cbn [length] in L. destruct (Nat.ltb_spec (p_done s) threads); [discriminate|lia].
  Qed.
End Pool.
