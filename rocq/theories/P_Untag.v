(** Proofs: the tags do not influence the cuts. *)
From Verif Require Import S_Split S_Untag P_Utf8 P_Split P_Dict P_Seg P_Seg2 P_Hist P_Out M_Out P_Meta P_Meta2 P_Meta4 P_Meta5 P_Idf.
Set Implicit Arguments. Unset Strict Implicit.

Section Untag.
  Variable E : env.
  Variable c : cfg.
  Definition any (p q : bytes) : Prop := True.
  Lemma untag_keys : forall d1 d2 : dict E, dict_ok c d1 -> dict_ok c d2 -> same_but_tags d1 d2 -> forall w,
    match t_get (d_trie d1) w, t_get (d_trie d2) w with
    | Some v1, Some v2 => exists t1 t2, nth_error (d_tokens d1) v1 = Some t1 /\ nth_error (d_tokens d2) v2 = Some t2 /\ t_freq t1 = t_freq t2 /\ any (t_pos t1) (t_pos t2)
    | None, None => True
    | _, _ => False
    end.
  Proof.
    intros d1 d2 O1 O2 H w. destruct (t_get (d_trie d1) w) as [v1|] eqn:G1.
    - destruct (ok_entry O1 G1) as (t1 & N1 & _). destruct (proj1 (H w (t_freq t1))) as (p & v2 & t2 & V2 & N2 & F & P); [exists (t_pos t1), v1, t1; rewrite dict_value_get; auto|].
      rewrite dict_value_get in V2. rewrite V2. exists t1, t2. unfold any. auto.
    - destruct (t_get (d_trie d2) w) as [v2|] eqn:G2; [|exact I]. destruct (ok_entry O2 G2) as (t2 & N2 & _).
      destruct (proj2 (H w (t_freq t2))) as (p & v1 & t1 & V1 & _); [exists (t_pos t2), v2, t2; rewrite dict_value_get; auto|]. rewrite dict_value_get in V1. congruence.
  Qed.
  Lemma untag_find : forall d1 d2 : dict E, dict_inv c d1 -> dict_inv c d2 -> same_but_tags d1 d2 -> forall w,
    exists f p1 p2 b, dict_find d1 w = Ok (f, p1, b) /\ dict_find d2 w = Ok (f, p2, b).
  Proof.
    intros d1 d2 I1 I2 H w. rewrite (find_eq w I1), (find_eq w I2). pose proof (untag_keys (inv_ok I1) (inv_ok I2) H) as K. pose proof (K w) as Kw.
    destruct (t_get (d_trie d1) w) as [v1|] eqn:G1, (t_get (d_trie d2) w) as [v2|] eqn:G2; try contradiction.
    - destruct Kw as (t1 & t2 & -> & -> & -> & _). eauto 10.
    - assert (A : forall w, t_get (d_trie d1) w <> None <-> t_get (d_trie d2) w <> None).
      { intro w'. specialize (K w'). destruct (t_get (d_trie d1) w'), (t_get (d_trie d2) w'); try contradiction; split; congruence. }
      destruct w as [|b w]; [eauto 10|]. replace (t_path (d_trie d1) (b :: w)) with (t_path (d_trie d2) (b :: w)); [eauto 10|].
      destruct (t_path (d_trie d1) (b :: w)) eqn:P1, (t_path (d_trie d2) (b :: w)) eqn:P2; auto.
      + rewrite (path_le (d1 := d1) (d2 := d2)) in P2; [discriminate| |exact P1]. intros; apply A; assumption.
      + rewrite (path_le (d1 := d2) (d2 := d1)) in P1; [discriminate| |exact P2]. intros; apply A; assumption.
  Qed.
  Lemma words_pos : forall (d : dict E) s m segs, internal_segment c (Some d) s m = Ok segs -> words (seg_pos c (Some d) s m) = seg_slice c (Some d) s m.
  Proof. intros d s m segs H. destruct (outs_of_pos H) as [-> _]. destruct (seg_pos c (Some d) s m); reflexivity. Qed.

  Lemma c85 : forall e1 e2 d1 d2 : dict E, reachable c e1 -> reachable c e2 -> calc_token e1 = Ok d1 -> calc_token e2 = Ok d2 ->
    d_total d1 = d_total d2 -> same_but_tags d1 d2 -> same_cuts c d1 d2.
  Proof.
    intros e1 e2 d1 d2 R1 R2 C1 C2 Ht H. apply reachable_inv in R1, R2.
    assert (I1 : dict_inv c d1). { destruct (calc_token_spec (inv_ok R1)) as (x & X1 & X2 & _). rewrite C1 in X1. injection X1 as <-. exact X2. }
    assert (I2 : dict_inv c d2). { destruct (calc_token_spec (inv_ok R2)) as (x & X1 & X2 & _). rewrite C2 in X1. injection X1 as <-. exact X2. }
    pose proof (untag_keys (inv_ok I1) (inv_ok I2) H) as K. pose proof (untag_find I1 I2 H) as F.
    assert (HS : forall s m, seg_slice c (Some d1) s m = seg_slice c (Some d2) s m) by (intros; eapply (@slice_rel E c e1 e2 d1 d2 any (fun _ => I) (inv_ok R1) (inv_ok R2) C1 C2 Ht K)).
    assert (HC : forall em s h, cut d1 c em s h = cut d2 c em s h).
    { intros em s [[|]|]; cbn [cut]; [apply x_cut_dag; assumption|apply x_nohmm; assumption|apply HS]. }
    pose proof (@seg_rel E c e1 e2 d1 d2 any (inv_ok R1) (inv_ok R2) C1 C2 Ht K) as SR.
    constructor; auto.
    - intro w. destruct (F w) as (f & p1 & p2 & b & -> & ->). reflexivity.
    - intros s m. destruct (SR s m) as (s1 & s2 & -> & -> & HF). cbn [spans]. f_equal.
      induction HF as [|a b l1 l2 (A1 & A2 & _) _ IH]; [reflexivity|]. cbn. rewrite A1, A2, IH. reflexivity.
    - intros s m. destruct (SR s m) as (s1 & s2 & H1 & H2 & _). rewrite (words_pos H1), (words_pos H2). apply HS.
    - intros. apply x_all; assumption.
    - intros em s [h|]; cbn [cut_search]; [|apply HS]. unfold cut_for_search. rewrite HC. destruct (cut d2 c em s (Some h)); cbn [bind]; try reflexivity. apply x_search; assumption.
    - intros. apply x_suggest; assumption.
  Qed.

  (** Histories *)
  Definition bare (d : dict E) := (d_trie d, d_total d, d_max d, map (fun t => (t_text t, t_freq t)) (d_tokens d)).
  Lemma bare_calc : forall d d' : dict E, calc_token d = Ok d' -> bare d' = bare d.
  Proof.
    intros d d' H. unfold calc_token in H. apply bind_Ok in H as (ts & H1 & H2). injection H2 as <-. unfold bare. cbn. f_equal.
    assert (G : forall e ts0 ts, calc_segs e ts0 = Ok ts -> map (fun t : token E => (t_text t, t_freq t)) ts = map (fun t => (t_text t, t_freq t)) ts0).
    { intros e. induction ts0 as [|t ts0 IH]; intros l Hl; cbn [calc_segs] in Hl; [injection Hl as <-; reflexivity|].
      apply bind_Ok in Hl as (x & _ & Hl). apply bind_Ok in Hl as (k & _ & Hl). apply bind_Ok in Hl as (r & Hr & Hl). injection Hl as <-. cbn. rewrite (IH _ Hr). reflexivity. }
    rewrite (G _ _ _ H1). unfold calc_dist. cbn. rewrite map_map. reflexivity.
  Qed.
  Lemma bare_add : forall (d1 d2 : dict E) t1 t2, bare d1 = bare d2 -> t_text t1 = t_text t2 -> t_freq t1 = t_freq t2 -> bare (add_token d1 t1) = bare (add_token d2 t2).
  Proof.
    intros d1 d2 t1 t2 H Ht Hf. unfold bare in H. injection H as H1 H2 H3 H4. unfold add_token, bare. rewrite Ht, H1.
    destruct (t_get (d_trie d2) (text_bytes (t_text t2))); [congruence|]. cbn. rewrite !map_app. cbn. rewrite Ht, Hf, H2, H3, H4.
    replace (length (d_tokens d1)) with (length (d_tokens d2)); [reflexivity|]. apply (f_equal (@length _)) in H4. rewrite !map_length in H4. auto.
  Qed.
  Lemma bare_remove : forall (d1 d2 : dict E) ws, bare d1 = bare d2 ->
    match remove_token d1 ws, remove_token d2 ws with Some a, Some b => bare a = bare b | None, None => True | _, _ => False end.
  Proof.
    intros d1 d2 ws H. unfold bare in H. injection H as H1 H2 H3 H4. unfold remove_token. rewrite H1. destruct (t_delete _ _ _); [|exact I]. unfold bare. cbn. congruence.
  Qed.
  Lemma bare_op : forall o1 o2 (d1 d2 e1 e2 : dict E), same_call o1 o2 -> bare d1 = bare d2 -> run_op c d1 o1 = Ok e1 -> run_op c d2 o2 = Ok e2 -> bare e1 = bare e2.
  Proof.
    assert (A : forall w f p q (d1 d2 e1 e2 : dict E), bare d1 = bare d2 -> seg_add_token c d1 w f p = Ok e1 -> seg_add_token c d2 w f q = Ok e2 -> bare e1 = bare e2).
    { intros w f p q d1 d2 e1 e2 H H1 H2. unfold seg_add_token, to_token in *. rewrite split_words_eq in *. cbn [bind] in *. injection H1 as <-. injection H2 as <-. apply bare_add; [exact H|reflexivity|reflexivity]. }
    assert (B : forall w f p q (d1 d2 e1 e2 : dict E), bare d1 = bare d2 -> run_op c d1 (OpReAdd w f p) = Ok e1 -> run_op c d2 (OpReAdd w f q) = Ok e2 -> bare e1 = bare e2).
    { intros w f p q d1 d2 e1 e2 H H1 H2. cbn [run_op] in *. unfold seg_readd_token, to_token in *. rewrite split_words_eq in *. cbn [bind t_text] in *. pose proof (bare_remove (wsplit E c w) H) as K.
      destruct (remove_token d1 _), (remove_token d2 _); try contradiction; cbn [bind fst] in *; injection H1 as <-; injection H2 as <-; [|exact H]. apply bare_add; [exact K|reflexivity|reflexivity]. }
    intros o1 o2 d1 d2 e1 e2 S H H1 H2. destruct S as [w f p q|w f p q|o]; [exact (A _ _ _ _ _ _ _ _ H H1 H2)|exact (B _ _ _ _ _ _ _ _ H H1 H2)|].
    destruct o as [w f p|w f p|w|]; [exact (A _ _ _ _ _ _ _ _ H H1 H2)|exact (B _ _ _ _ _ _ _ _ H H1 H2)| |].
    - cbn [run_op] in *. unfold seg_remove_token in *. rewrite split_words_eq in *. cbn [bind] in *. pose proof (bare_remove (wsplit E c w) H) as K.
      destruct (remove_token d1 _), (remove_token d2 _); try contradiction; cbn [bind fst] in *; injection H1 as <-; injection H2 as <-; assumption.
    - cbn [run_op] in *. rewrite (bare_calc H1), (bare_calc H2). exact H.
  Qed.
  Lemma bare_ops : forall os1 os2, Forall2 (@same_call E) os1 os2 -> forall d1 d2 e1 e2 : dict E, bare d1 = bare d2 -> run_ops c d1 os1 = Ok e1 -> run_ops c d2 os2 = Ok e2 -> bare e1 = bare e2.
  Proof.
    intros os1 os2 H. induction H as [|o1 o2 os1 os2 Ho _ IH]; intros d1 d2 e1 e2 Hb H1 H2; cbn [run_ops] in *; [congruence|].
    apply bind_Ok in H1 as (a1 & A1 & H1). apply bind_Ok in H2 as (a2 & A2 & H2). eapply IH; [|exact H1|exact H2]. exact (bare_op Ho Hb A1 A2).
  Qed.
  Lemma bare_same : forall d1 d2 : dict E, bare d1 = bare d2 -> same_but_tags d1 d2 /\ d_total d1 = d_total d2.
  Proof.
    assert (A : forall d1 d2 : dict E, bare d1 = bare d2 -> forall w f, (exists p, entry d1 w f p) -> exists p, entry d2 w f p).
    { intros d1 d2 H w f (p & v & t & V & N & F & P). unfold bare in H. injection H as H1 H2 H3 H4. destruct (map_nth H4 N) as (t' & N' & K). injection K as K1 K2.
      exists (t_pos t'), v, t'. rewrite dict_value_get in *. rewrite <- H1. split; [exact V|]. split; [exact N'|]. split; [congruence|reflexivity]. }
    intros d1 d2 H. split; [intros w f; split; apply A; auto|]. unfold bare in H. congruence.
  Qed.
  Lemma c85_histories : forall os1 os2 (d1 d2 : dict E), Forall2 (@same_call E) os1 os2 ->
    run_ops c (new_dict E) (os1 ++ [OpCalc]) = Ok d1 -> run_ops c (new_dict E) (os2 ++ [OpCalc]) = Ok d2 -> same_cuts c d1 d2.
  Proof.
    intros os1 os2 d1 d2 H H1 H2. destruct (run_calc H1) as (e1 & A1 & C1). destruct (run_calc H2) as (e2 & A2 & C2).
    pose proof (bare_ops H eq_refl A1 A2) as Hb. assert (Hd : bare d1 = bare d2) by (rewrite (bare_calc C1), (bare_calc C2); exact Hb). destruct (bare_same Hd) as [S T].
    apply (@c85 e1 e2); auto; [exists os1; exact A1|exists os2; exact A2].
  Qed.
End Untag.
