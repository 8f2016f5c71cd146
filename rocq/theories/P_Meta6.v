(** Insertion order; words that do not occur in a text. *)
From Verif Require Import S_Split S_Meta P_Utf8 P_Split P_Dict P_Seg P_Seg2 P_Hist P_Out M_Out P_Meta P_Meta2 P_Meta4 P_Meta5 P_Idf Ieee.
From Coq Require Import Sorting.Permutation.
Set Implicit Arguments. Unset Strict Implicit.

Section Order.
  Variable E : env.
  Variable c : cfg.
  Hypothesis HE : ar E = ieee.

  Notation key x := (norm E c (fst (fst x))).

  Lemma exact_add : forall a b, (0 <= a)%Z -> (0 <= b)%Z -> (a + b <= 2 ^ 53)%Z -> add64 E (lit64 E a 0) (lit64 E b 0) = lit64 E (a + b) 0.
  Proof. rewrite HE. exact add_ints. Qed.

  Lemma spec_adds : forall l m, NoDup (map (fun x => key x) l) -> (forall x, In x l -> m (key x) = None) -> forall w y,
    spec_ops c m (adds E l) w = Some y <-> m w = Some y \/ exists x, In x l /\ w = key x /\ y = (lit64 E (snd (fst x)) 0, snd x).
  Proof.
    induction l as [|x l IH]; intros m Hn Hm w y.
    - cbn. split; [auto|]. intros [H|(x & [] & _)]. exact H.
    - cbn [map] in Hn. inversion_clear Hn as [|? ? Hx Hn']. change (adds E (x :: l)) with (OpAdd (E := E) (fst (fst x)) (lit64 E (snd (fst x)) 0) (snd x) :: adds E l). cbn [spec_ops spec_op].
      rewrite (Hm x (or_introl eq_refl)). rewrite IH; [|exact Hn'|].
      + unfold wset. destruct (beqb w (key x)) eqn:Ew.
        * apply beqb_eq in Ew. subst w. rewrite (Hm x (or_introl eq_refl)). split.
          -- intros [H|(z & Hz & Hk & _)]; [right; exists x; injection H as <-; repeat split; left; reflexivity|]. exfalso. apply Hx. rewrite Hk. apply in_map_iff. eauto.
          -- intros [H|(z & [<-|Hz] & Hk & ->)]; [discriminate|left; reflexivity|]. exfalso. apply Hx. rewrite Hk. apply in_map_iff. eauto.
        * split; (intros [H|(z & Hz & Hk & Hy)]; [left; exact H|right; exists z]).
          -- repeat split; auto. right; exact Hz.
          -- destruct Hz as [<-|Hz]; [|auto]. subst w. rewrite beqb_refl in Ew. discriminate.
      + intros z Hz. unfold wset. destruct (beqb (key z) (key x)) eqn:Ek; [|apply Hm; right; exact Hz]. exfalso. apply beqb_eq in Ek. apply Hx. rewrite <- Ek. apply in_map_iff. eauto.
  Qed.
  Lemma safe_adds : forall l m, safe_ops c m (adds E l).
  Proof. induction l as [|x l IH]; intro m; cbn; auto. Qed.

  Lemma total_adds : forall l (d : dict E) m n, dict_inv c d -> rel d m -> NoDup (map (fun x => key x) l) -> (forall x, In x l -> m (key x) = None) ->
    d_total d = lit64 E n 0 -> (0 <= n)%Z -> Forall (fun x => 0 <= snd (fst x))%Z l -> (n + freq_sum l <= 2 ^ 53)%Z ->
    forall d', run_ops c d (adds E l) = Ok d' -> d_total d' = lit64 E (n + freq_sum l) 0.
  Proof.
    induction l as [|x l IH]; intros d m n Hi Hr Hn Hm Ht H0 HF Hs d' H.
    - cbn in H. injection H as <-. rewrite Ht. f_equal. cbn. lia.
    - cbn [map] in Hn. inversion_clear Hn as [|? ? Hx Hn']. inversion_clear HF as [|? ? Hx0 HF']. cbn [freq_sum fold_right] in *. fold (freq_sum l) in *.
      assert (Hl : (0 <= freq_sum l)%Z). { clear - HF'. induction HF' as [|y l Hy HF' IH]; cbn; [lia|]. unfold freq_sum in IH. lia. }
      change (adds E (x :: l)) with (OpAdd (E := E) (fst (fst x)) (lit64 E (snd (fst x)) 0) (snd x) :: adds E l) in H.
      cbn [run_ops] in H. apply bind_Ok in H as (d1 & R1 & R2).
      destruct (run_op_inv (OpAdd (fst (fst x)) (lit64 E (snd (fst x)) 0) (snd x)) Hi) as (d1' & X1 & X2). assert (d1' = d1) by congruence. subst d1'.
      pose proof (rel_op Hi Hr (o := OpAdd (fst (fst x)) (lit64 E (snd (fst x)) 0) (snd x)) I R1) as Hr1. cbn [spec_op] in Hr1. rewrite (Hm x (or_introl eq_refl)) in Hr1.
      rewrite Z.add_assoc. eapply (IH d1 _ (n + snd (fst x))%Z X2 Hr1 Hn'); try eassumption; try lia.
      + intros z Hz. unfold wset. destruct (beqb (key z) (key x)) eqn:Ek; [|apply Hm; right; exact Hz]. exfalso. apply beqb_eq in Ek. apply Hx. rewrite <- Ek. apply in_map_iff. eauto.
      + cbn [run_op] in R1. unfold seg_add_token, to_token in R1. rewrite split_words_eq in R1. cbn [bind] in R1. injection R1 as <-. unfold add_token, text_bytes. cbn [t_text t_freq]. rewrite wsplit_norm.
        rewrite (proj2 (rel_none (key x) Hr) (Hm x (or_introl eq_refl))). cbn [d_total]. rewrite Ht. apply exact_add; lia.
  Qed.

  Lemma freq_sum_perm : forall l l', Permutation l l' -> freq_sum l = freq_sum l'.
  Proof. intros l l' H. induction H; cbn in *; unfold freq_sum in *; lia. Qed.

  Lemma c77_order : forall l l', NoDup (map (fun x => key x) l) -> Forall (fun x => 0 <= snd (fst x))%Z l -> (freq_sum l <= 2 ^ 53)%Z -> Permutation l l' ->
    exists d1 d2, run_ops c (new_dict E) (adds E l ++ [OpCalc]) = Ok d1 /\ run_ops c (new_dict E) (adds E l' ++ [OpCalc]) = Ok d2 /\ same_results c d1 d2.
  Proof.
    intros l l' Hn HF Hs HP. destruct (run_ops_inv (adds E l ++ [OpCalc]) (new_dict_inv E c)) as (d1 & R1 & _). destruct (run_ops_inv (adds E l' ++ [OpCalc]) (new_dict_inv E c)) as (d2 & R2 & _).
    exists d1, d2. split; [exact R1|]. split; [exact R2|].
    assert (Hn' : NoDup (map (fun x => key x) l')) by (eapply Permutation_NoDup; [apply Permutation_map; exact HP|exact Hn]).
    assert (HF' : Forall (fun x => 0 <= snd (fst x))%Z l') by (eapply Permutation_Forall; eassumption).
    apply (@c77_histories E c (adds E l) (adds E l') d1 d2); auto; try apply safe_adds.
    - intro w. pose proof (@spec_adds l (wempty E) Hn (fun _ _ => eq_refl) w) as A. pose proof (@spec_adds l' (wempty E) Hn' (fun _ _ => eq_refl) w) as B.
      assert (AB : forall y, spec_ops c (wempty E) (adds E l) w = Some y <-> spec_ops c (wempty E) (adds E l') w = Some y).
      { intro y. rewrite A, B. split; (intros [H|(x & Hx & H)]; [left; exact H|right; exists x; split; [|exact H]]); [eapply Permutation_in; eassumption|eapply Permutation_in; [apply Permutation_sym|]; eassumption]. }
      destruct (spec_ops c (wempty E) (adds E l) w) as [y|]; [symmetry; apply AB; reflexivity|]. destruct (spec_ops c (wempty E) (adds E l') w) as [y|]; [apply AB; reflexivity|reflexivity].
    - destruct (run_calc R1) as (e1 & A1 & B1). destruct (run_calc R2) as (e2 & A2 & B2).
      assert (K : forall os (e d : dict E), run_ops c (new_dict E) os = Ok e -> calc_token e = Ok d -> d_total d = d_total e).
      { intros os e d A B. assert (Hi : dict_inv c e) by (apply reachable_inv; exists os; exact A). destruct (calc_token_spec (inv_ok Hi)) as (x & X1 & _ & _ & _ & X2 & _). rewrite B in X1. injection X1 as <-. exact X2. }
      rewrite (K _ _ _ A1 B1), (K _ _ _ A2 B2). pose proof (new_dict_inv E c) as I0.
      rewrite (@total_adds l _ _ 0 I0 (@rel_new E) Hn (fun _ _ => eq_refl) eq_refl (Z.le_refl 0) HF ltac:(cbn; lia) _ A1).
      rewrite (@total_adds l' _ _ 0 I0 (@rel_new E) Hn' (fun _ _ => eq_refl) eq_refl (Z.le_refl 0) HF' ltac:(rewrite <- (freq_sum_perm HP); cbn; lia) _ A2).
      rewrite (freq_sum_perm HP). reflexivity.
  Qed.
End Order.

(** *** Locality *)
Section Local.
  Variable E : env.
  Variable c : cfg.

  Lemma slice_occurs : forall s i j, occurs (concat (slice (wsplit E c s) i j)) (norm E c s).
  Proof.
    intros s i j. exists (concat (firstn i (wsplit E c s))), (concat (skipn (j - i) (skipn i (wsplit E c s)))). rewrite <- split_concat. unfold slice.
    rewrite <- !concat_app, firstn_skipn, firstn_skipn. reflexivity.
  Qed.
  Lemma slice_ne_words : forall (ws : list bytes) i j, Forall (fun w => w <> []) ws -> i < j -> j <= length ws -> concat (slice ws i j) <> [].
  Proof.
    intros ws i j HF Hi Hj. destruct (slice ws i j) as [|w l] eqn:Es; [exfalso; apply (f_equal (@length _)) in Es; rewrite slice_length in Es by lia; cbn in Es; lia|].
    assert (Hin : In w ws). { rewrite (@slice_of _ ws i j) by lia. rewrite Es. apply in_or_app. right. left. reflexivity. }
    rewrite Forall_forall in HF. specialize (HF w Hin). cbn. destruct w; [congruence|discriminate].
  Qed.

  Section Two.
    Variables d1 d2 : dict E.
    Hypothesis R1 : reachable c d1.
    Hypothesis R2 : reachable c d2.
    Variable s : bytes.
    Hypothesis HW : forall w p x, w <> [] -> occurs w (norm E c s) -> (weighs d1 w p x <-> weighs d2 w p x).

    Lemma local_keys : forall w, w <> [] -> occurs w (norm E c s) ->
      match t_get (d_trie d1) w, t_get (d_trie d2) w with
      | Some v1, Some v2 => exists t1 t2, nth_error (d_tokens d1) v1 = Some t1 /\ nth_error (d_tokens d2) v2 = Some t2 /\ t_pos t1 = t_pos t2 /\ t_dist t1 = t_dist t2
      | None, None => True
      | _, _ => False
      end.
    Proof.
      intros w Hw Ho. pose proof (inv_ok (reachable_inv R1)) as O1. pose proof (inv_ok (reachable_inv R2)) as O2. destruct (t_get (d_trie d1) w) as [v1|] eqn:G1.
      - destruct (ok_entry O1 G1) as (t1 & N1 & _). destruct (proj1 (HW (t_pos t1) (t_dist t1) Hw Ho)) as (v2 & t2 & V2 & N2 & F & P); [exists v1, t1; rewrite dict_value_get; auto|].
        rewrite dict_value_get in V2. rewrite V2. exists t1, t2. auto.
      - destruct (t_get (d_trie d2) w) as [v2|] eqn:G2; [|exact I]. destruct (ok_entry O2 G2) as (t2 & N2 & _).
        destruct (proj2 (HW (t_pos t2) (t_dist t2) Hw Ho)) as (v1 & t1 & V1 & _); [exists v2, t2; rewrite dict_value_get; auto|]. rewrite dict_value_get in V1. congruence.
    Qed.
    Lemma local_rel : forall m, exists segs1 segs2, internal_segment c (Some d1) s m = Ok segs1 /\ internal_segment c (Some d2) s m = Ok segs2 /\ Forall2 (segrel d1 d2) segs1 segs2.
    Proof.
      intro m. rewrite !internal_segment_eq. apply (@segment_words_rel E c); [exact (inv_ok (reachable_inv R1))|exact (inv_ok (reachable_inv R2))|apply split_is_stable|apply split_nonempty|].
      intros i j Hi Hj. pose proof (@local_keys (concat (slice (wsplit E c s) i j)) (slice_ne_words (@split_nonempty E c s) Hi Hj) (slice_occurs s i j)) as K.
      destruct (t_get (d_trie d1) _) as [v1|], (t_get (d_trie d2) _) as [v2|]; auto. destruct K as (t1 & t2 & N1 & N2 & _ & D). unfold dist_of, deref, get. rewrite N1, N2. exact D.
    Qed.

    Lemma local_spans : forall m, spans (internal_segment c (Some d1) s m) = spans (internal_segment c (Some d2) s m).
    Proof.
      intro m. destruct (local_rel m) as (s1 & s2 & -> & -> & HF). cbn [spans]. f_equal. induction HF as [|a b l1 l2 (A1 & A2 & _) _ IH]; [reflexivity|]. cbn. rewrite A1, A2, IH. reflexivity.
    Qed.
    Lemma local_loop : forall l1 l2 a b, Forall2 (segrel d1 d2) l1 l2 -> covers d1 (norm E c s) a b l1 -> b <= length (norm E c s) -> forall out,
      seg_loop (fun t => Ok [(join (t_text t), t_pos t)]) d1 l1 out = seg_loop (fun t => Ok [(join (t_text t), t_pos t)]) d2 l2 out.
    Proof.
      intros l1 l2 a b H. revert a. induction H as [|x1 x2 l1 l2 Hx H IH]; intros a HC Hb out; [reflexivity|].
      inversion HC as [|from mid to x rest t H1 H2 H3 H4 H5 H6]; subst. cbn [seg_loop]. destruct Hx as (_ & _ & Hx).
      assert (K : exists t2, deref d2 (sg_tok x2) = Ok t2 /\ t_text t2 = t_text t /\ t_pos t2 = t_pos t).
      { destruct (tokref_text (inv_ok (reachable_inv R1)) (inv_ok (reachable_inv R2)) Hx) as (t1 & t2 & D1 & D2 & T). assert (t1 = t) by congruence. subst t1. exists t2. split; [exact D2|]. split; [auto|].
        destruct Hx as [(w & v1 & v2 & G1 & G2 & E1 & E2)|(w & E1 & E2)]; [|rewrite E1 in H4; rewrite E2 in D2; cbn in *; congruence].
        destruct (ok_entry (inv_ok (reachable_inv R1)) G1) as (t1 & N1 & _ & Hk & _). rewrite E1 in H4. cbn [deref] in H4. unfold get in H4. rewrite N1 in H4. injection H4 as ->.
        rewrite E2 in D2. cbn [deref] in D2. unfold get in D2. destruct (nth_error (d_tokens d2) v2) as [y|] eqn:N2; [|discriminate]. injection D2 as ->.
        assert (Ho : occurs w (norm E c s)).
        { rewrite <- Hk, H5. unfold slice. exists (firstn (sg_start x1) (norm E c s)), (skipn (sg_end x1 - sg_start x1) (skipn (sg_start x1) (norm E c s))). rewrite !firstn_skipn. reflexivity. }
        assert (Hw : w <> []).
        { pose proof (covers_le H6). intros ->. rewrite H5 in Hk. pose proof (f_equal (@length _) Hk) as Hl. rewrite slice_length in Hl by lia. cbn in Hl. lia. }
        pose proof (local_keys Hw Ho) as L. rewrite G1, G2, N1, N2 in L. destruct L as (u1 & u2 & U1 & U2 & U3 & _). congruence. }
      destruct K as (t2 & D2 & T2 & P2). rewrite H4, D2. cbn [bind]. rewrite T2, P2. eapply IH; [exact H6|exact Hb].
    Qed.

    Lemma local_pos : seg_pos c (Some d1) s false = seg_pos c (Some d2) s false.
    Proof.
      unfold seg_pos. destruct (local_rel false) as (s1 & s2 & H1 & H2 & HF). destruct (c01 s false R1) as (segs & S1 & [(F & _)|S2]); [discriminate|]. rewrite H1 in S1. injection S1 as <-.
      rewrite H1, H2. cbn [bind to_pos]. eapply local_loop; [exact HF|exact S2|]. rewrite norm_length. lia.
    Qed.
    Lemma c78_local : seg_pos c (Some d1) s false = seg_pos c (Some d2) s false /\ seg_slice c (Some d1) s false = seg_slice c (Some d2) s false /\
      seg_string c (Some d1) s false = seg_string c (Some d2) s false /\ forall m, spans (internal_segment c (Some d1) s m) = spans (internal_segment c (Some d2) s m).
    Proof.
      destruct (local_rel false) as (s1 & s2 & H1 & H2 & HF). destruct (outs_of_pos H1) as [-> ->]. destruct (outs_of_pos H2) as [-> ->]. rewrite local_pos. repeat split. apply local_spans.
    Qed.
  End Two.

  (** AddToken of a word that does not occur. *)
  Section Add.
    Variables d d' : dict E.
    Hypothesis R : reachable c d.
    Variable text : bytes.
    Variable f : f64 E.
    Variable p : bytes.
    Hypothesis Ha : seg_add_token c d text f p = Ok d'.

    Lemma added_reachable : reachable c d'.
    Proof. destruct R as [os Ho]. exists (os ++ [OpAdd text f p]). rewrite run_ops_app, Ho. cbn [bind run_ops run_op]. rewrite Ha. reflexivity. Qed.
    Lemma added : d' = d \/ (t_get (d_trie d) (norm E c text) = None /\ (forall w, w <> norm E c text -> t_get (d_trie d') w = t_get (d_trie d) w) /\ exists t, d_tokens d' = d_tokens d ++ [t]).
    Proof.
      pose proof Ha as H. unfold seg_add_token, to_token in H. rewrite split_words_eq in H. cbn [bind] in H. injection H as <-. unfold add_token, text_bytes. cbn [t_text t_freq]. rewrite wsplit_norm.
      destruct (t_get (d_trie d) (norm E c text)) eqn:G; [left; reflexivity|]. right. split; [reflexivity|]. cbn [d_trie d_tokens]. split; [|eauto].
      intros w Hw. rewrite t_get_insert. destruct (beqb (norm E c text) w) eqn:Eb; [apply beqb_eq in Eb; congruence|reflexivity].
    Qed.
    Variable s : bytes.
    Hypothesis Hno : text = [] \/ ~ occurs (norm E c text) (norm E c s).

    Lemma deref_added : forall r t, deref d r = Ok t -> deref d' r = Ok t.
    Proof.
      intros [v|w] t H; [|exact H]. destruct added as [->|(_ & _ & t' & Ht)]; [exact H|]. cbn [deref] in *. unfold get in *. rewrite Ht. destruct (nth_error (d_tokens d) v) as [x|] eqn:N; [|discriminate].
      rewrite nth_error_app1 by (apply nth_error_Some; congruence). rewrite N. exact H.
    Qed.
    Lemma walk_added : forall A (f1 f2 : token E -> res (list A)), (forall t o, f1 t = Ok o -> f2 t = Ok o) -> forall l b out o, walk_subs f1 d l b out = Ok o -> walk_subs f2 d' l b out = Ok o.
    Proof.
      intros A f1 f2 Hf. induction l as [|x l IH]; intros b out o H; cbn [walk_subs] in *; [exact H|].
      apply bind_Ok in H as (t & D & H). rewrite (deref_added D). cbn [bind]. apply bind_Ok in H as (y & Hy & H). rewrite Hy. cbn [bind].
      destruct (if y then false else b); [apply IH; exact H|]. apply bind_Ok in H as (z & Hz & H). rewrite (Hf _ _ Hz). cbn [bind]. apply IH. exact H.
    Qed.
    Lemma tok_pos_added : forall k t o, token_to_pos k d t = Ok o -> token_to_pos k d' t = Ok o.
    Proof.
      induction k as [|k IH]; intros t o H; [discriminate|]. cbn [token_to_pos] in *. apply bind_Ok in H as (y & Hy & H). rewrite (walk_added IH Hy). exact H.
    Qed.
    Lemma loop_added : forall A (f1 f2 : token E -> res (list A)), (forall t o, f1 t = Ok o -> f2 t = Ok o) -> forall l out o, seg_loop f1 d l out = Ok o -> seg_loop f2 d' l out = Ok o.
    Proof.
      intros A f1 f2 Hf. induction l as [|x l IH]; intros out o H; cbn [seg_loop] in *; [exact H|].
      apply bind_Ok in H as (t & D & H). rewrite (deref_added D). cbn [bind]. apply bind_Ok in H as (z & Hz & H). rewrite (Hf _ _ Hz). cbn [bind]. apply IH. exact H.
    Qed.

    Lemma added_segment : forall m, internal_segment c (Some d') s m = internal_segment c (Some d) s m.
    Proof.
      intro m. destruct added as [->|(Hk & Ht & t & Hts)]; [reflexivity|].
      assert (HW : forall w p x, w <> [] -> occurs w (norm E c s) -> (weighs d w p x <-> weighs d' w p x)).
      { intros w p' x Hw Ho. assert (Hne : w <> norm E c text). { intros ->. destruct Hno as [->|Hn]; [cbn in Hw; congruence|]. exact (Hn Ho). }
        unfold weighs. rewrite !dict_value_get, (Ht w Hne), Hts. split; intros (v & t1 & V & N & Q); exists v, t1; (split; [exact V|]; split; [|exact Q]).
        - rewrite nth_error_app1 by (apply nth_error_Some; congruence). exact N.
        - destruct (ok_entry (inv_ok (reachable_inv R)) V) as (y & Ny & _). rewrite nth_error_app1 in N by (apply nth_error_Some; congruence). exact N. }
      destruct (local_rel R added_reachable HW m) as (s1 & s2 & -> & -> & HF). f_equal. symmetry.
      induction HF as [|a b l1 l2 (A1 & A2 & A3) _ IH]; [reflexivity|]. rewrite IH. f_equal.
      destruct a as [a1 a2 a3], b as [b1 b2 b3]. cbn in *. subst. f_equal. destruct A3 as [(w & v1 & v2 & G1 & G2 & -> & ->)|(w & -> & ->)]; [|reflexivity].
      rewrite Ht in G2 by congruence. congruence.
    Qed.
    Lemma added_pos : forall m, seg_pos c (Some d') s m = seg_pos c (Some d) s m.
    Proof.
      intro m. destruct (out_total s m R) as (_ & (l & Hl) & _). rewrite Hl. unfold seg_pos in *. rewrite added_segment. apply bind_Ok in Hl as (segs & -> & Hl). cbn [bind]. unfold to_pos in *. destruct m.
      - revert Hl. apply loop_added. apply tok_pos_added.
      - revert Hl. apply loop_added. auto.
    Qed.
    Lemma c78_add : forall m, internal_segment c (Some d') s m = internal_segment c (Some d) s m /\ seg_pos c (Some d') s m = seg_pos c (Some d) s m /\
      seg_slice c (Some d') s m = seg_slice c (Some d) s m /\ seg_string c (Some d') s m = seg_string c (Some d) s m.
    Proof.
      intro m. destruct (c01 s m R) as (segs & S1 & _). pose proof S1 as S2. rewrite <- added_segment in S2. destruct (outs_of_pos S1) as [-> ->]. destruct (outs_of_pos S2) as [-> ->].
      rewrite added_pos, added_segment. auto.
    Qed.
  End Add.
End Local.
