(** The DAG cutters read the dictionary only at the words of the text. *)
From Verif Require Import S_Split S_Meta P_Utf8 P_Utf8b P_Split P_Dict P_Seg P_Seg2 P_Hist P_Hmm P_Dag P_Dag2 P_Dag3 P_Meta3 P_Meta6 P_Trim3.
From Coq Require Import Sorting.Sorted.
Set Implicit Arguments. Unset Strict Implicit.

Lemma occurs_slice : forall rs i j, i <= j <= length rs -> occurs (string_of_runes (slice rs i j)) (string_of_runes rs).
Proof.
  intros rs i j H. exists (string_of_runes (slice rs 0 i)), (string_of_runes (slice rs j (length rs))). rewrite <- !string_app. f_equal.
  rewrite app_assoc, !slice_app by lia. unfold slice. rewrite Nat.sub_0_r. cbn [skipn]. rewrite firstn_all. reflexivity.
Qed.
Lemma occurs_trans : forall a b c, occurs a b -> occurs b c -> occurs a c.
Proof. intros a b c (x & y & ->) (u & v & ->). exists (u ++ x), (y ++ v). rewrite <- !app_assoc. reflexivity. Qed.

Lemma nth_ext_error : forall A (l l' : list A), (forall k, nth_error l k = nth_error l' k) -> l = l'.
Proof.
  intros A. induction l as [|a l IH]; intros [|b l'] H; [reflexivity|specialize (H 0); discriminate H|specialize (H 0); discriminate H|].
  pose proof (H 0) as H0. injection H0 as ->. f_equal. apply IH. intro k. exact (H (S k)).
Qed.

Section Rows.
  Variable E : env.
  Variables c1 c2 : cfg.
  Variables d1 d2 : dict E.
  Hypothesis I1 : dict_inv c1 d1.
  Hypothesis I2 : dict_inv c2 d2.
  Variable rs : list rune.
  Hypothesis HP : forall w, w <> [] -> valid w -> occurs w (string_of_runes rs) -> (pos_word d1 w <-> pos_word d2 w).

  Lemma part_pos : forall k j, k <= j < length rs -> (pos_word d1 (string_of_runes (slice rs k (S j))) <-> pos_word d2 (string_of_runes (slice rs k (S j)))).
  Proof. intros k j H. apply HP; [apply string_nonempty, slice_ne; lia|apply string_valid|apply occurs_slice; lia]. Qed.
  Lemma rows_same : forall k row1 row2, k < length rs -> dag_spec d1 rs k row1 -> dag_spec d2 rs k row2 -> row1 = row2.
  Proof.
    intros k row1 row2 Hk H1 H2. destruct H1 as [[N1 [S1 M1]]|[-> N1]], H2 as [[N2 [S2 M2]]|[-> N2]]; auto.
    - apply ssorted_ext; auto. intro j. rewrite M1, M2. split; intros [A B]; (split; [exact A|]); apply part_pos in B; auto.
    - exfalso. destruct row1 as [|a row]; [congruence|]. destruct (proj1 (M1 a) (or_introl eq_refl)) as [A B]. apply part_pos in B; [|exact A]. exact (N2 _ A B).
    - exfalso. destruct row2 as [|a row]; [congruence|]. destruct (proj1 (M2 a) (or_introl eq_refl)) as [A B]. apply part_pos in B; [|exact A]. exact (N1 _ A B).
  Qed.
  Lemma dag_same : get_dag d1 rs = get_dag d2 rs.
  Proof.
    destruct (get_dag_ok I1 rs) as (g1 & -> & L1 & H1). destruct (get_dag_ok I2 rs) as (g2 & -> & L2 & H2). f_equal. apply nth_ext_error. intro k.
    destruct (Nat.lt_ge_cases k (length rs)) as [Hk|Hk].
    - destruct (H1 k Hk) as (r1 & -> & R1), (H2 k Hk) as (r2 & -> & R2). f_equal. eapply rows_same; eassumption.
    - rewrite (proj2 (nth_error_None g1 k)), (proj2 (nth_error_None g2 k)) by lia. reflexivity.
  Qed.
End Rows.

Section Find.
  Variable E : env.
  Variables c1 c2 : cfg.
  Variables d1 d2 : dict E.
  Hypothesis I1 : dict_inv c1 d1.
  Hypothesis I2 : dict_inv c2 d2.
  Variable rs : list rune.
  Hypothesis Ht : d_total d1 = d_total d2.
  Hypothesis Hf : forall w, w <> [] -> valid w -> occurs w (string_of_runes rs) -> exists f p1 p2 b, dict_find d1 w = Ok (f, p1, b) /\ dict_find d2 w = Ok (f, p2, b).

  Lemma find_pos_same : forall w, w <> [] -> valid w -> occurs w (string_of_runes rs) -> (pos_word d1 w <-> pos_word d2 w).
  Proof. intros w Hw Hv Ho. destruct (Hf Hw Hv Ho) as (f & p1 & p2 & b & F1 & F2). rewrite <- (find_pos I1 F1), <- (find_pos I2 F2). tauto. Qed.
  Lemma find_slice : forall i j, i < j <= length rs -> exists f p1 p2 b, seg_find d1 (string_of_runes (slice rs i j)) = Ok (f, p1, b) /\ seg_find d2 (string_of_runes (slice rs i j)) = Ok (f, p2, b).
  Proof. intros i j H. apply Hf; [|apply string_valid|apply occurs_slice; lia]. destruct j as [|j]; [lia|]. apply string_nonempty, slice_ne; lia. Qed.

  Lemma l_calc_row : forall T idx row tl cur, Forall (fun j => idx <= j < length rs) row -> calc_row d1 rs T idx row tl cur = calc_row d2 rs T idx row tl cur.
  Proof.
    intros T idx. induction row as [|i row IH]; intros tl cur H; cbn [calc_row]; [reflexivity|]. inversion_clear H as [|? ? Hr HF]. destruct (@find_slice idx (S i)) as (f & p1 & p2 & b & -> & ->); [lia|].
    cbn [bind fst snd]. apply IH, HF.
  Qed.
  Lemma l_calc_rows : forall T rows idx, (forall i row, nth_error rows i = Some row -> Forall (fun j => idx + i <= j < length rs) row) -> calc_rows d1 rs T idx rows = calc_rows d2 rs T idx rows.
  Proof.
    intros T. induction rows as [|row rows IH]; intros idx H; cbn [calc_rows]; [reflexivity|]. rewrite IH.
    - destruct (calc_rows d2 _ _ _ _) as [tl| |]; cbn [bind]; try reflexivity. rewrite l_calc_row; [reflexivity|]. specialize (H 0 row eq_refl). rewrite Nat.add_0_r in H. exact H.
    - intros i r Hr. specialize (H (S i) r Hr). replace (S idx + i) with (idx + S i) by lia. exact H.
  Qed.
  Lemma l_calc : calc d1 rs = calc d2 rs.
  Proof.
    unfold calc, calc_with. rewrite Ht, (dag_same I1 I2 find_pos_same). destruct (get_dag_ok I2 rs) as (g & -> & L & H). cbn [bind]. apply l_calc_rows. intros i row Hr.
    assert (Hi : i < length rs) by (rewrite <- L; apply nth_error_Some; congruence). destruct (H i Hi) as (r & R1 & R2). assert (r = row) by congruence. subst r.
    apply Forall_forall. intros j Hj. exact (spec_range Hi R2 Hj).
  Qed.

  Lemma l_flush : forall em reg a x, x <= length rs -> M_Dag.flush d1 em reg (slice rs a x) = M_Dag.flush d2 em reg (slice rs a x).
  Proof.
    intros em reg a x Hx. destruct (Nat.lt_ge_cases a x) as [H|H].
    - destruct (@find_slice a x) as (f & p1 & p2 & b & F1 & F2); [lia|]. unfold M_Dag.flush, dag_hmm. rewrite F1, F2. reflexivity.
    - unfold slice. replace (x - a) with 0 by lia. reflexivity.
  Qed.
  Lemma l_loop : forall em reg (tl : list (route E)) fuel x a r, a <= x <= length rs ->
    dag_loop d1 fuel em reg rs tl x (slice rs a x) r = dag_loop d2 fuel em reg rs tl x (slice rs a x) r /\
    forall b r', dag_loop d2 fuel em reg rs tl x (slice rs a x) r = Ok (b, r') -> exists a', b = slice rs a' (length rs).
  Proof.
    intros em reg tl. induction fuel as [|fuel IH]; intros x a r H; cbn [dag_loop]; (destruct (Nat.leb_spec (length rs) x) as [Hx|Hx]; [split; [reflexivity|]; intros b r' Hb; injection Hb as <- <-; exists a; f_equal; lia|]).
    - split; [reflexivity|discriminate].
    - set (y := S (route_index tl x)). destruct (Nat.le_gt_cases x y) as [H1|H1], (Nat.le_gt_cases y (length rs)) as [H2|H2];
        try (assert (rslice rs x y = Panic) as -> by (unfold rslice; destruct (Nat.leb_spec x y), (Nat.leb_spec y (length rs)); try lia; reflexivity); split; [reflexivity|discriminate]).
      rewrite rslice_ok by lia. cbn [bind]. destruct (y - x =? 1).
      + rewrite slice_app by lia. apply IH. lia.
      + rewrite l_flush by lia. destruct (M_Dag.flush d2 em reg (slice rs a x)) as [o| |]; cbn [bind]; try (split; [reflexivity|discriminate]).
        replace (@nil rune) with (slice rs y y) by (unfold slice; rewrite Nat.sub_diag; reflexivity). apply IH. lia.
  Qed.
  Lemma l_cut : forall em reg tl, (do r <- dag_loop d1 (length rs) em reg rs tl 0 [] [] ; do o <- M_Dag.flush d1 em reg (fst r) ; Ok (snd r ++ o)) =
    (do r <- dag_loop d2 (length rs) em reg rs tl 0 [] [] ; do o <- M_Dag.flush d2 em reg (fst r) ; Ok (snd r ++ o)).
  Proof.
    intros em reg tl. destruct (@l_loop em reg tl (length rs) 0 0 []) as [H1 H2]; [lia|]. change (slice rs 0 0) with (@nil rune) in H1, H2. rewrite H1.
    destruct (dag_loop d2 (length rs) em reg rs tl 0 [] []) as [[b r]| |]; cbn [bind fst snd]; try reflexivity. destruct (H2 b r eq_refl) as (a' & ->). rewrite l_flush by lia. reflexivity.
  Qed.

  Lemma l_grams : forall w n, (forall i, i + n <= length (runes_of w) -> exists f p1 p2 b,
      seg_find d1 (string_of_runes (slice (runes_of w) i (i + n))) = Ok (f, p1, b) /\ seg_find d2 (string_of_runes (slice (runes_of w) i (i + n))) = Ok (f, p2, b)) ->
    forall r, grams_of d1 (runes_of w) n r = grams_of d2 (runes_of w) n r.
  Proof.
    intros w n H r. unfold grams_of. destruct (Nat.leb_spec (length (runes_of w)) n) as [Hl|Hl]; [reflexivity|].
    assert (G : forall is, Forall (fun i => i + n <= length (runes_of w)) is -> forall r, grams d1 (runes_of w) n is r = grams d2 (runes_of w) n is r).
    { induction is as [|i is IH]; intros HF q; cbn [grams]; [reflexivity|]. inversion_clear HF as [|? ? Hi HF']. destruct (H i Hi) as (f & p1 & p2 & b & -> & ->). cbn [bind fst snd]. apply IH, HF'. }
    apply G. apply Forall_forall. intros i Hi. apply in_seq in Hi. lia.
  Qed.
  Lemma l_search : forall ws, Forall valid ws -> Forall (fun w => occurs w (string_of_runes rs)) ws -> forall r, search_loop d1 ws r = search_loop d2 ws r.
  Proof.
    induction ws as [|w ws IH]; intros Hv Ho r; cbn [search_loop]; [reflexivity|]. inversion_clear Hv as [|? ? Hw Hv']. inversion_clear Ho as [|? ? Hwo Ho'].
    assert (G : forall n, 0 < n -> forall r, grams_of d1 (runes_of w) n r = grams_of d2 (runes_of w) n r).
    { intros n Hn. apply l_grams. intros i Hi. apply Hf.
      - destruct n as [|n]; [lia|]. rewrite Nat.add_succ_r. apply string_nonempty, slice_ne; lia.
      - apply string_valid.
      - eapply occurs_trans; [|exact Hwo]. rewrite <- (proj2 (roundtrip_iff w) Hw) at 2. apply occurs_slice. lia. }
    rewrite (G 2) by lia. destruct (grams_of d2 (runes_of w) 2 r) as [r2| |]; cbn [bind]; try reflexivity. rewrite (G 3) by lia. destruct (grams_of d2 (runes_of w) 3 r2) as [r3| |]; cbn [bind]; try reflexivity.
    apply IH; assumption.
  Qed.
End Find.

(** Find reads the frequency and whether a word begins so. *)
Lemma find_local : forall E c1 c2 (d1 d2 : dict E), dict_inv c1 d1 -> dict_inv c2 d2 -> forall w, w <> [] -> (forall f, stored d1 w f <-> stored d2 w f) ->
  ((exists x f, stored d1 (w ++ x) f) <-> (exists x f, stored d2 (w ++ x) f)) -> exists f p1 p2 b, dict_find d1 w = Ok (f, p1, b) /\ dict_find d2 w = Ok (f, p2, b).
Proof.
  assert (A : forall E c (d : dict E) w v, dict_inv c d -> t_get (d_trie d) w = Some v -> exists t, nth_error (d_tokens d) v = Some t /\ stored d w (t_freq t)).
  { intros E c d w v I G. destruct (ok_entry (inv_ok I) G) as (t & N & _). exists t. split; [exact N|]. exists v, t. rewrite dict_value_get. auto. }
  intros E c1 c2 d1 d2 I1 I2 w Hw Hs Hx. rewrite (find_eq w I1), (find_eq w I2). destruct (t_get (d_trie d1) w) as [v1|] eqn:G1.
  - destruct (A E c1 d1 w v1 I1 G1) as (t1 & -> & S1). destruct (proj1 (Hs _) S1) as (v2 & t2 & G2 & N2 & F). rewrite dict_value_get in G2. rewrite G2, N2, F. do 4 eexists. split; reflexivity.
  - destruct (t_get (d_trie d2) w) as [v2|] eqn:G2.
    + destruct (A E c2 d2 w v2 I2 G2) as (t2 & _ & S2). destruct (proj2 (Hs _) S2) as (v1 & t1 & G1' & _). rewrite dict_value_get in G1'. congruence.
    + exists (lit64 E 0 0), [], [], (t_path (d_trie d1) w). destruct w as [|a w]; [congruence|]. split; [reflexivity|]. do 2 f_equal.
      assert (K : forall E c (d : dict E), dict_inv c d -> (t_path (d_trie d) (a :: w) = true <-> exists x f, stored d ((a :: w) ++ x) f)).
      { clear - A. intros E c d I. rewrite t_path_ext. split.
        - intros [H|(x & v & H)]; [discriminate|]. destruct (A E c d _ _ I H) as (t & _ & S). eauto.
        - intros (x & f & v & t & H & _). rewrite dict_value_get in H. eauto. }
      apply eq_true_iff_eq. rewrite (K E c2 d2 I2), (K E c1 d1 I1). symmetry. exact Hx.
Qed.

(** The words of the cutters are valid. *)
Lemma cut_valid : forall E c0 (d : dict E) c em s h ws, reachable c0 d -> cut d c em s (Some h) = Ok ws -> Forall valid ws /\ concat ws = string_of_runes (dag_runes E c s).
Proof.
  intros E c0 d c em s h ws Hr H. destruct h; cbn [cut] in H.
  - destruct (@c24 E c0 d em c s [] Hr ltac:(constructor) ltac:(cbn; auto)) as (ws' & H1 & H2 & H3). assert (ws' = ws) by congruence. subst ws'. split; [|rewrite dag_text_eq; exact H3].
    destruct (hmm_dag_cut (reachable_inv Hr) em (reg := []) ltac:(constructor) c s) as (tl & ps & wss & K1 & K2 & K3 & K4 & K5).
    assert (ws = concat wss) as -> by congruence. apply Forall_concat. clear - K5. induction K5 as [|g ws gs wss Hg H IH]; constructor; [|exact IH].
    unfold group_words in Hg. set (t := string_of_runes (concat (snd g))) in *. assert (Ht : valid t) by apply string_valid.
    destruct (fst g && (2 <=? length (snd g))); [|subst ws; repeat constructor; exact Ht].
    assert (Hm : Forall valid (map string_of_runes (snd g))) by (apply Forall_map, Forall_forall; intros; apply string_valid).
    destruct (dict_find d t) as [[[v q] []]| |]; [destruct (eqb64 E v (lit64 E 0 0)); [|subst ws; exact Hm]| | |]; eapply hmm_cut_valid; eauto.
  - destruct (@c23 E c0 d c s Hr) as (ws' & H1 & H2 & H3). assert (ws' = ws) by congruence. subst ws'. split; [|rewrite dag_text_eq; exact H3].
    destruct (nohmm_cut (reachable_inv Hr) c s) as (tl & ps & K1 & K2 & K3 & K4).
    assert (ws = map (fun g => string_of_runes (concat (snd g))) (runs eng ps)) as -> by congruence. apply Forall_map, Forall_forall. intros. apply string_valid.
Qed.
Lemma occurs_words : forall ws, Forall (fun w => occurs w (concat ws)) ws.
Proof. intro ws. apply Forall_forall. intros w H. apply in_split in H as (a & b & ->). rewrite concat_app. cbn [concat]. exists (concat a), (concat b). reflexivity. Qed.

Section Cuts.
  Variable E : env.
  Variables c1 c2 c : cfg.
  Variables d1 d2 : dict E.
  Hypothesis R1 : reachable c1 d1.
  Hypothesis R2 : reachable c2 d2.
  Variable s : bytes.
  Let text := if c_lower c then to_lower_str E s else reencode s.

  Lemma c91_all : (forall w, w <> [] -> valid w -> occurs w text -> (pos_word d1 w <-> pos_word d2 w)) -> cut_all d1 c s = cut_all d2 c s.
  Proof.
    intro H. unfold cut_all. rewrite (@dag_same E c1 c2 d1 d2 (reachable_inv R1) (reachable_inv R2) (dag_runes E c s)); [reflexivity|]. rewrite dag_text_eq. exact H.
  Qed.

  Hypothesis Ht : d_total d1 = d_total d2.
  Hypothesis H : forall w, w <> [] -> valid w -> occurs w text -> (forall f, stored d1 w f <-> stored d2 w f) /\ ((exists x f, stored d1 (w ++ x) f) <-> (exists x f, stored d2 (w ++ x) f)).

  Lemma finds : forall w, w <> [] -> valid w -> occurs w (string_of_runes (dag_runes E c s)) -> exists f p1 p2 b, dict_find d1 w = Ok (f, p1, b) /\ dict_find d2 w = Ok (f, p2, b).
  Proof. intros w Hw Hv Ho. rewrite dag_text_eq in Ho. destruct (H Hw Hv Ho). eapply (find_local (reachable_inv R1) (reachable_inv R2)); eassumption. Qed.
  Lemma c91_cut : forall em h, cut d1 c em s (Some h) = cut d2 c em s (Some h).
  Proof.
    intros em [|]; cbn [cut]; [unfold cut_dag|unfold cut_dag_nohmm]; rewrite (l_calc (reachable_inv R1) (reachable_inv R2) Ht finds).
    - destruct (calc d2 (dag_runes E c s)) as [tl| |]; cbn [bind]; try reflexivity. apply l_cut. apply finds.
    - reflexivity.
  Qed.
  Lemma c91_reg : forall em reg, cut_dag d1 c em s reg = cut_dag d2 c em s reg.
  Proof.
    intros em reg. unfold cut_dag. rewrite (l_calc (reachable_inv R1) (reachable_inv R2) Ht finds).
    destruct (calc d2 (dag_runes E c s)) as [tl| |]; cbn [bind]; try reflexivity. apply l_cut. apply finds.
  Qed.
  Lemma c91_search : forall em h, cut_search d1 c em s (Some h) = cut_search d2 c em s (Some h).
  Proof.
    intros em h. cbn [cut_search]. unfold cut_for_search. rewrite c91_cut. destruct (cut d2 c em s (Some h)) as [ws| |] eqn:K; cbn [bind]; try reflexivity.
    destruct (cut_valid R2 K) as [V C]. apply (l_search finds); [exact V|]. rewrite <- C. apply occurs_words.
  Qed.
End Cuts.

(** AddToken and RemoveToken change one word. *)
Lemma stored_added : forall E c (d d' : dict E) text f p, reachable c d -> seg_add_token c d text f p = Ok d' -> forall w, w <> norm E c text -> forall g, stored d' w g <-> stored d w g.
Proof.
  intros E c d d' text f p R Ha w Hw g. destruct (added Ha) as [->|(_ & Ht & t & Hts)]; [tauto|].
  unfold stored. rewrite !dict_value_get, (Ht w Hw), Hts. split; intros (v & t1 & V & N & Q); exists v, t1; (split; [exact V|]; split; [|exact Q]).
  - destruct (ok_entry (inv_ok (reachable_inv R)) V) as (y & Ny & _). rewrite nth_error_app1 in N by (apply nth_error_Some; congruence). exact N.
  - rewrite nth_error_app1 by (apply nth_error_Some; congruence). exact N.
Qed.
Lemma stored_removed : forall E c (d d' : dict E) text b, reachable c d -> seg_remove_token c d text = Ok (d', b) -> forall w, (forall x, w <> norm E c text ++ x) -> forall g, stored d' w g <-> stored d w g.
Proof.
  intros E c d d' text b R Hd w Hw g. unfold seg_remove_token in Hd. rewrite split_words_eq in Hd. cbn [bind] in Hd. destruct (remove_token d (wsplit E c text)) as [d2|] eqn:Er; [|injection Hd as <- _; tauto].
  injection Hd as <- _. unfold remove_token, t_delete, text_bytes in Er. rewrite wsplit_norm in Er. destruct (t_path (d_trie d) (norm E c text)); [|discriminate].
  assert (Hp : is_prefix (norm E c text) w = false). { destruct (is_prefix (norm E c text) w) eqn:P; [|reflexivity]. apply is_prefix_spec in P as [x ->]. exfalso. apply (Hw x). reflexivity. }
  assert (Hq : beqb w (norm E c text) = false) by (apply beqb_neq; intros ->; apply (Hw []); rewrite app_nil_r; reflexivity).
  unfold stored. rewrite !dict_value_get. destruct (t_get (d_trie d) (norm E c text)).
  - injection Er as <-. cbn [d_trie d_tokens]. rewrite (t_get_filter (fun x => negb (beqb x (norm E c text)))), Hq. tauto.
  - injection Er as <-. cbn [d_trie d_tokens]. destruct (q_drop E); [|tauto]. rewrite (t_get_filter (fun x => negb (is_prefix (norm E c text) x))), Hp. tauto.
Qed.

Lemma c91_add : forall E c (d d' : dict E) text f p s, reachable c d -> seg_add_token c d text f p = Ok d' ->
  ~ occurs (norm E c text) (if c_lower c then to_lower_str E s else reencode s) -> cut_all d' c s = cut_all d c s.
Proof.
  intros E c d d' text f p s R Ha Ho. apply (c91_all (added_reachable R Ha) R). intros w _ _ Hw. unfold pos_word.
  assert (Hne : w <> norm E c text) by (intros ->; exact (Ho Hw)). split; intros (g & S & L); exists g; (split; [|exact L]); apply (stored_added R Ha Hne); exact S.
Qed.
Lemma removed_reachable : forall E c (d d' : dict E) text b, reachable c d -> seg_remove_token c d text = Ok (d', b) -> reachable c d'.
Proof. intros E c d d' text b [os Ho] H. exists (os ++ [OpRemove text]). rewrite run_ops_app, Ho. cbn [bind run_ops run_op]. rewrite H. reflexivity. Qed.
Lemma c91_remove : forall E c (d d' : dict E) text b s, reachable c d -> seg_remove_token c d text = Ok (d', b) ->
  ~ occurs (norm E c text) (if c_lower c then to_lower_str E s else reencode s) -> cut_all d' c s = cut_all d c s.
Proof.
  intros E c d d' text b s R Ha Ho. apply (c91_all (removed_reachable R Ha) R). intros w _ _ Hw. unfold pos_word.
  assert (Hne : forall x, w <> norm E c text ++ x). { intros x ->. apply Ho. eapply occurs_trans; [|exact Hw]. exists [], x. reflexivity. }
  split; intros (g & S & L); exists g; (split; [|exact L]); apply (stored_removed R Ha Hne); exact S.
Qed.
Lemma removed_total : forall E c (d d' : dict E) text b, seg_remove_token c d text = Ok (d', b) -> d_total d' = d_total d.
Proof.
  intros E c d d' text b H. unfold seg_remove_token in H. rewrite split_words_eq in H. cbn [bind] in H. destruct (remove_token d (wsplit E c text)) as [d2|] eqn:Er; [|injection H as <- _; reflexivity].
  injection H as <- _. unfold remove_token in Er. destruct (t_delete _ _ _); [|discriminate]. injection Er as <-. reflexivity.
Qed.
Lemma prefix_cmp : forall (a b x y : bytes), a ++ x = b ++ y -> (exists z, a = b ++ z) \/ (exists z, b = a ++ z).
Proof.
  induction a as [|u a IH]; intros [|v b] x y H; [left; exists []; reflexivity|right; eexists; reflexivity|left; eexists; reflexivity|]. cbn in H. injection H as -> H.
  destruct (IH b x y H) as [(z & ->)|(z & ->)]; [left|right]; exists z; reflexivity.
Qed.
Lemma removed_local : forall E c (d d' : dict E) text b s, reachable c d -> seg_remove_token c d text = Ok (d', b) -> text <> [] ->
  (forall w x, norm E c text = w ++ x -> w <> [] -> valid w -> ~ occurs w s) ->
  (~ occurs (norm E c text) s) ->
  forall w, w <> [] -> valid w -> occurs w s -> (forall f, stored d' w f <-> stored d w f) /\ ((exists x f, stored d' (w ++ x) f) <-> (exists x f, stored d (w ++ x) f)).
Proof.
  intros E c d d' text b s R Ha Hne Hp Hn w Hw Hv Ho.
  assert (K : forall x y, w ++ x <> norm E c text ++ y).
  { intros x y He. destruct (prefix_cmp He) as [(z & ->)|(z & Hz)].
    - apply Hn. eapply occurs_trans; [|exact Ho]. exists [], z. reflexivity.
    - exact (Hp w z Hz Hw Hv Ho). }
  split.
  - apply (stored_removed R Ha). intros x Hx. apply (K [] x). rewrite app_nil_r. exact Hx.
  - split; intros (x & f & S); exists x, f; apply (stored_removed R Ha (K x)); exact S.
Qed.
