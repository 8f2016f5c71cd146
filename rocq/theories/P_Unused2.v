(** Removing a word that a cut does not use (C112). *)
From Verif Require Import P_Utf8b P_Chars S_Dag M_Out Ieee P_Ieee P_Split P_Dict P_Seg P_Seg2 P_Hist P_Hmm P_Dag P_Dag2 P_Dag3.
Set Implicit Arguments. Unset Strict Implicit.

Section Rows.
  Variables (E : env) (d : dict E) (T : f64 E) (rs : list rune) (tl : list (route E)).
  Hypothesis L : laws64 E.
  Hypothesis Hr : routes_ok d T rs tl.
  Hypothesis Hn : forall k qs, tiles d (skipn k rs) qs -> num64 (weight d T qs).
  Lemma row_num : forall i row j, i < length rs -> dag_spec d rs i row -> In j row -> num64 (fst (cand' d T rs tl i j)).
  Proof.
    intros i row j Hlt R1 Hj. pose proof (spec_range Hlt R1 Hj) as Hj'. destruct (@follows_ex _ d _ rs tl Hr (length rs) (S j)) as (ps & Hps); [lia|lia|]. destruct (follows_tiles Hr Hps) as [T1 T2].
    pose proof (Hn (row_tile Hlt R1 Hj T1)) as Hw. unfold weight in Hw. cbn [fold_right] in Hw. fold (weight d T ps) in Hw. rewrite T2 in Hw. exact Hw.
  Qed.
  Lemma row_below : forall i, i < length rs -> exists row, dag_spec d rs i row /\ In (route_index tl i) row /\ rt tl i = cand' d T rs tl i (route_index tl i) /\
    forall j, In j row -> below (cand' d T rs tl i j) (rt tl i).
  Proof.
    intros i Hlt. destruct (ro_step Hr Hlt) as (row & R1 & R2). exists row. split; [exact R1|].
    assert (Hj : exists j, In j row /\ rt tl i = cand' d T rs tl i j).
    { pose proof (spec_ne R1) as Hne. destruct row as [|j0 row]; [congruence|]. rewrite R2. cbn [map best_of].
      destruct (fold_better_in (map (cand' d T rs tl i) row) (cand' d T rs tl i j0)) as [Hx|Hx]; [exists j0; split; [left; reflexivity|exact Hx]|].
      apply in_map_iff in Hx as (j & Hj & Hin). exists j. split; [right; exact Hin|]. symmetry; exact Hj. }
    destruct Hj as (j & Hj & He). assert (Hx : route_index tl i = j) by (unfold route_index; unfold rt in He; rewrite He; reflexivity). rewrite Hx. split; [exact Hj|]. split; [exact He|].
    intros j' Hj'. assert (Hnum : Forall (fun y => num64 (fst y)) (map (cand' d T rs tl i) row)) by (apply Forall_map, Forall_forall; intros z Hz; apply row_num with row; assumption).
    rewrite R2. pose proof (in_map (cand' d T rs tl i) row j' Hj') as Hin. destruct (map (cand' d T rs tl i) row) as [|x l]; [destruct Hin|].
    inversion_clear Hnum. apply best_below; auto.
  Qed.
End Rows.

Lemma follows_unique : forall E rs (tl : list (route E)) x ps, follows rs tl x ps -> forall ps', follows rs tl x ps' -> ps = ps'.
Proof.
  intros E rs tl x ps H. induction H as [|x ps H1 H2 H3 IH]; intros ps' H'; inversion H'; subst; try reflexivity; try lia. f_equal. apply IH. assumption.
Qed.

Section Less2.
  Variables (E : env) (c0 : cfg) (d d' : dict E) (w : bytes) (T : f64 E).
  Hypothesis L : laws64 E.
  Hypothesis Hre : reachable c0 d.
  Hypothesis Hre' : reachable c0 d'.
  Hypothesis Hnone : dict_value d' w = None.
  Hypothesis Hother : forall x, x <> w -> dict_value d' x = dict_value d x /\ (dict_value d x <> None -> dict_find d' x = dict_find d x).
  Hypothesis Htok : d_tokens d' = d_tokens d.
  (** More than one character, and the first one is itself a word. *)
  Hypothesis Hfirst : forall r x, w = string_of_runes [r] ++ x -> x <> [] /\ pos_word d (string_of_runes [r]).

  Lemma pos_same : forall x, pos_word d' x <-> pos_word d x /\ x <> w.
  Proof.
    intro x. unfold pos_word, stored. rewrite Htok. destruct (list_eq_dec Byte.byte_eq_dec x w) as [->|N].
    - split; [|tauto]. intros (f & (v & t & V & _) & _). congruence.
    - rewrite (proj1 (Hother N)). tauto.
  Qed.
  Lemma single_ne : forall r, string_of_runes [r] <> w.
  Proof. intros r K. destruct (@Hfirst r []) as [K1 _]; [rewrite app_nil_r; auto|congruence]. Qed.
  Lemma edge_same : forall x, x <> [] -> x <> w -> (dict_value d x = None -> forall y, w <> x ++ y) -> edge d' T x = edge d T x.
  Proof.
    intros x Hx Nx Hp. destruct (Hother Nx) as [V F]. unfold edge. destruct (dict_value d x) as [v|] eqn:Ev; [rewrite F by congruence; reflexivity|].
    specialize (Hp eq_refl). destruct (c14 x Hre) as (f & p & b & F1 & B1). destruct (c14 x Hre') as (f' & p' & b' & F2 & B2). rewrite F1, F2.
    rewrite (find_eq x (reachable_inv Hre)) in F1. rewrite (find_eq x (reachable_inv Hre')) in F2. rewrite <- !dict_value_get in F1, F2. rewrite Ev in F1. rewrite V in F2.
    assert (Hb : b = true <-> b' = true).
    { rewrite B1, B2. split; intros [(u & U)|(_ & z & u & Z & U)]; try congruence; right; (split; [exact Hx|exists z, u; split; [exact Z|]]).
      - assert (N : x ++ z <> w) by (intro K; exact (Hp z (eq_sym K))). rewrite (proj1 (Hother N)). exact U.
      - assert (N : x ++ z <> w) by (intro K; exact (Hp z (eq_sym K))). rewrite <- (proj1 (Hother N)). exact U. }
    injection F1 as E1 _ _. injection F2 as E2 _ _. subst f f'. destruct b, b'; try reflexivity; exfalso; [destruct Hb as [Hb _]|destruct Hb as [_ Hb]]; specialize (Hb eq_refl); discriminate.
  Qed.
  Lemma edge_word : forall x, x <> [] -> x <> w -> pos_word d x -> edge d' T x = edge d T x.
  Proof. intros x Hx N (f & (v & t & V & _) & _). apply edge_same; auto. congruence. Qed.
  Lemma edge_char : forall r, edge d' T (string_of_runes [r]) = edge d T (string_of_runes [r]).
  Proof.
    intro r. apply edge_same; [apply string_nonempty; discriminate|apply single_ne|]. intros V y K. destruct (Hfirst K) as [_ (f & (v & t & V' & _) & _)]. congruence.
  Qed.
  Lemma char_first : forall a q, string_of_runes (a :: q) = w -> pos_word d' (string_of_runes [a]).
  Proof.
    intros a q K. apply pos_same. split; [|apply single_ne]. apply (Hfirst (r := a) (x := string_of_runes q)). rewrite <- K. change (a :: q) with ([a] ++ q). apply string_app.
  Qed.
  Lemma tiles_more : forall rs ps, tiles d' rs ps -> tiles d rs ps /\ weight d' T ps = weight d T ps.
  Proof.
    intros rs ps H. induction H as [|p rest ps Hp Hw H [IH1 IH2]|a rest ps Hno H [IH1 IH2]].
    - split; [constructor|reflexivity].
    - apply pos_same in Hw as [Hw Nw]. split; [apply tiles_word; assumption|]. unfold weight in *. cbn [fold_right]. rewrite IH2, edge_word; auto. apply string_nonempty; exact Hp.
    - split.
      + apply tiles_char; [|exact IH1]. intros q t Hq Hne Hpw. destruct (list_eq_dec Byte.byte_eq_dec (string_of_runes q) w) as [K|K].
        * destruct q as [|b q]; [congruence|]. injection Hq as <- Hq. apply (Hno [a] rest eq_refl); [discriminate|]. apply char_first with q. exact K.
        * apply (Hno q t Hq Hne). apply pos_same. auto.
      + unfold weight in *. cbn [fold_right]. rewrite IH2, edge_char. reflexivity.
  Qed.

  Variables (rs : list rune) (tl tl' : list (route E)).
  Hypothesis Hr : routes_ok d T rs tl.
  Hypothesis Hr' : routes_ok d' T rs tl'.
  Hypothesis Hn : forall k qs, tiles d (skipn k rs) qs -> num64 (weight d T qs).
  Lemma num' : forall k qs, tiles d' (skipn k rs) qs -> num64 (weight d' T qs).
  Proof. intros k qs H. destruct (tiles_more H) as [H1 ->]. apply (Hn H1). Qed.
  Lemma down : forall i, i <= length rs -> le64 (fst (rt tl' i)) (fst (rt tl i)).
  Proof.
    intros i Hle. destruct (@follows_ex _ d' _ rs tl' Hr' (length rs) i) as (ps & Hps); [lia|exact Hle|]. destruct (follows_tiles Hr' Hps) as [T1 T2].
    destruct (tiles_more T1) as [T3 T4]. rewrite <- T2, T4. exact (proj1 (route_best L Hr Hn (n := length rs) ltac:(lia) Hle T3)).
  Qed.
  Notation word i j := (string_of_runes (slice rs i (S j))).
  Lemma word_first : forall i j, i <= j < length rs -> word i j = w -> pos_word d' (word i i).
  Proof.
    intros i j Hj K. assert (S1 : slice rs i (S j) = slice rs i (S i) ++ slice rs (S i) (S j)) by (symmetry; apply slice_app; lia).
    assert (S2 : length (slice rs i (S i)) = 1) by (rewrite slice_length by lia; lia). destruct (slice rs i (S i)) as [|a [|]] eqn:Ea; try discriminate.
    apply char_first with (slice rs (S i) (S j)). rewrite <- K, S1. reflexivity.
  Qed.
  (** A row of [d'] is the row of [d] without [w]. *)
  Lemma row_less : forall i row row' j, i < length rs -> dag_spec d rs i row -> dag_spec d' rs i row' -> (In j row' <-> In j row /\ word i j <> w).
  Proof.
    intros i row row' j Hlt [[A1 [_ A2]]|[-> A2]] [[B1 [_ B2]]|[-> B2]].
    - rewrite A2, B2, pos_same. tauto.
    - exfalso. destruct row as [|k row]; [congruence|]. destruct (proj1 (A2 k) (or_introl eq_refl)) as [K1 K2].
      destruct (list_eq_dec Byte.byte_eq_dec (word i k) w) as [K|K]; [apply (B2 i); [lia|]; apply word_first with k; [lia|exact K]|apply (B2 k K1), pos_same; auto].
    - exfalso. destruct row' as [|k row']; [congruence|]. destruct (proj1 (B2 k) (or_introl eq_refl)) as [K1 K2]. apply pos_same in K2 as [K2 _]. exact (A2 k K1 K2).
    - split; [|tauto]. intros [<-|[]]. split; [left; reflexivity|]. assert (S2 : length (slice rs i (S i)) = 1) by (rewrite slice_length by lia; lia).
      destruct (slice rs i (S i)) as [|a [|]]; try discriminate. apply single_ne.
  Qed.
  Lemma row_edge : forall i row j, i < length rs -> dag_spec d rs i row -> In j row -> word i j <> w -> edge d' T (word i j) = edge d T (word i j).
  Proof.
    intros i row j Hlt [[A1 [_ A2]]|[-> A2]] Hj N.
    - apply A2 in Hj as [Hj Hp]. apply edge_word; auto. apply string_nonempty. apply slice_ne; lia.
    - destruct Hj as [<-|[]]. assert (S2 : length (slice rs i (S i)) = 1) by (rewrite slice_length by lia; lia). destruct (slice rs i (S i)) as [|a [|]]; try discriminate. apply edge_char.
  Qed.
  Lemma follows_kept : forall x ps, follows rs tl x ps -> ~ In w (map string_of_runes ps) -> follows rs tl' x ps /\ fst (rt tl' x) = fst (rt tl x).
  Proof.
    intros x ps H. induction H as [|x ps H1 H2 H3 IH]; intro Hnot.
    - rewrite (ro_end Hr), (ro_end Hr'). split; [constructor|reflexivity].
    - cbn [map] in Hnot. destruct IH as [F V]; [intro K; apply Hnot; right; exact K|]. set (j := route_index tl x) in *.
      assert (Nj : word x j <> w) by (intro K; apply Hnot; left; exact K).
      destruct (row_below L Hr Hn H1) as (row & R1 & R2 & R3 & R4). destruct (row_below L Hr' num' H1) as (row' & Q1 & Q2 & Q3 & Q4). fold j in R2, R3. set (j' := route_index tl' x) in *.
      assert (Ej : cand' d' T rs tl' x j = cand' d T rs tl x j) by (unfold cand'; rewrite (row_edge H1 R1 R2 Nj), V; reflexivity).
      assert (Rj : In j row') by (apply (row_less j H1 R1 Q1); auto).
      destruct (Q4 j Rj) as [L1 L2]. rewrite Ej, <- R3 in L1, L2. pose proof (down (i := x) ltac:(lia)) as Dn.
      pose proof (proj1 (row_less j' H1 R1 Q1) Q2) as [Rj' Nj'].
      assert (Eq : eqb64 E (fst (rt tl x)) (fst (rt tl' x)) = true) by (apply (le_anti64 L); assumption).
      assert (J1 : j <= j') by (specialize (L2 Eq); rewrite R3, Q3 in L2; exact L2).
      assert (J2 : j' <= j).
      { destruct (R4 j' Rj') as [K1 K2]. assert (U : le64 (fst (rt tl' x)) (fst (cand' d T rs tl x j'))).
        { rewrite Q3. unfold cand'. cbn [fst]. rewrite (row_edge H1 R1 Rj' Nj'). pose proof (spec_range H1 R1 Rj').
          apply (add_r64 L); [|exact (row_num Hr Hn H1 R1 Rj')|apply down; lia].
          pose proof (row_num Hr' num' H1 Q1 Q2) as M. unfold cand' in M. cbn [fst] in M. rewrite (row_edge H1 R1 Rj' Nj') in M. exact M. }
        assert (Eq2 : eqb64 E (fst (cand' d T rs tl x j')) (fst (rt tl x)) = true) by (apply (le_anti64 L); [exact K1|]; apply (le_trans64 L) with (2 := U); exact L1).
        specialize (K2 Eq2). rewrite R3 in K2. exact K2. }
      assert (Hj : j' = j) by lia. split.
      + replace (slice rs x (S j)) with (slice rs x (S (route_index tl' x))) by (fold j'; rewrite Hj; reflexivity).
        apply fo_step; [exact H1|fold j'; rewrite Hj; exact H2|fold j'; rewrite Hj; exact F].
      + rewrite Q3, Hj, Ej, <- R3. reflexivity.
  Qed.
End Less2.

Lemma runs_in : forall A (p : A -> bool) l a, In a l -> p a = false -> In (false, [a]) (runs p l).
Proof.
  induction l as [|b l IH]; intros a Ha Hp; [destruct Ha|]. cbn [runs]. destruct Ha as [->|Ha]; [rewrite Hp; left; reflexivity|].
  specialize (IH a Ha Hp). destruct (p b); [|right; exact IH]. destruct (runs p l) as [|[[] r] g]; [destruct IH| |right; exact IH].
  destruct IH as [IH|IH]; [discriminate IH|right; exact IH].
Qed.

Lemma unused_cut : forall (E : env) c0 (d d' : dict E) c s w out, ar E = ieee -> reachable c0 d -> reachable c0 d' ->
  dict_value d' w = None ->
  (forall x, x <> w -> dict_value d' x = dict_value d x /\ (dict_value d x <> None -> dict_find d' x = dict_find d x)) ->
  d_tokens d' = d_tokens d -> d_total d' = d_total d ->
  (forall r x, w = string_of_runes [r] ++ x -> x <> [] /\ pos_word d (string_of_runes [r])) ->
  (forall k qs, tiles d (skipn k (dag_runes E c s)) qs -> num64 (weight d (m_log E (d_total d)) qs)) ->
  cut_dag_nohmm d c s = Ok out -> ~ In w out -> cut_dag_nohmm d' c s = Ok out.
Proof.
  intros E c0 d d' c s w out HE Hr Hr' Hnone Hother Htok Htot Hfirst Hn Hcut Hnot.
  destruct (nohmm_cut (reachable_inv Hr) c s) as (tl & ps & _ & H2 & H3 & H4). destruct (nohmm_cut (reachable_inv Hr') c s) as (tl' & ps' & _ & K2 & K3 & K4).
  rewrite Htot in K2. rewrite H4 in Hcut. injection Hcut as <-.
  assert (L : laws64 E) by (rewrite HE; exact ieee_laws64).
  assert (Hps : ~ In w (map string_of_runes ps)).
  { intro K. apply in_map_iff in K as (p & K1 & K5). apply Hnot. apply in_map_iff. exists (false, [p]). split; [cbn [snd concat]; rewrite app_nil_r; exact K1|].
    apply runs_in; [exact K5|]. destruct p as [|r [|]]; try reflexivity. exfalso. apply (single_ne Hfirst K1). }
  destruct (follows_kept L Hr Hr' Hnone Hother Htok Hfirst H2 K2 Hn H3 Hps) as [F _].
  rewrite K4, (follows_unique K3 F). reflexivity.
Qed.

(** *** With the HMM *)
Section Groups.
  Variables (E : env) (c0 : cfg) (d d' : dict E) (w : bytes) (em : emits E) (reg : list matcher).
  Hypothesis Hre : reachable c0 d.
  Hypothesis Hre' : reachable c0 d'.
  Hypothesis Hother : forall x, x <> w -> dict_value d' x = dict_value d x /\ (dict_value d x <> None -> dict_find d' x = dict_find d x).
  Hypothesis H00 : eqb64 E (lit64 E 0 0) (lit64 E 0 0) = true.
  Lemma group_same : forall g ws ws', string_of_runes (concat (snd g)) <> w -> group_words d em reg g ws -> group_words d' em reg g ws' -> ws = ws'.
  Proof.
    intros g ws ws' N. unfold group_words. set (t := string_of_runes (concat (snd g))) in *. destruct (fst g && (2 <=? length (snd g))); [|congruence].
    destruct (Hother N) as [V F]. destruct (dict_value d t) as [v|] eqn:Ev.
    - rewrite F by congruence. destruct (dict_find d t) as [[[f p] []]| |]; try congruence. destruct (eqb64 E f (lit64 E 0 0)); congruence.
    - rewrite (find_eq t (reachable_inv Hre)), (find_eq t (reachable_inv Hre')). rewrite <- !dict_value_get. rewrite Ev, V.
      repeat match goal with |- context [if ?b then _ else _] => rewrite H00 | |- context [match ?b with true => _ | false => _ end] => destruct b end; congruence.
  Qed.
  Lemma groups_same : forall gs wss wss', (forall g, In g gs -> string_of_runes (concat (snd g)) <> w) ->
    Forall2 (group_words d em reg) gs wss -> Forall2 (group_words d' em reg) gs wss' -> wss = wss'.
  Proof.
    induction gs as [|g gs IH]; intros wss wss' N H H'; inversion H; inversion H'; subst; [reflexivity|]. f_equal.
    - eapply group_same; eauto. apply N. left; reflexivity.
    - apply IH; auto. intros g' Hg. apply N. right; exact Hg.
  Qed.
End Groups.

Lemma absent_cut : forall (E : env) c0 (d d' : dict E) c em s w, ar E = ieee -> reachable c0 d -> reachable c0 d' ->
  dict_value d' w = None ->
  (forall x, x <> w -> dict_value d' x = dict_value d x /\ (dict_value d x <> None -> dict_find d' x = dict_find d x)) ->
  d_tokens d' = d_tokens d -> d_total d' = d_total d ->
  (forall r x, w = string_of_runes [r] ++ x -> x <> [] /\ pos_word d (string_of_runes [r])) ->
  (forall k qs, tiles d (skipn k (dag_runes E c s)) qs -> num64 (weight d (m_log E (d_total d)) qs)) ->
  (forall a m b, dag_runes E c s = a ++ m ++ b -> string_of_runes m <> w) -> cut_dag d' c em s [] = cut_dag d c em s [].
Proof.
  intros E c0 d d' c em s w HE Hr Hr' Hnone Hother Htok Htot Hfirst Hn Habs.
  destruct (hmm_dag_cut (reachable_inv Hr) em (Forall_nil _) c s) as (tl & ps & wss & _ & H2 & H3 & H4 & H5).
  destruct (hmm_dag_cut (reachable_inv Hr') em (Forall_nil _) c s) as (tl' & ps' & wss' & _ & K2 & K3 & K4 & K5).
  rewrite Htot in K2. assert (L : laws64 E) by (rewrite HE; exact ieee_laws64).
  pose proof (follows_concat H3) as Hc. cbn [skipn] in Hc.
  assert (Hps : ~ In w (map string_of_runes ps)).
  { intro K. apply in_map_iff in K as (p & K1 & K6). apply in_split in K6 as (l1 & l2 & ->). rewrite concat_app in Hc. cbn [concat] in Hc. exact (Habs _ _ _ (eq_sym Hc) K1). }
  destruct (follows_kept L Hr Hr' Hnone Hother Htok Hfirst H2 K2 Hn H3 Hps) as [F _]. rewrite (follows_unique K3 F) in K5.
  assert (H00 : eqb64 E (lit64 E 0 0) (lit64 E 0 0) = true).
  { apply (Hn (length (dag_runes E c s)) []). rewrite skipn_all. constructor. }
  rewrite H4, K4, (groups_same (em := em) (reg := []) Hr Hr' Hother H00 (gs := runs single ps) (wss := wss) (wss' := wss')); [reflexivity| |exact H5|exact K5].
  intros g Hg. apply in_split in Hg as (g1 & g2 & Eg). pose proof (runs_concat single ps) as Hrc. rewrite Eg, map_app, concat_app in Hrc. cbn [map concat] in Hrc.
  rewrite <- Hrc, !concat_app in Hc. exact (Habs _ _ _ (eq_sym Hc)).
Qed.

(** *** CutSearch *)
Notation fix_rune := (fun r : rune => if scalar r then r else RuneError).
Lemma str_fix : forall m, string_of_runes m = concat (map enc (map fix_rune m)).
Proof. intro m. unfold string_of_runes. rewrite map_map. reflexivity. Qed.
Lemma runes_fix : forall m, runes_of (string_of_runes m) = map fix_rune m.
Proof.
  intro m. rewrite str_fix. apply runes_encs. apply Forall_map, Forall_forall. intros r _. cbn beta. destruct (scalar r) eqn:Es; [exact Es|reflexivity].
Qed.
Lemma string_fix : forall m, string_of_runes (map fix_rune m) = string_of_runes m.
Proof.
  intro m. unfold string_of_runes. rewrite map_map. f_equal. apply map_ext. intro r. unfold string_of_rune. destruct (scalar r) eqn:Es; [rewrite Es; reflexivity|reflexivity].
Qed.
Lemma slice_split : forall A (l : list A) i n, l = firstn i l ++ slice l i (i + n) ++ skipn (i + n) l.
Proof.
  intros A l i n. unfold slice. replace (i + n - i) with n by lia. rewrite <- (firstn_skipn i l) at 1. f_equal. rewrite <- (firstn_skipn n (skipn i l)) at 1. f_equal.
  rewrite skipn_skipn. f_equal. lia.
Qed.
Lemma slice_map : forall A B (f : A -> B) l i j, slice (map f l) i j = map f (slice l i j).
Proof. intros A B f l i j. unfold slice. rewrite skipn_map, firstn_map. reflexivity. Qed.
Section Search.
  Variables (E : env) (c0 : cfg) (d d' : dict E) (w : bytes).
  Hypothesis Hre : reachable c0 d.
  Hypothesis Hre' : reachable c0 d'.
  Hypothesis Hother : forall x, x <> w -> dict_value d' x = dict_value d x /\ (dict_value d x <> None -> dict_find d' x = dict_find d x).
  Hypothesis H00 : ltb64 E (lit64 E 0 0) (lit64 E 0 0) = false.
  Lemma gram_same : forall x, x <> w -> exists r r', seg_find d x = Ok r /\ seg_find d' x = Ok r' /\
    (snd r' && ltb64 E (lit64 E 0 0) (fst (fst r')))%bool = (snd r && ltb64 E (lit64 E 0 0) (fst (fst r)))%bool.
  Proof.
    intros x N. destruct (Hother N) as [V F]. destruct (dict_value d x) as [v|] eqn:Ev.
    - destruct (find_total (reachable_inv Hre) x) as (f & p & b & Hf). exists (f, p, b), (f, p, b). unfold seg_find in *. rewrite F by congruence. auto.
    - unfold seg_find. rewrite (find_eq x (reachable_inv Hre)), (find_eq x (reachable_inv Hre')), <- !dict_value_get, Ev, V.
      eexists. eexists. split; [reflexivity|]. split; [reflexivity|]. cbn [fst snd]. rewrite H00, !andb_false_r. reflexivity.
  Qed.
  Lemma grams_same : forall rs n is acc, (forall i, string_of_runes (slice rs i (i + n)) <> w) -> grams d' rs n is acc = grams d rs n is acc.
  Proof.
    intros rs n is. induction is as [|i is IH]; intros acc N; [reflexivity|]. cbn [grams]. destruct (gram_same (N i)) as (r & r' & R1 & R2 & R3). rewrite R1, R2. cbn [bind]. rewrite R3. apply IH, N.
  Qed.
  Lemma search_same : forall ws acc, (forall x, In x ws -> forall i n, string_of_runes (slice (runes_of x) i (i + n)) <> w) -> search_loop d' ws acc = search_loop d ws acc.
  Proof.
    induction ws as [|x ws IH]; intros acc N; [reflexivity|]. cbn [search_loop].
    assert (G : forall n a, grams_of d' (runes_of x) n a = grams_of d (runes_of x) n a).
    { intros n a. unfold grams_of. destruct (length (runes_of x) <=? n); [reflexivity|]. apply grams_same. intro i. apply N. left; reflexivity. }
    rewrite G. destruct (grams_of d (runes_of x) 2 acc) as [r2| |]; cbn [bind]; try reflexivity. rewrite G. destruct (grams_of d (runes_of x) 3 r2) as [r3| |]; cbn [bind]; try reflexivity.
    apply IH. intros y Hy. apply N. right; exact Hy.
  Qed.
End Search.

Lemma absent_search : forall (E : env) c0 (d d' : dict E) c em s w, ar E = ieee -> reachable c0 d -> reachable c0 d' ->
  dict_value d' w = None ->
  (forall x, x <> w -> dict_value d' x = dict_value d x /\ (dict_value d x <> None -> dict_find d' x = dict_find d x)) ->
  d_tokens d' = d_tokens d -> d_total d' = d_total d ->
  (forall r x, w = string_of_runes [r] ++ x -> x <> [] /\ pos_word d (string_of_runes [r])) ->
  (forall k qs, tiles d (skipn k (dag_runes E c s)) qs -> num64 (weight d (m_log E (d_total d)) qs)) ->
  (forall a m b, dag_runes E c s = a ++ m ++ b -> string_of_runes m <> w) -> cut_search d' c em s (Some false) = cut_search d c em s (Some false).
Proof.
  intros E c0 d d' c em s w HE Hr Hr' Hnone Hother Htok Htot Hfirst Hn Habs. cbn [cut_search]. unfold cut_for_search. cbn [cut].
  destruct (nohmm_cut (reachable_inv Hr) c s) as (tl & ps & _ & H2 & H3 & H4). pose proof (follows_concat H3) as Hc. cbn [skipn] in Hc.
  assert (Hg : forall x, In x (map (fun g => string_of_runes (concat (snd g))) (runs eng ps)) -> exists a m b, dag_runes E c s = a ++ m ++ b /\ x = string_of_runes m).
  { intros x Hx. apply in_map_iff in Hx as (g & <- & Hg). apply in_split in Hg as (g1 & g2 & Eg). pose proof (runs_concat eng ps) as Hrc. rewrite Eg, map_app, concat_app in Hrc. cbn [map concat] in Hrc.
    rewrite <- Hrc, !concat_app in Hc. symmetry in Hc. eauto. }
  assert (Hcut : cut_dag_nohmm d' c s = cut_dag_nohmm d c s).
  { rewrite H4. apply (unused_cut HE Hr Hr' Hnone Hother Htok Htot Hfirst Hn H4). intro K. destruct (Hg _ K) as (a & m & b & K1 & K2). exact (Habs a m b K1 (eq_sym K2)). }
  rewrite Hcut, H4. cbn [bind]. assert (L : laws64 E) by (rewrite HE; exact ieee_laws64).
  assert (H00 : ltb64 E (lit64 E 0 0) (lit64 E 0 0) = false).
  { assert (K : num64 (lit64 E 0 0)) by (apply (Hn (length (dag_runes E c s)) []); rewrite skipn_all; constructor). destruct (le_refl64 L K) as (_ & _ & K2). exact K2. }
  apply (search_same Hr Hr' Hother H00). intros x Hx i n. destruct (Hg x Hx) as (a & m & b & K1 & ->). rewrite runes_fix.
  rewrite slice_map, string_fix.
  apply (Habs (a ++ firstn i m) _ (skipn (i + n) m ++ b)). rewrite K1. rewrite (slice_split m i n) at 1. rewrite <- !app_assoc. reflexivity.
Qed.
