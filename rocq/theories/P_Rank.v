(** TextRank: pairs, graph and rounds. *)
From Verif Require Import S_Rank Ieee P_Ieee P_Idf P_Idf2 P_Trim.
From Coq Require Import Reals Lra Lia.
Set Implicit Arguments. Unset Strict Implicit.

Lemma beqb_comm : forall a b, beqb a b = beqb b a.
Proof. intros a b. destruct (beqb b a) eqn:E; [apply beqb_eq in E; subst; apply beqb_refl|]. destruct (beqb a b) eqn:E'; [apply beqb_eq in E'; subst; rewrite beqb_refl in E; discriminate|reflexivity]. Qed.
Lemma fold_left_ext : forall A B (f g : A -> B -> A) l a, (forall a b, In b l -> f a b = g a b) -> fold_left f l a = fold_left g l a.
Proof. intros A B f g. induction l as [|b l IH]; intros a H; [reflexivity|]. cbn. rewrite (H a b) by (left; reflexivity). apply IH. intros. apply H. right. assumption. Qed.

(** ** Pairs *)
Lemma pair_eqb_eq : forall p q, pair_eqb p q = true <-> p = q.
Proof.
  intros [a b] [a' b']. unfold pair_eqb. cbn [fst snd]. rewrite andb_true_iff. split.
  - intros [H1 H2]. apply beqb_eq in H1, H2. congruence.
  - intro H. injection H as -> ->. rewrite !beqb_refl. auto.
Qed.
Lemma pair_eqb_refl : forall p, pair_eqb p p = true.
Proof. intro p. apply pair_eqb_eq. reflexivity. Qed.
Lemma pair_eqb_neq : forall p q, pair_eqb p q = false <-> p <> q.
Proof. intros p q. rewrite <- not_true_iff_false, pair_eqb_eq. tauto. Qed.
Lemma pair_tally_cons : forall k p l, pair_tally k (p :: l) = (if pair_eqb k p then 1 else 0) + pair_tally k l.
Proof. intros k [a b] l. reflexivity. Qed.
Lemma pair_tally_app : forall k a b, pair_tally k (a ++ b) = pair_tally k a + pair_tally k b.
Proof. intros k. induction a as [|p a IH]; intro b; [reflexivity|]. cbn [app]. rewrite !pair_tally_cons, IH. lia. Qed.
Lemma pair_tally_le : forall k l, pair_tally k l <= length l.
Proof. intros k. induction l as [|p l IH]; [auto|]. rewrite pair_tally_cons. cbn [length]. destruct (pair_eqb k p); lia. Qed.
Lemma pair_tally_in : forall k l, In k l -> 1 <= pair_tally k l.
Proof. intros k. induction l as [|p l IH]; intros []; rewrite pair_tally_cons; [subst; rewrite pair_eqb_refl; lia|]. specialize (IH H). lia. Qed.
Lemma pair_tally_not : forall k l, ~ In k l -> pair_tally k l = 0.
Proof. intros k. induction l as [|p l IH]; intro H; [reflexivity|]. rewrite pair_tally_cons. destruct (pair_eqb k p) eqn:E; [apply pair_eqb_eq in E; subst; destruct H; left; reflexivity|]. apply IH. intro. apply H. right. assumption. Qed.
(** Counting a function over a list by distinct values. *)
Lemma pair_tally_sum : forall (f : bytes * bytes -> nat) ns keys, NoDup keys -> (forall k, In k ns -> In k keys) ->
  list_sum (map (fun k => pair_tally k ns * f k) keys) = list_sum (map f ns).
Proof.
  intros f ns keys Hd. induction ns as [|v ns IH]; intro H.
  - cbn. clear. induction keys; [reflexivity|]. cbn. exact IHkeys.
  - cbn [map list_sum fold_right]. change (fold_right Init.Nat.add 0) with list_sum. rewrite <- IH by (intros k Hk; apply H; right; exact Hk). assert (Hv : In v keys) by (apply H; left; reflexivity). clear IH H. revert Hv.
    induction Hd as [|k keys Hk Hd IH]; intros []; cbn [map list_sum fold_right]; change (fold_right Init.Nat.add 0) with list_sum; rewrite pair_tally_cons.
    + subst k. rewrite pair_eqb_refl. replace (map (fun k => pair_tally k (v :: ns) * f k) keys) with (map (fun k => pair_tally k ns * f k) keys); [lia|].
      apply map_ext_in. intros k Hk'. rewrite pair_tally_cons. destruct (pair_eqb k v) eqn:E; [apply pair_eqb_eq in E; subst; destruct (Hk Hk')|reflexivity].
    + rewrite (IH H). destruct (pair_eqb k v) eqn:E; [apply pair_eqb_eq in E; subst; destruct (Hk H)|]. lia.
Qed.

Lemma nears_cons : forall allow x t, nears allow (x :: t) = flat_map (near_at allow (x :: t) 0) [1; 2; 3; 4] ++ nears allow t.
Proof.
  intros allow x t. unfold nears at 1. cbn [length seq flat_map]. f_equal. rewrite <- seq_shift. unfold nears. rewrite !flat_map_concat_map, map_map. f_equal.
Qed.
Section Rank.
  Variable E : env.
  Lemma cm_row_fold : forall allow a ps (m : cmap E), cm_row allow a ps m = fold_left (@cm_add E) (flat_map (fun bq => if in_list (snd bq) allow then [(a, fst bq)] else []) ps) m.
  Proof. intros allow a. induction ps as [|[b q] ps IH]; intro m; [reflexivity|]. cbn [cm_row flat_map fst snd]. rewrite IH, fold_left_app. destruct (in_list q allow); reflexivity. Qed.
  Lemma cm_rows_fold : forall allow ps (m : cmap E), cm_rows allow ps m = fold_left (@cm_add E) (nears allow ps) m.
  Proof.
    intros allow. induction ps as [|[a p] ps IH]; intro m; [reflexivity|]. cbn [cm_rows]. rewrite IH, nears_cons, fold_left_app. f_equal. clear IH.
    unfold near_at. cbn [flat_map nth_error]. destruct (in_list p allow); cbn [andb].
    - rewrite cm_row_fold. f_equal. destruct ps as [|[? ?] [|[? ?] [|[? ?] [|[? ?] ?]]]]; reflexivity.
    - destruct ps as [|[? ?] [|[? ?] [|[? ?] [|[? ?] ?]]]]; reflexivity.
  Qed.
  Lemma nears_len : forall allow ps, length (nears allow ps) <= 4 * length ps.
  Proof.
    intros allow. induction ps as [|x ps IH]; [auto|]. rewrite nears_cons, app_length. cbn [length].
    enough (forall j, length (near_at allow (x :: ps) 0 j) <= 1) as K by (cbn [flat_map]; rewrite !app_length; pose proof (K 1); pose proof (K 2); pose proof (K 3); pose proof (K 4); cbn [length]; lia).
    intro j. unfold near_at. destruct (nth_error (x :: ps) 0) as [[? ?]|]; [|auto]. destruct (nth_error (x :: ps) j) as [[? ?]|]; [|auto]. destruct (_ && _); auto.
  Qed.
  Lemma nears_in : forall allow ps a b, In (a, b) (nears allow ps) <-> exists i j p q, nth_error ps i = Some (a, p) /\ nth_error ps j = Some (b, q) /\ In p allow /\ In q allow /\ i < j < i + 5.
  Proof.
    intros allow ps a b. unfold nears. rewrite in_flat_map. split.
    - intros (i & Hi & H). apply in_flat_map in H as (j & Hj & H). apply in_seq in Hi, Hj. unfold near_at in H. destruct (nth_error ps i) as [[a' p]|] eqn:Ei; [|destruct H]. destruct (nth_error ps j) as [[b' q]|] eqn:Ej; [|destruct H].
      destruct (in_list p allow) eqn:Ep; [|destruct H]. destruct (in_list q allow) eqn:Eq; [|destruct H]. destruct H as [H|[]]. injection H as -> ->. apply in_list_true in Ep, Eq. exists i, j, p, q. repeat split; auto; lia.
    - intros (i & j & p & q & Ei & Ej & Hp & Hq & Hij). exists i. split.
      + apply in_seq. assert (nth_error ps i <> None) as K by congruence. apply nth_error_Some in K. lia.
      + apply in_flat_map. exists j. split; [apply in_seq; lia|]. unfold near_at. rewrite Ei, Ej. apply in_list_true in Hp, Hq. rewrite Hp, Hq. left. reflexivity.
  Qed.
  Lemma members_in : forall ns w, In w (members ns) <-> exists a b, In (a, b) ns /\ (w = a \/ w = b).
  Proof.
    intros ns w. unfold members. rewrite in_flat_map. split.
    - intros ([a b] & H & [<-|[<-|[]]]); exists a, b; cbn; auto.
    - intros (a & b & H & K). exists (a, b). split; [exact H|]. cbn. destruct K; auto.
  Qed.
  Lemma ranked_in : forall allow ps w, ranked allow ps w <-> In w (members (nears allow ps)).
  Proof.
    intros allow ps w. rewrite members_in. split.
    - intros (i & j & p & q & b & H1 & H2 & H3 & H4 & H5 & H6 & H7). destruct (Nat.lt_ge_cases i j) as [H|H].
      + exists w, b. split; [|auto]. apply nears_in. exists i, j, p, q. repeat split; auto.
      + exists b, w. split; [|auto]. apply nears_in. exists j, i, q, p. repeat split; auto; lia.
    - intros (a & b & H & K). apply nears_in in H as (i & j & p & q & H1 & H2 & H3 & H4 & H5). destruct K as [->| ->]; [exists i, j, p, q, b|exists j, i, q, p, a]; repeat split; auto; lia.
  Qed.

  (** ** Counts *)
  Hypothesis HE : ar E = ieee.
  Notation lit n := (lit64 E (Z.of_nat n) 0).
  Lemma cm_add_keys : forall (m : cmap E) w k, In k (map fst (cm_add m w)) <-> k = w \/ In k (map fst m).
  Proof.
    induction m as [|[k' f] m IH]; intros w k; cbn [cm_add map In fst]; [intuition|]. destruct (pair_eqb k' w) eqn:Ek; cbn [map In fst].
    - apply pair_eqb_eq in Ek. subst k'. intuition.
    - rewrite IH. intuition.
  Qed.
  Lemma cm_add_in : forall (m : cmap E) w k f, NoDup (map fst m) -> In (k, f) (cm_add m w) ->
    (k <> w /\ In (k, f) m) \/ (k = w /\ ((~ In w (map fst m) /\ f = lit 1) \/ exists g, In (w, g) m /\ f = add64 E g (lit 1))).
  Proof.
    induction m as [|[k' f'] m IH]; intros w k f Hd; cbn [cm_add].
    - intros [H|[]]. injection H as <- <-. right. split; [reflexivity|]. left. auto.
    - cbn [map fst] in Hd. inversion_clear Hd. destruct (pair_eqb k' w) eqn:Ek.
      + apply pair_eqb_eq in Ek. subst k'. intros [H1|H1].
        * injection H1 as <- <-. right. split; [reflexivity|]. right. exists f'. split; [left; reflexivity|reflexivity].
        * left. split; [intros ->; apply H; exact (in_map fst _ _ H1)|right; exact H1].
      + assert (Hne : k' <> w) by (apply pair_eqb_neq; exact Ek). intros [H1|H1].
        * injection H1 as <- <-. left. split; [exact Hne|left; reflexivity].
        * destruct (IH w k f H0 H1) as [[G1 G2]|[G1 [[G2 G3]|(g & G2 & G3)]]]; [left; split; [exact G1|right; exact G2]|right; split; [exact G1|left]|right; split; [exact G1|right; exists g; split; [right; exact G2|exact G3]]].
          split; [intros [K|K]; [exact (Hne K)|exact (G2 K)]|exact G3].
  Qed.
  Lemma cm_add_nodup : forall (m : cmap E) w, NoDup (map fst m) -> NoDup (map fst (cm_add m w)).
  Proof.
    induction m as [|[k f] m IH]; intros w H; cbn [cm_add map fst]; [constructor; [intros []|constructor]|]. destruct (pair_eqb k w) eqn:Ek; [exact H|]. cbn [map fst] in *. inversion_clear H. constructor; [|auto].
    rewrite cm_add_keys. intros [->|K]; [rewrite pair_eqb_refl in Ek; discriminate|auto].
  Qed.
  Lemma counts_add : forall done (m : cmap E) w, big (S (length done)) -> counts done m -> counts (done ++ [w]) (cm_add m w).
  Proof.
    intros done m w Hb (H1 & H2 & H3). split; [apply cm_add_nodup, H1|]. split.
    - intro k. rewrite cm_add_keys, H2, in_app_iff. cbn. intuition.
    - intros k f H. destruct (cm_add_in H1 H) as [[G1 G2]|[-> [[G2 G3]|(g & G2 & G3)]]].
      + rewrite pair_tally_app, pair_tally_cons. cbn [pair_tally]. rewrite (proj2 (pair_eqb_neq k w) G1). rewrite !Nat.add_0_r. exact (H3 k f G2).
      + rewrite pair_tally_app, pair_tally_cons. cbn [pair_tally]. rewrite pair_eqb_refl, pair_tally_not; [exact G3|]. rewrite <- H2. exact G2.
      + rewrite pair_tally_app, pair_tally_cons. cbn [pair_tally]. rewrite pair_eqb_refl, Nat.add_0_r. rewrite (H3 _ _ G2) in G3. rewrite G3. apply (add_lits HE). unfold big in *. pose proof (pair_tally_le w done). lia.
  Qed.
  Lemma counts_fold : forall ns done (m : cmap E), big (length done + length ns) -> counts done m -> counts (done ++ ns) (fold_left (@cm_add E) ns m).
  Proof.
    induction ns as [|w ns IH]; intros done m Hb H; [rewrite app_nil_r; exact H|]. cbn [fold_left]. change (w :: ns) with ([w] ++ ns). rewrite app_assoc. apply IH.
    - unfold big in *. rewrite app_length. cbn [length] in *. lia.
    - apply counts_add; [unfold big in *; cbn [length] in *; lia|exact H].
  Qed.
  Lemma counts_ok : forall allow ps, big (4 * length ps) -> counts (nears allow ps) (cm_rows allow ps ([] : cmap E)).
  Proof.
    intros allow ps Hb. rewrite cm_rows_fold. apply (@counts_fold (nears allow ps) []).
    - unfold big in *. cbn [length]. pose proof (nears_len allow ps). lia.
    - split; [constructor|]. split; [intro k; reflexivity|intros k x []].
  Qed.
  Lemma counts_perm : forall ns (l l' : cmap E), counts ns l -> Permutation l l' -> counts ns l'.
  Proof.
    intros ns l l' (H1 & H2 & H3) Hp. split; [eapply Permutation_NoDup; [apply Permutation_map; exact Hp|exact H1]|]. split.
    - intro k. rewrite <- H2. split; apply Permutation_in; [symmetry|]; apply Permutation_map; exact Hp.
    - intros k x H. apply H3. eapply Permutation_in; [symmetry; exact Hp|exact H].
  Qed.

  (** ** The graph *)
  Lemma g_app_edges : forall (g : graph E) s e n, edges_of (g_app g s e) n = edges_of g n ++ (if beqb s n then [e] else []).
  Proof.
    induction g as [|[k es] g IH]; intros s e n; unfold edges_of; cbn [g_app find fst snd].
    - destruct (beqb s n); reflexivity.
    - destruct (beqb k s) eqn:Ek; cbn [find fst snd].
      + apply beqb_eq in Ek. subst s. destruct (beqb k n); [reflexivity|]. rewrite app_nil_r. reflexivity.
      + destruct (beqb k n) eqn:En.
        * apply beqb_eq in En. subst n. destruct (beqb s k) eqn:E'; [apply beqb_eq in E'; subst; rewrite beqb_refl in Ek; discriminate|]. rewrite app_nil_r. reflexivity.
        * apply IH.
  Qed.
  Lemma g_app_keys : forall (g : graph E) s e k, In k (map fst (g_app g s e)) <-> k = s \/ In k (map fst g).
  Proof.
    induction g as [|[k' es] g IH]; intros s e k; cbn [g_app map In fst]; [intuition|]. destruct (beqb k' s) eqn:Ek; cbn [map In fst].
    - apply beqb_eq in Ek. subst k'. intuition.
    - rewrite IH. intuition.
  Qed.
  Lemma g_app_nodup : forall (g : graph E) s e, NoDup (map fst g) -> NoDup (map fst (g_app g s e)).
  Proof.
    induction g as [|[k es] g IH]; intros s e H; cbn [g_app map fst]; [constructor; [intros []|constructor]|]. destruct (beqb k s) eqn:Ek; [exact H|]. cbn [map fst] in *. inversion_clear H. constructor; [|auto].
    rewrite g_app_keys. intros [->|K]; [rewrite beqb_refl in Ek; discriminate|auto].
  Qed.
  Lemma graph_edges : forall l (g : graph E) n, edges_of (fold_left (@add_edge E) l g) n = edges_of g n ++ neighbours l n.
  Proof.
    induction l as [|e l IH]; intros g n; [cbn; rewrite app_nil_r; reflexivity|]. cbn [fold_left neighbours flat_map]. rewrite IH. unfold add_edge. rewrite !g_app_edges. rewrite <- !app_assoc. reflexivity.
  Qed.
  Lemma graph_keys : forall l (g : graph E) k, In k (map fst (fold_left (@add_edge E) l g)) <-> In k (members (map fst l)) \/ In k (map fst g).
  Proof.
    induction l as [|e l IH]; intros g k; [cbn; intuition|]. cbn [fold_left map members flat_map app In]. rewrite IH. unfold add_edge. rewrite !g_app_keys. intuition.
  Qed.
  Lemma graph_nodup : forall l (g : graph E), NoDup (map fst g) -> NoDup (map fst (fold_left (@add_edge E) l g)).
  Proof. induction l as [|e l IH]; intros g H; [exact H|]. cbn [fold_left]. apply IH. unfold add_edge. apply g_app_nodup, g_app_nodup, H. Qed.
  Lemma neighbours_in : forall (l : cmap E) n m w, In (m, w) (neighbours l n) -> exists k, In (k, w) l /\ (k = (n, m) \/ k = (m, n)).
  Proof.
    intros l n m w H. unfold neighbours in H. apply in_flat_map in H as ([[a b] x] & Hl & H). cbn [fst snd] in H. exists (a, b). apply in_app_or in H as [H|H].
    - destruct (beqb a n) eqn:E1; [|destruct H]. destruct H as [H|[]]. injection H as -> ->. apply beqb_eq in E1. subst a. auto.
    - destruct (beqb b n) eqn:E1; [|destruct H]. destruct H as [H|[]]. injection H as -> ->. apply beqb_eq in E1. subst b. auto.
  Qed.

  (** Sums of counts. *)
  Definition mult (n : bytes) (k : bytes * bytes) : nat := (if beqb (fst k) n then 1 else 0) + (if beqb (snd k) n then 1 else 0).
  Lemma degree_sum : forall ns n, degree ns n = list_sum (map (mult n) ns).
  Proof.
    intros ns n. unfold degree, members. induction ns as [|[a b] ns IH]; [reflexivity|]. cbn [flat_map app tally map list_sum fold_right mult fst snd] in *. change (fold_right Init.Nat.add 0) with list_sum. rewrite <- IH.
    unfold mult. cbn [fst snd]. rewrite (beqb_comm n a), (beqb_comm n b). lia.
  Qed.
  Lemma degree_le : forall ns n, degree ns n <= 2 * length ns.
  Proof. intros ns n. rewrite degree_sum. induction ns as [|k ns IH]; [auto|]. cbn [map list_sum fold_right length]. change (fold_right Init.Nat.add 0) with list_sum. unfold mult at 1. destruct (beqb _ _), (beqb _ _); lia. Qed.
  Lemma degree_pos : forall ns n, In n (members ns) -> 1 <= degree ns n.
  Proof. intros ns n H. apply tally_in. exact H. Qed.
  (** The weights of the neighbours as counts. *)
  Definition nbs (ns : list (bytes * bytes)) (l : cmap E) (n : bytes) : list (bytes * nat) :=
    flat_map (fun e => (if beqb (fst (fst e)) n then [(snd (fst e), pair_tally (fst e) ns)] else []) ++ (if beqb (snd (fst e)) n then [(fst (fst e), pair_tally (fst e) ns)] else [])) l.
  Lemma nbs_neighbours : forall ns l n, counts ns l -> neighbours l n = map (fun mw => (fst mw, lit (snd mw))) (nbs ns l n).
  Proof.
    intros ns l n (_ & _ & H). unfold neighbours, nbs. rewrite !flat_map_concat_map, concat_map, map_map. f_equal. apply map_ext_in. intros [k x] Hin. rewrite (H k x Hin). cbn [fst snd]. rewrite map_app.
    destruct (beqb (fst k) n), (beqb (snd k) n); reflexivity.
  Qed.
  Lemma nbs_sum : forall ns l n, counts ns l -> list_sum (map snd (nbs ns l n)) = degree ns n.
  Proof.
    intros ns l n (H1 & H2 & _). rewrite degree_sum. rewrite <- (@pair_tally_sum (mult n) ns (map fst l) H1 (fun k => proj2 (H2 k))).
    clear H1 H2. unfold nbs. induction l as [|[k x] l IH]; [reflexivity|]. cbn [flat_map map fst snd]. rewrite !map_app, !list_sum_app, IH. cbn [list_sum map fold_right]. change (fold_right Init.Nat.add 0) with list_sum.
    unfold mult. destruct (beqb (fst k) n), (beqb (snd k) n); cbn [map fst snd list_sum fold_right]; lia.
  Qed.
  Lemma nbs_in : forall ns (l : cmap E) n m c, counts ns l -> In (m, c) (nbs ns l n) -> 1 <= c /\ c <= degree ns m /\ In m (members ns) /\ In n (members ns).
  Proof.
    intros ns l n m c (H1 & H2 & H3) H. unfold nbs in H. apply in_flat_map in H as ([[a b] x] & Hl & H). cbn [fst snd] in H.
    assert (Hk : In (a, b) ns) by (apply H2; exact (in_map fst _ _ Hl)).
    assert (Hd : forall w, w = a \/ w = b -> pair_tally (a, b) ns <= degree ns w).
    { intros w Hw. rewrite degree_sum. clear - Hw. induction ns as [|p ns IH]; [auto|]. rewrite pair_tally_cons. cbn [map list_sum fold_right]. change (fold_right Init.Nat.add 0) with list_sum.
      destruct (pair_eqb (a, b) p) eqn:Ep; [|lia]. apply pair_eqb_eq in Ep. subst p. unfold mult at 1. cbn [fst snd]. destruct Hw as [->| ->]; rewrite beqb_refl; lia. }
    pose proof (pair_tally_in Hk) as Hc.
    assert (M : In a (members ns) /\ In b (members ns)) by (split; apply members_in; exists a, b; auto).
    apply in_app_or in H as [H|H].
    - destruct (beqb a n) eqn:E1; [|destruct H]. destruct H as [H|[]]. injection H as <- <-. apply beqb_eq in E1. subst a. intuition.
    - destruct (beqb b n) eqn:E1; [|destruct H]. destruct H as [H|[]]. injection H as <- <-. apply beqb_eq in E1. subst b. intuition.
  Qed.
  Lemma out_sum_ok : forall ns l n, big (2 * length ns) -> counts ns l -> out_sum (fold_left (@add_edge E) l []) n = lit (degree ns n).
  Proof.
    intros ns l n Hb Hc. unfold out_sum. rewrite graph_edges. cbn [app]. change (edges_of [] n) with (@nil (bytes * f64 E)). cbn [app]. rewrite (nbs_neighbours n Hc).
    pose proof (nbs_sum n Hc) as Hs. pose proof (degree_le ns n) as Hd. revert Hs Hd. generalize (degree ns n) as dg. generalize (nbs ns l n) as q. intros q dg Hs Hd.
    assert (forall (q : list (bytes * nat)) a, fold_left (fun s e => add64 E s (snd e)) (map (fun mw => (fst mw, lit (snd mw))) q) a = fold_left (add64 E) (map (fun n => lit n) (map snd q)) a) as K.
    { induction q0 as [|[m w] q0 IH]; intro a; [reflexivity|]. cbn [map fold_left fst snd]. apply IH. }
    rewrite K. change (lit64 E 0 0) with (lit 0). rewrite (sum_lits HE); rewrite Hs; [reflexivity|]. unfold big in *. lia.
  Qed.

  (** ** Rounds *)
  Lemma w_get_put : forall ws n (x : f64 E) m, w_get (w_put ws n x) m = if beqb n m then x else w_get ws m.
  Proof.
    induction ws as [|[k y] ws IH]; intros n x m; cbn [w_put w_get]; [destruct (beqb n m); reflexivity|]. destruct (beqb k n) eqn:Ek; cbn [w_get].
    - apply beqb_eq in Ek. subst n. destruct (beqb k m); reflexivity.
    - rewrite IH. destruct (beqb k m) eqn:Em; [|reflexivity]. apply beqb_eq in Em. subst m. rewrite (beqb_comm n k), Ek. reflexivity.
  Qed.
  Lemma w_put_keys : forall ws n (x : f64 E), In n (map fst ws) -> map fst (w_put ws n x) = map fst ws.
  Proof.
    induction ws as [|[k y] ws IH]; intros n x H; [destruct H|]. cbn [w_put]. destruct (beqb k n) eqn:Ek; [reflexivity|]. cbn [map fst] in *. rewrite IH; [reflexivity|].
    destruct H as [->|H]; [rewrite beqb_refl in Ek; discriminate|exact H].
  Qed.
  Lemma w_get_in : forall ws n (x : f64 E), NoDup (map fst ws) -> In (n, x) ws -> w_get ws n = x.
  Proof.
    induction ws as [|[k y] ws IH]; intros n x Hd H; [destruct H|]. cbn [map fst] in Hd. inversion_clear Hd. cbn [w_get]. destruct H as [H|H].
    - injection H as -> ->. rewrite beqb_refl. reflexivity.
    - destruct (beqb k n) eqn:Ek; [apply beqb_eq in Ek; subst k; destruct H0; exact (in_map fst _ _ H)|auto].
  Qed.
  Definition step_val (g : graph E) (ws : list (bytes * f64 E)) (n : bytes) : f64 E :=
    add64 E (lit64 E 5404319552844595 (-55)) (mul64 E (lit64 E 7656119366529843 (-53))
      (fold_left (fun s e => add64 E s (mul64 E (div64 E (snd e) (out_sum g (fst e))) (w_get ws (fst e)))) (edges_of g n) (lit64 E 0 0))).
  Lemma round_other : forall g keys ws n, ~ In n keys -> w_get (fold_left (@rank_step E g) keys ws) n = w_get ws n.
  Proof.
    intros g. induction keys as [|k keys IH]; intros ws n H; [reflexivity|]. cbn [fold_left]. rewrite IH by (intro; apply H; right; assumption). unfold rank_step. rewrite w_get_put.
    destruct (beqb k n) eqn:Ek; [apply beqb_eq in Ek; subst; destruct H; left; reflexivity|reflexivity].
  Qed.
  Lemma round_keys : forall g keys ws, (forall n, In n keys -> In n (map fst ws)) -> map fst (fold_left (@rank_step E g) keys ws) = map fst ws.
  Proof.
    intros g. induction keys as [|k keys IH]; intros ws H; [reflexivity|]. cbn [fold_left]. assert (K : map fst (rank_step g ws k) = map fst ws) by (apply w_put_keys, H; left; reflexivity).
    rewrite IH; [exact K|]. intros n Hn. rewrite K. apply H. right. exact Hn.
  Qed.
  Lemma round_val : forall g keys ws n, StronglySorted (fun a b => ltb_str a b = true) keys -> In n keys -> (forall e, In e (edges_of g n) -> In (fst e) keys) ->
    let ws' := fold_left (@rank_step E g) keys ws in
    w_get ws' n = add64 E (lit64 E 5404319552844595 (-55)) (mul64 E (lit64 E 7656119366529843 (-53))
      (fold_left (fun s e => add64 E s (mul64 E (div64 E (snd e) (out_sum g (fst e))) (if ltb_str (fst e) n then w_get ws' (fst e) else w_get ws (fst e)))) (edges_of g n) (lit64 E 0 0))).
  Proof.
    intros g keys ws n Hs Hn He ws'. apply in_split in Hn as (pre & post & ->). unfold ws'. rewrite fold_left_app. cbn [fold_left]. set (w1 := fold_left (@rank_step E g) pre ws).
    destruct (sorted_app Hs) as [Hpre Hcross]. assert (Hpost : StronglySorted (fun a b => ltb_str a b = true) (n :: post)).
    { clear - Hs. induction pre as [|a pre IH]; [exact Hs|]. cbn in Hs. inversion_clear Hs. auto. }
    inversion_clear Hpost. rewrite Forall_forall in H0.
    assert (Nn : forall m, In m post -> m <> n) by (intros m Hm ->; apply H0 in Hm; rewrite str_irr in Hm; discriminate).
    rewrite round_other by (intro K; exact (Nn n K eq_refl)). unfold rank_step at 1. rewrite w_get_put, beqb_refl. do 2 f_equal.
    assert (K : forall e, In e (edges_of g n) -> w_get w1 (fst e) = if ltb_str (fst e) n then w_get (fold_left (@rank_step E g) post (rank_step g w1 n)) (fst e) else w_get ws (fst e)).
    { intros e Hin. apply He in Hin. apply in_app_or in Hin as [Hin|Hin].
      - assert (Hlt : ltb_str (fst e) n = true) by (apply Hcross; [exact Hin|left; reflexivity]). rewrite Hlt. rewrite round_other.
        + unfold rank_step. rewrite w_get_put. destruct (beqb n (fst e)) eqn:Ee; [apply beqb_eq in Ee; rewrite <- Ee, str_irr in Hlt; discriminate|reflexivity].
        + intro Hp. assert (ltb_str (fst e) (fst e) = true) as Hc by (apply Hcross; [exact Hin|right; exact Hp]). rewrite str_irr in Hc. discriminate.
      - assert (Hlt : ltb_str (fst e) n = false) by (destruct Hin as [<-|Hin]; [apply str_irr|apply str_asym, H0, Hin]). rewrite Hlt. apply round_other.
        intro Hp. assert (ltb_str (fst e) (fst e) = true) as Hc by (apply Hcross; assumption). rewrite str_irr in Hc. discriminate. }
    apply fold_left_ext. intros s e Hin. rewrite (K e Hin). reflexivity.
  Qed.

  Lemma sorted_keys : forall srt l, sorts srt -> NoDup l -> let k := if is_sorted l then l else srt bytes ltb_str l in
    StronglySorted (fun a b => ltb_str a b = true) k /\ Permutation l k.
  Proof.
    intros srt l Hs Hd k.
    assert (Hlt : forall l, NoDup l -> StronglySorted (fun a b => ltb_str b a = false) l -> StronglySorted (fun a b => ltb_str a b = true) l).
    { clear. induction l as [|a l IH]; intros Hd Hs; [constructor|]. inversion_clear Hd. inversion_clear Hs. constructor; [auto|]. rewrite Forall_forall in *. intros b Hb.
      destruct (list_eq_dec Byte.byte_eq_dec a b) as [->|n]; [destruct (H Hb)|]. destruct (str_tri n) as [G|G]; [exact G|]. rewrite (H2 b Hb) in G. discriminate. }
    unfold k. destruct (is_sorted l) eqn:Ei.
    - split; [|reflexivity]. apply Sorted_StronglySorted; [intros a b c; apply str_trans|]. clear - Hd Ei. induction l as [|a [|b l] IH]; [constructor|repeat constructor|]. cbn [is_sorted] in Ei. apply andb_true_iff in Ei as [E1 E2]. inversion_clear Hd.
      constructor; [apply IH; assumption|]. constructor. apply negb_true_iff in E1. assert (n : a <> b) by (intros ->; apply H; left; reflexivity). destruct (str_tri n) as [G|G]; [exact G|congruence].
    - destruct (Hs bytes ltb_str l) as [Hp Hw]. split; [|exact Hp]. apply Hlt; [eapply Permutation_NoDup; eauto|]. apply Hw. split; [|split].
      + intros x _. apply str_irr.
      + intros x y z _ _ _. apply str_trans.
      + intros x y z _ _ _ H1 H2. destruct (ltb_str x z) eqn:E3; [|reflexivity]. destruct (list_eq_dec Byte.byte_eq_dec y z) as [->|n]; [congruence|].
        destruct (str_tri n) as [G|G]; [congruence|]. rewrite (str_trans E3 G) in H1. discriminate.
  Qed.
  Fixpoint rounds (g : graph E) (keys : list bytes) (ws : list (bytes * f64 E)) (x : nat) : list (bytes * f64 E) :=
    match x with O => ws | S x => fold_left (@rank_step E g) keys (rounds g keys ws x) end.
  Lemma rank_rounds_iter : forall k g keys ws, rank_rounds k g keys ws = rounds g keys ws k.
  Proof. induction k as [|k IH]; intros g keys ws; [reflexivity|]. cbn [rank_rounds]. rewrite IH. clear. induction k as [|k IH]; [reflexivity|]. cbn [rounds] in *. rewrite IH. reflexivity. Qed.
  Lemma rounds_keys : forall g keys ws x, (forall n, In n keys -> In n (map fst ws)) -> map fst (rounds g keys ws x) = map fst ws.
  Proof. intros g keys ws x H. induction x as [|x IH]; [reflexivity|]. cbn [rounds]. rewrite round_keys; [exact IH|]. intros n Hn. rewrite IH. apply H, Hn. Qed.
  Definition def_of (g : graph E) : f64 E := match g with [] => lit64 E 1 0 | _ => div64 E (lit64 E 1 0) (lit64 E (Z.of_nat (length g)) 0) end.
  Definition ws_of (g : graph E) : list (bytes * f64 E) := map (fun kv => (fst kv, def_of g)) g.
  Lemma ws_of_keys : forall g, map fst (ws_of g) = map fst g.
  Proof. intro g. unfold ws_of. rewrite map_map. reflexivity. Qed.
  Lemma ws_of_get : forall g n, In n (map fst g) -> w_get (ws_of g) n = div64 E (lit 1) (lit (length g)).
  Proof.
    intros g n Hn. assert (def_of g = div64 E (lit 1) (lit (length g))) as <- by (destruct g; [destruct Hn|reflexivity]). unfold ws_of. generalize (def_of g). intro d.
    induction g as [|[k es] g IH]; [destruct Hn|]. cbn [map w_get fst]. destruct (beqb k n) eqn:Ek; [reflexivity|]. apply IH. destruct Hn as [<-|Hn]; [cbn [fst] in Ek; rewrite beqb_refl in Ek; discriminate|exact Hn].
  Qed.
  Lemma members_counts : forall ns (l : cmap E) k, counts ns l -> In k (members (map fst l)) <-> In k (members ns).
  Proof. intros ns l k (_ & H & _). rewrite !members_in. split; intros (a & b & H1 & H2); exists a, b; (split; [apply H; exact H1|exact H2]). Qed.
  Lemma scores_ok : forall ns l keys, big (2 * length ns) -> counts ns l -> let g := fold_left (@add_edge E) l [] in
    StronglySorted (fun a b => ltb_str a b = true) keys -> Permutation (map fst g) keys -> scores ns l (length g) (fun x w => w_get (rounds g keys (ws_of g) x) w).
  Proof.
    intros ns l keys Hb Hc g Hs Hp w Hw. fold (members ns) in Hw.
    assert (Hk : forall n, In n keys <-> In n (members ns)).
    { intro n. rewrite <- (members_counts n Hc). pose proof (graph_keys l [] n) as K. fold g in K. cbn [map In] in K. split; intro H.
      - assert (In n (map fst g)) as H' by (eapply Permutation_in; [symmetry; exact Hp|exact H]). tauto.
      - eapply Permutation_in; [exact Hp|]. tauto. }
    split.
    - cbn [rounds]. apply ws_of_get. eapply Permutation_in; [symmetry; exact Hp|]. apply Hk, Hw.
    - intro x. assert (Hg : edges_of g w = neighbours l w) by (unfold g; rewrite graph_edges; reflexivity).
      assert (Hedge : forall e, In e (edges_of g w) -> In (fst e) keys).
      { intros [m y] He. rewrite Hg, (nbs_neighbours w Hc) in He. apply in_map_iff in He as ([m' c] & Hq & He). injection Hq as <- <-. apply Hk. cbn [fst]. apply (nbs_in Hc He). }
      cbn [rounds]. rewrite (round_val (rounds g keys (ws_of g) x) Hs (proj2 (Hk w) Hw) Hedge), Hg. do 2 f_equal. apply fold_left_ext. intros s e He.
      unfold g at 1. rewrite (out_sum_ok (fst e) Hb Hc). do 2 f_equal. destruct (ltb_str (fst e) w); reflexivity.
  Qed.
End Rank.
