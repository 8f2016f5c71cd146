(** TextRank: the result. *)
From Verif Require Import S_Rank Ieee P_Ieee P_Idf P_Idf2 P_Rank P_Rank2 P_Rank3.
From Coq Require Import Reals Lra Lia.
From Flocq Require Import Core IEEE754.BinarySingleNaN.
Set Implicit Arguments. Unset Strict Implicit.

Lemma cut_top : forall A (all : list A) topK, (if (0 <? topK)%Z && (topK <? Z.of_nat (length all))%Z then firstn (Z.to_nat topK) all else all) = (if (0 <? topK)%Z then firstn (Z.to_nat topK) all else all).
Proof.
  intros A all topK. destruct (0 <? topK)%Z eqn:E1; [|reflexivity]. cbn [andb]. destruct (topK <? Z.of_nat (length all))%Z eqn:E2; [reflexivity|]. apply Z.ltb_ge in E2. apply Z.ltb_lt in E1. rewrite firstn_all2; [reflexivity|]. lia.
Qed.

Section Fl.
  Variables (u1 u2 u3 u4 u5 : rune -> bool) (u6 : rune -> rune) (u7 u8 : rune -> bool) (u9 : bytes -> option (rune -> bool)) (u10 u11 : b64 -> b64) (u12 : bytes -> b64 * bool) (u13 u14 : bool).
  Notation E := (@Build_env ieee u1 u2 u3 u4 u5 u6 u7 u8 u9 u10 u11 u12 u13 u14).

  Lemma late_range : forall (vs : list (f64 E)) hi lo, @Forall (f64 E) range vs -> vs <> [] -> least vs lo -> late_max vs hi ->
    range lo /\ ((range hi /\ (val lo <= val hi)%R) \/ ((forall x, ~ after vs x) /\ hi = lit_64 1 (-1074))).
  Proof.
    intros vs hi lo Hr Hne [L1 L2] Hl. rewrite Forall_forall in Hr. pose proof (Hr lo L1) as Hlo. split; [exact Hlo|]. destruct Hl as [[A1 _]|[A1 A2]]; [left|right; auto].
    apply after_in in A1. pose proof (Hr hi A1) as Hhi. split; [exact Hhi|]. specialize (L2 hi A1). apply (ltb_false (proj1 Hhi) (proj1 Hlo)) in L2. exact L2.
  Qed.
  Lemma weight_good : forall (vs : list (f64 E)) hi lo w, @Forall (f64 E) range vs -> least vs lo -> late_max vs hi -> In w vs -> num64 (A := ieee) (weight lo hi w).
  Proof.
    intros vs hi lo w Hr Hle Hla Hw. assert (Hne : vs <> []) by (destruct vs; [destruct Hw|discriminate]). destruct (late_range Hr Hne Hle Hla) as (Hlo & H).
    rewrite Forall_forall in Hr. pose proof (Hr w Hw) as Rw. destruct Hle as [L1 L2]. specialize (L2 w Hw). apply (ltb_false (proj1 Rw) (proj1 Hlo)) in L2.
    assert (K : ok (weight lo hi w)). { destruct H as [[H1 H2]|[_ ->]]; [apply (weight_pos Hlo H1 Rw H2 L2)|apply (weight_neg Hlo Rw L2)]. }
    apply num_nan. destruct (weight lo hi w); try discriminate; reflexivity.
  Qed.

  Section Result.
    Variables (srt : sort_fn) (oc : cmap E -> cmap E) (o1 o2 : list (bytes * f64 E) -> list (bytes * f64 E)) (allow : list bytes) (ps : list (bytes * bytes)).
    Hypothesis Hs : sorts srt.
    Hypothesis Hoc : forall m, Permutation m (oc m).
    Hypothesis Ho1 : same_keys_in_any_order (E := E) o1.
    Hypothesis Ho2 : same_keys_in_any_order (E := E) o2.
    Hypothesis Hb : (Z.of_nat (length ps) <= 2 ^ 45)%Z.
    Notation ns := (nears allow ps).
    Lemma ns_len : (Z.of_nat (2 * length ns) <= 2 ^ 48)%Z.
    Proof. pose proof (nears_len allow ps). lia. Qed.
    Lemma rank_ok : let g := fold_left (@add_edge E) (oc (cm_rows allow ps [])) [] in
      exists sc lo hi ws, map fst ws = map fst g /\ Permutation (words ns) (map fst g) /\ (forall nx, In nx ws -> snd nx = sc 10 (fst nx)) /\
        ranking ns (oc (cm_rows allow ps [])) sc (map snd (o1 ws)) lo hi (rank srt o1 o2 g) /\ @Forall (f64 E) range (map snd (o1 ws)) /\
        Permutation (map (fun nw => @pair bytes (f64 E) (fst nw) (weight lo hi (snd nw))) ws) (rank srt o1 o2 g) /\ Forall (@good E) (rank srt o1 o2 g) /\
        ws = rounds g (if is_sorted (map fst g) then map fst g else @srt bytes ltb_str (map fst g)) (ws_of g) 10 /\ (lo, hi) = min_max (map snd (o1 ws)).
    Proof.
      set (l := oc (cm_rows allow ps [])). intro g. pose proof ns_len as Hlen.
      assert (Hc : counts ns l). { apply (counts_perm (l := cm_rows allow ps [])); [|apply Hoc]. apply (@counts_ok E eq_refl). unfold big. lia. }
      assert (Hnd : NoDup (map fst g)) by (apply graph_nodup; constructor).
      destruct (@sorted_keys srt (map fst g) Hs Hnd) as [Hk1 Hk2]. set (keys := if is_sorted (map fst g) then map fst g else @srt bytes ltb_str (map fst g)) in *.
      pose proof (@scores_ok E eq_refl ns l keys ltac:(unfold big; lia) Hc Hk1 Hk2) as Hsc. fold g in Hsc.
      set (ws := rounds g keys (ws_of g) 10).
      assert (Fw : map fst ws = map fst g). { unfold ws. rewrite rounds_keys; [apply ws_of_keys|]. intros n Hn. rewrite ws_of_keys. eapply Permutation_in; [symmetry; exact Hk2|exact Hn]. }
      assert (Pw : Permutation (words ns) (map fst g)).
      { apply NoDup_Permutation; [apply NoDup_nodup|exact Hnd|]. intro w. unfold words. rewrite nodup_In. rewrite <- (keys_in Hc Hk2 w). split; apply Permutation_in; [symmetry|]; exact Hk2. }
      assert (Hlw : length (words ns) = length g) by (rewrite (Permutation_length Pw), map_length; reflexivity).
      set (sc := fun x w => w_get (rounds g keys (ws_of g) x) w) in Hsc.
      assert (Hval : forall nx, In nx ws -> snd nx = sc 10 (fst nx)). { intros [n x] Hin. symmetry. apply w_get_in; [fold ws; rewrite Fw; exact Hnd|exact Hin]. }
      assert (Hmem : forall nx, In nx ws -> In (fst nx) (members ns)). { intros nx Hin. apply (in_map fst) in Hin. rewrite Fw in Hin. apply (keys_in Hc Hk2). eapply Permutation_in; [exact Hk2|exact Hin]. }
      assert (Hrange : @Forall (f64 E) range (map snd (o1 ws))).
      { apply Forall_forall. intros x Hx. apply in_map_iff in Hx as (nx & <- & Hin). assert (Hin' : In nx ws) by (eapply Permutation_in; [symmetry; apply Ho1|exact Hin]). rewrite (Hval nx Hin').
        destruct (score_bounds Hlen Hc Hk2 10 (Hmem nx Hin')) as (B1 & B2 & B3). split; [exact B1|]. split; [apply B3; lia|apply B2]. }
      set (mm := min_max (map snd (o1 ws))). destruct (min_max_ok Hrange) as [Hle Hla]. fold mm in Hle, Hla.
      exists sc, (fst mm), (snd mm), ws. split; [exact Fw|]. split; [exact Pw|]. split; [exact Hval|].
      set (f := fun nw : bytes * f64 E => @pair bytes (f64 E) (fst nw) (weight (fst mm) (snd mm) (snd nw))).
      assert (Hrank : rank srt o1 o2 g = @srt (wseg E) (reverse_less (@seg_less E)) (map f (o2 ws))).
      { unfold rank. fold keys. rewrite rank_rounds_iter. fold (def_of g). fold (ws_of g). reflexivity. }
      destruct (Hs (reverse_less (@seg_less E)) (map f (o2 ws))) as [Hp _]. rewrite <- Hrank in Hp.
      assert (Hperm : Permutation (map f ws) (rank srt o1 o2 g)) by (etransitivity; [apply Permutation_map, Ho2|exact Hp]).
      assert (Hne : forall nx, In nx ws -> map snd (o1 ws) <> []). { intros nx Hin H. apply map_eq_nil in H. pose proof (Permutation_in _ (Ho1 ws) Hin) as K. rewrite H in K. destruct K. }
      assert (Hgood : Forall (@good E) (map f ws)).
      { apply Forall_forall. intros t Ht. apply in_map_iff in Ht as (nx & <- & Hin). unfold good, f. cbn [snd]. apply (@weight_good (map snd (o1 ws)) (snd mm) (fst mm) (snd nx) Hrange (Hle (Hne nx Hin)) Hla). apply in_map. eapply Permutation_in; [apply Ho1|exact Hin]. }
      assert (Ff : map fst (map f ws) = map fst ws) by (rewrite map_map; reflexivity).
      split; [|split; [exact Hrange|split; [exact Hperm|split; [eapply Permutation_Forall; [exact Hperm|exact Hgood]|split; [reflexivity|]]]]].
      2: { symmetry. apply surjective_pairing. }
      split; [exact Hc|]. split; [rewrite Hlw; exact Hsc|]. split.
      { etransitivity; [apply Permutation_map; symmetry; apply Ho1|]. etransitivity; [|apply Permutation_map; symmetry; exact Pw]. rewrite <- Fw, map_map. rewrite (map_ext_in _ _ _ Hval). reflexivity. }
      split; [exact Hle|]. split; [exact Hla|]. split; [|split].
      - etransitivity; [exact Pw|]. rewrite <- Fw, <- Ff. apply Permutation_map. exact Hperm.
      - rewrite Hrank. apply (@sorted_above E eq_refl srt _ Hs).
        + eapply Permutation_Forall; [apply Permutation_map, Ho2|exact Hgood].
        + eapply Permutation_NoDup; [apply Permutation_map, Permutation_map, Ho2|]. rewrite Ff, Fw. exact Hnd.
      - intros t Ht. eapply Permutation_in in Ht; [|symmetry; exact Hperm]. apply in_map_iff in Ht as (nx & <- & Hin). unfold f. cbn [fst snd]. rewrite <- (Hval nx Hin). reflexivity.
    Qed.
  End Result.
  Lemma rank_same : forall srt srt' oc o1 o2 o2' allow ps, sorts srt -> sorts srt' -> (forall m, Permutation m (oc m)) ->
    same_keys_in_any_order (E := E) o1 -> same_keys_in_any_order (E := E) o2 -> same_keys_in_any_order (E := E) o2' -> (Z.of_nat (length ps) <= 2 ^ 45)%Z ->
    let g := fold_left (@add_edge E) (oc (cm_rows allow ps [])) [] in rank srt o1 o2 g = rank srt' o1 o2' g.
  Proof.
    intros srt srt' oc o1 o2 o2' allow ps Hs Hs' Hoc Ho1 Ho2 Ho2' Hb g.
    destruct (@rank_ok srt oc o1 o2 allow ps Hs Hoc Ho1 Ho2 Hb) as (sc & lo & hi & ws & _ & _ & _ & R & _ & W5 & W6 & W7 & W8).
    destruct (@rank_ok srt' oc o1 o2' allow ps Hs' Hoc Ho1 Ho2' Hb) as (sc' & lo' & hi' & ws' & _ & _ & _ & R' & _ & W5' & W6' & W7' & W8').
    fold g in R, R', W5, W5', W6, W6', W7, W7'.
    assert (Hnd : NoDup (map fst g)) by (apply graph_nodup; constructor). destruct (@sorted_keys srt (map fst g) Hs Hnd) as [K1 K2]. destruct (@sorted_keys srt' (map fst g) Hs' Hnd) as [K1' K2'].
    assert (Hu : forall a b, StronglySorted (fun x y => ltb_str x y = true) a -> StronglySorted (fun x y => ltb_str x y = true) b -> Permutation a b -> a = b).
    { clear. induction a as [|x a IH]; intros b Ha Hb Hp; [apply Permutation_nil in Hp; auto|]. destruct b as [|y b]; [symmetry in Hp; apply Permutation_nil in Hp; discriminate|].
      inversion_clear Ha. inversion_clear Hb. rewrite Forall_forall in *. assert (x = y) as <-.
      { assert (Hx : In x (y :: b)) by (eapply Permutation_in; [exact Hp|left; reflexivity]). assert (Hy : In y (x :: a)) by (eapply Permutation_in; [symmetry; exact Hp|left; reflexivity]).
        destruct Hx as [Hx|Hx]; [auto|]. destruct Hy as [Hy|Hy]; [auto|]. pose proof (str_asym (H0 y Hy)) as K. rewrite (H2 x Hx) in K. discriminate. }
      f_equal. apply IH; auto. eapply Permutation_cons_inv. exact Hp. }
    assert (Hk : (if is_sorted (map fst g) then map fst g else @srt bytes ltb_str (map fst g)) = if is_sorted (map fst g) then map fst g else @srt' bytes ltb_str (map fst g)).
    { apply Hu; [exact K1|exact K1'|]. etransitivity; [symmetry; exact K2|exact K2']. }
    assert (ws' = ws) as -> by (rewrite W7, W7', Hk; reflexivity). rewrite <- W8 in W8'. injection W8' as -> ->.
    apply (@above_unique E eq_refl _ _ W6); [apply R|apply R'|]. etransitivity; [symmetry; exact W5|exact W5'].
  Qed.
  (** What a ranking means. *)
  Lemma ranking_range : forall ns l sc vs lo hi (all : list (bytes * f64 E)), ranking ns l sc vs lo hi all -> @Forall (f64 E) range vs ->
    forall t, In t all -> vs <> [] /\ In (sc 10 (fst t)) vs /\ snd t = weight lo hi (sc 10 (fst t)).
  Proof.
    intros ns l sc vs lo hi all (_ & _ & H1 & H2 & H3 & H4 & _ & H5) Hr t Ht. assert (Hin : In (sc 10 (fst t)) vs).
    { eapply Permutation_in; [symmetry; exact H1|]. apply in_map. eapply Permutation_in; [symmetry; exact H4|]. apply in_map, Ht. }
    split; [intros ->; destruct Hin|]. split; [exact Hin|]. apply H5, Ht.
  Qed.
  Lemma ranking_late : forall ns l sc vs lo hi (all : list (bytes * f64 E)), ranking ns l sc vs lo hi all -> @Forall (f64 E) range vs -> (exists x, after vs x) ->
    forall t u, In t all -> In u all -> ltb64 E (lit64 E 0 0) (snd t) = true /\ (ltb64 E (sc 10 (fst u)) (sc 10 (fst t)) = false -> ltb64 E (snd u) (snd t) = false).
  Proof.
    intros ns l sc vs lo hi all Hk Hr (x & Hx) t u Ht Hu. destruct (ranking_range Hk Hr Ht) as (T1 & T2 & ->). destruct (ranking_range Hk Hr Hu) as (U1 & U2 & ->). destruct Hk as (_ & _ & _ & H2 & H3 & _).
    destruct (late_range Hr T1 (H2 T1) H3) as (Hlo & [[Hhi Hlh]|[Hno _]]); [|destruct (Hno x Hx)]. rewrite Forall_forall in Hr. pose proof (Hr _ T2) as Rt. pose proof (Hr _ U2) as Ru.
    destruct (H2 T1) as [L1 L2]. pose proof (L2 _ T2) as Lt. apply (ltb_false (proj1 Rt) (proj1 Hlo)) in Lt. pose proof (L2 _ U2) as Lu. apply (ltb_false (proj1 Ru) (proj1 Hlo)) in Lu.
    destruct (weight_pos Hlo Hhi Rt Hlh Lt) as (W1 & W2 & _ & _ & W3). destruct (weight_pos Hlo Hhi Ru Hlh Lu) as (V1 & _). destruct (@lit_int 0) as (Z1 & Z2 & _); [lia|]. split.
    - apply (ltb_true Z2 W1). rewrite Z1. exact W2.
    - intro H. apply (ltb_false (proj1 Ru) (proj1 Rt)) in H. apply (ltb_false V1 W1). apply W3; [exact Ru|exact H].
  Qed.
  Lemma ranking_none : forall ns l sc vs lo hi (all : list (bytes * f64 E)), ranking ns l sc vs lo hi all -> @Forall (f64 E) range vs -> (forall x, ~ after vs x) ->
    forall t u, In t all -> In u all -> ltb64 E (snd t) (lit64 E 0 0) = true /\ (ltb64 E (sc 10 (fst u)) (sc 10 (fst t)) = false -> ltb64 E (snd t) (snd u) = false).
  Proof.
    intros ns l sc vs lo hi all Hk Hr Hx t u Ht Hu. destruct (ranking_range Hk Hr Ht) as (T1 & T2 & ->). destruct (ranking_range Hk Hr Hu) as (U1 & U2 & ->). destruct Hk as (_ & _ & _ & H2 & H3 & _).
    destruct (late_range Hr T1 (H2 T1) H3) as (Hlo & _). assert (hi = lit_64 1 (-1074)) as -> by (destruct H3 as [[A _]|[_ A]]; [destruct (Hx hi A)|exact A]). rewrite Forall_forall in Hr. pose proof (Hr _ T2) as Rt. pose proof (Hr _ U2) as Ru.
    destruct (H2 T1) as [L1 L2]. pose proof (L2 _ T2) as Lt. apply (ltb_false (proj1 Rt) (proj1 Hlo)) in Lt. pose proof (L2 _ U2) as Lu. apply (ltb_false (proj1 Ru) (proj1 Hlo)) in Lu.
    destruct (weight_neg Hlo Rt Lt) as (W1 & W2 & W3). destruct (weight_neg Hlo Ru Lu) as (V1 & _). destruct (@lit_int 0) as (Z1 & Z2 & _); [lia|]. split.
    - apply (ltb_true W1 Z2). rewrite Z1. exact W2.
    - intro H. apply (ltb_false (proj1 Ru) (proj1 Rt)) in H. apply (ltb_false W1 V1). apply W3; [exact Ru|exact H].
  Qed.
  Lemma ranking_best : forall ns l sc v vs lo hi (all : list (bytes * f64 E)) x, ranking ns l sc (v :: vs) lo hi all -> @Forall (f64 E) range (v :: vs) -> In x vs -> greatest (v :: vs) x ->
    forall t, In t all -> ltb64 E (lit64 E 1 0) (snd t) = false /\ (eqb64 E (snd t) (lit64 E 1 0) = true <-> forall u, In u all -> ltb64 E (snd t) (snd u) = false).
  Proof.
    intros ns l sc v vs lo hi all x Hk Hr Hx [G1 G2]. 
    assert (Rall : forall y, In y (v :: vs) -> range y) by (intros y Hy; rewrite Forall_forall in Hr; exact (Hr y Hy)).
    pose proof (Rall x G1) as Rx.
    assert (Hax : after (v :: vs) x). { apply in_split in Hx as (a & b & ->). exists (v :: a), b, v. split; [reflexivity|]. split; [left; reflexivity|]. pose proof (Rall v (or_introl eq_refl)) as Rv. apply (ltb_false (proj1 Rx) (proj1 Rv)). specialize (G2 v (or_introl eq_refl)). apply (ltb_false (proj1 Rx) (proj1 Rv)) in G2. exact G2. }
    assert (Hne : v :: vs <> []) by discriminate.
    pose proof Hk as Kall. destruct Hk as (K1 & K2 & K3 & K4 & K5 & K6 & K7 & K8). destruct (late_range Hr Hne (K4 Hne) K5) as (Hlo & [[Hhi Hlh]|[Hno _]]); [|destruct (Hno x Hax)].
    assert (Hhx : val hi = val x).
    { destruct K5 as [[A1 A2]|[A1 _]]; [|destruct (A1 x Hax)]. specialize (A2 x Hax). apply (ltb_false (proj1 Hhi) (proj1 Rx)) in A2. specialize (G2 hi (after_in A1)). apply (ltb_false (proj1 Rx) (proj1 Hhi)) in G2. lra. }
    assert (W : forall t, In t all -> ok (snd t) /\ (val (snd t) <= 1)%R /\ (val (sc 10 (fst t)) = val hi -> val (snd t) = 1%R)).
    { intros t Ht. destruct (ranking_range Kall Hr Ht) as (T1 & T2 & ->). pose proof (Rall _ T2) as Rt. destruct (K4 Hne) as [L1 L2]. pose proof (L2 _ T2) as Lt. apply (ltb_false (proj1 Rt) (proj1 Hlo)) in Lt.
      destruct (weight_pos Hlo Hhi Rt Hlh Lt) as (W1 & _ & W2 & W3 & _). split; [exact W1|]. split; [|exact W3]. apply W2. specialize (G2 _ T2). apply (ltb_false (proj1 Rx) (proj1 Rt)) in G2. lra. }
    destruct (@lit_int 1) as (Z1 & Z2 & _); [lia|].
    assert (Htop : exists u, In u all /\ val (snd u) = 1%R).
    { assert (Hxi : In x (map (sc 10) (map fst all))) by (eapply Permutation_in; [apply Permutation_map; exact K6|]; eapply Permutation_in; [exact K3|exact G1]). apply in_map_iff in Hxi as (n & E1 & Hn). apply in_map_iff in Hn as (u & <- & Hu).
      exists u. split; [exact Hu|]. apply (W u Hu). rewrite E1. lra. }
    intros t Ht. destruct (W t Ht) as (W1 & W2 & W3). split; [apply (ltb_false Z2 W1); rewrite Z1; exact W2|].
    assert (Heq : eqb64 ieee (snd t) (lit_64 1 0) = true <-> val (snd t) = 1%R).
    { cbn [eqb64 ieee]. assert (Nx : is_nan (snd t : b64) = false) by (destruct (snd t : b64); try discriminate; reflexivity). assert (Ny : is_nan (lit_64 1 0) = false) by reflexivity.
      rewrite (eqb_key Nx Ny), (proj1 (key_fin W1)), (proj1 (key_fin Z2)), Z1. destruct (Req_bool_spec (val (snd t)) 1); split; intro; try lra; try discriminate; reflexivity. }
    etransitivity; [exact Heq|]. split.
    - intros H1 u Hu. destruct (W u Hu) as (U1 & U2 & _). apply (ltb_false W1 U1). lra.
    - intro H. destruct Htop as (u & Hu & H1). specialize (H u Hu). destruct (W u Hu) as (U1 & _). apply (ltb_false W1 U1) in H. lra.
  Qed.
End Fl.
