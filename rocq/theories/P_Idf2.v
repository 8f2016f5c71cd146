(** Proofs about package idf. *)
From Verif Require Import S_Idf Ieee P_Ieee P_Laws64 P_Idf P_Hist P_Str P_Trim.
From Coq Require Import Reals Lra.
From Flocq Require Import Core.Raux IEEE754.BinarySingleNaN.
Set Implicit Arguments. Unset Strict Implicit.

(** ** Strings *)
Lemma str_irr : forall a, ltb_str a a = false.
Proof. induction a as [|x a IH]; [reflexivity|]. cbn. rewrite byte_eqb_refl. exact IH. Qed.
Lemma beq_false : forall x y, Byte.eqb x y = false -> bz x <> bz y.
Proof. intros x y H K. apply bz_inj in K. subst y. rewrite byte_eqb_refl in H. discriminate. Qed.
Lemma str_trans : forall a b c, ltb_str a b = true -> ltb_str b c = true -> ltb_str a c = true.
Proof.
  induction a as [|x a IH]; intros [|y b] [|z c] H1 H2; try discriminate; [reflexivity|]. cbn in *.
  destruct (Byte.eqb x y) eqn:Exy.
  - apply byte_eqb_eq in Exy. subst y. destruct (Byte.eqb x z); [eauto|exact H2].
  - apply beq_false in Exy. apply Z.ltb_lt in H1. destruct (Byte.eqb y z) eqn:Eyz.
    + apply byte_eqb_eq in Eyz. subst z. destruct (Byte.eqb x y) eqn:E; [apply byte_eqb_eq in E; congruence|]. apply Z.ltb_lt. lia.
    + apply Z.ltb_lt in H2. destruct (Byte.eqb x z) eqn:E; [apply byte_eqb_eq in E; subst; lia|]. apply Z.ltb_lt. lia.
Qed.
Lemma str_tri : forall a b, a <> b -> ltb_str a b = true \/ ltb_str b a = true.
Proof.
  induction a as [|x a IH]; intros [|y b] H; [congruence|left; reflexivity|right; reflexivity|]. cbn. destruct (Byte.eqb x y) eqn:E.
  - apply byte_eqb_eq in E. subst y. rewrite byte_eqb_refl. apply IH. congruence.
  - assert (E' : Byte.eqb y x = false) by (destruct (Byte.eqb y x) eqn:E'; [apply byte_eqb_eq in E'; subst; rewrite byte_eqb_refl in E; discriminate|reflexivity]).
    rewrite E'. apply beq_false in E. rewrite !Z.ltb_lt. lia.
Qed.
Lemma str_asym : forall a b, ltb_str a b = true -> ltb_str b a = false.
Proof. intros a b H. destruct (ltb_str b a) eqn:E; [|reflexivity]. rewrite <- (str_irr a). symmetry. eapply str_trans; eauto. Qed.

(** ** Weighted words *)
Section Order.
  Variable E : env.
  Hypothesis HE : ar E = ieee.
  Definition good (t : bytes * f64 E) : Prop := num64 (snd t).
  Lemma less_spec : exists K : f64 E -> R, forall a b : bytes * f64 E, good a -> good b ->
    (seg_less a b = true <-> (K (snd a) < K (snd b))%R \/ K (snd a) = K (snd b) /\ ltb_str (fst a) (fst b) = true) /\
    (above a b <-> (K (snd b) < K (snd a))%R \/ K (snd b) = K (snd a) /\ ltb_str (fst b) (fst a) = true).
  Proof.
    unfold good, seg_less, above. destruct E as [A u1 u2 u3 u4 u5 u6 u7 u8 u9 u10 u11 u12 u13 u14]. cbn [ar] in HE. subst A. clear. cbn [ar].
    exists (@key 53 1024). intros [ta xa] [tb xb]. cbn [fst snd]. intros Ha Hb. apply num_nan in Ha, Hb. cbn [ltb64 eqb64 ieee] in *. rewrite !eqb_key, !ltb_key by assumption.
    destruct (Req_bool_spec (key xa) (key xb)) as [H|H]; destruct (Rlt_bool_spec (key xa) (key xb)) as [H'|H']; destruct (Rlt_bool_spec (key xb) (key xa)) as [H2|H2];
      destruct (Req_bool_spec (key xb) (key xa)) as [H3|H3]; try lra; (split; split; [intro G|intros [G|[G1 G2]]|intros [G|[G1 G2]]|intros [G|[G1 G2]]]); try discriminate; try lra; auto.
  Qed.
  Lemma less_weak : forall l, Forall good l -> weak_order (reverse_less (@seg_less E)) l.
  Proof.
    intros l Hl. rewrite Forall_forall in Hl. destruct less_spec as (K & HK). unfold reverse_less. split; [|split].
    - intros x Hx. apply not_true_iff_false. rewrite (proj1 (HK x x (Hl x Hx) (Hl x Hx))). rewrite str_irr. intros [H|[_ H]]; [lra|discriminate].
    - intros x y z Hx Hy Hz. rewrite (proj1 (HK y x (Hl y Hy) (Hl x Hx))), (proj1 (HK z y (Hl z Hz) (Hl y Hy))), (proj1 (HK z x (Hl z Hz) (Hl x Hx))).
      intros [H1|[H1 H1']] [H2|[H2 H2']]; [left; lra|left; lra|left; lra|right; split; [lra|eapply str_trans; eauto]].
    - intros x y z Hx Hy Hz. rewrite <- !not_true_iff_false, (proj1 (HK y x (Hl y Hy) (Hl x Hx))), (proj1 (HK z y (Hl z Hz) (Hl y Hy))), (proj1 (HK z x (Hl z Hz) (Hl x Hx))).
      intros H1 H2 [H3|[H3 H4]].
      + destruct (Rtotal_order (K (snd z)) (K (snd y))) as [H|[H|H]]; [apply H2; auto| |apply H1; left; lra]. apply H1. left. lra.
      + destruct (Rtotal_order (K (snd z)) (K (snd y))) as [H|[H|H]]; [apply H2; auto| |apply H1; left; lra].
        destruct (list_eq_dec Byte.byte_eq_dec (fst z) (fst y)) as [e|n]; [apply H1; right; split; [lra|congruence]|].
        destruct (str_tri n) as [G|G]; [apply H2; auto|]. apply H1. right. split; [lra|]. eapply str_trans; eauto.
  Qed.
  Lemma not_less_above : forall a b, good a -> good b -> fst a <> fst b -> seg_less a b = false -> above a b.
  Proof.
    intros a b Ha Hb Hn H. destruct less_spec as (K & HK). apply (proj2 (HK a b Ha Hb)). rewrite <- not_true_iff_false, (proj1 (HK a b Ha Hb)) in H.
    destruct (Rtotal_order (K (snd a)) (K (snd b))) as [G|[G|G]]; [destruct H; auto| |left; lra]. right. split; [lra|]. destruct (str_tri Hn) as [G'|G']; [destruct H; auto|exact G'].
  Qed.
  Lemma above_asym : forall a b, good a -> good b -> above a b -> above b a -> False.
  Proof.
    intros a b Ha Hb. destruct less_spec as (K & HK). rewrite (proj2 (HK a b Ha Hb)), (proj2 (HK b a Hb Ha)). intros [H1|[H1 H1']] [H2|[H2 H2']]; try lra.
    apply str_asym in H1'. congruence.
  Qed.
  (** The sorted list. *)
  Lemma sorted_above : forall srt l, sorts srt -> Forall good l -> NoDup (map fst l) -> StronglySorted (@above E) (srt _ (reverse_less (@seg_less E)) l).
  Proof.
    intros srt l Hs Hg Hd. destruct (Hs _ (reverse_less (@seg_less E)) l) as [Hp Hso]. specialize (Hso (less_weak Hg)).
    assert (Hg' : Forall good (srt _ (reverse_less (@seg_less E)) l)) by (eapply Permutation_Forall; eauto).
    assert (Hd' : NoDup (map fst (srt _ (reverse_less (@seg_less E)) l))) by (eapply Permutation_NoDup; [apply Permutation_map; exact Hp|exact Hd]).
    revert Hso Hg' Hd'. generalize (srt _ (reverse_less (@seg_less E)) l). clear - HE. intros l Hso Hg Hd. induction Hso as [|a l Hso IH Ha]; [constructor|].
    inversion_clear Hg. cbn [map] in Hd. inversion_clear Hd. constructor; [auto|]. rewrite Forall_forall in *. intros b Hb. apply not_less_above; auto.
    - intro K. apply H1. rewrite K. apply in_map, Hb.
    - exact (Ha b Hb).
  Qed.
  Lemma above_unique : forall l l', Forall good l -> StronglySorted (@above E) l -> StronglySorted (@above E) l' -> Permutation l l' -> l = l'.
  Proof.
    induction l as [|a l IH]; intros l' Hg Hs Hs' Hp; [apply Permutation_nil in Hp; auto|]. destruct l' as [|b l']; [symmetry in Hp; apply Permutation_nil in Hp; discriminate|].
    inversion_clear Hg. inversion_clear Hs. inversion_clear Hs'. rewrite Forall_forall in *.
    assert (a = b) as <-.
    { assert (Ha : In a (b :: l')) by (eapply Permutation_in; [exact Hp|left; reflexivity]). assert (Hb : In b (a :: l)) by (eapply Permutation_in; [symmetry; exact Hp|left; reflexivity]).
      destruct Ha as [Ha|Ha]; [auto|]. destruct Hb as [Hb|Hb]; [auto|]. exfalso. eapply above_asym; [| |apply H2, Hb|apply H4, Ha]; [exact H|]. apply H0, Hb. }
    f_equal. apply IH; auto; [apply Forall_forall; exact H0|]. eapply Permutation_cons_inv. exact Hp.
  Qed.
End Order.

Lemma sorted_app : forall A (R : A -> A -> Prop) a b, StronglySorted R (a ++ b) -> StronglySorted R a /\ forall x y, In x a -> In y b -> R x y.
Proof.
  intros A R. induction a as [|x a IH]; intros b H; [split; [constructor|intros ? ? []]|]. cbn in H. inversion_clear H. destruct (IH _ H0) as [I1 I2]. rewrite Forall_forall in H1. split.
  - constructor; [exact I1|]. apply Forall_forall. intros y Hy. apply H1, in_or_app. auto.
  - intros z y [<-|Hz] Hy; [apply H1, in_or_app; auto|auto].
Qed.

(** ** Counting *)
Lemma tally_app : forall w a b, tally w (a ++ b) = tally w a + tally w b.
Proof. intros w. induction a as [|v a IH]; intro b; [reflexivity|]. cbn. rewrite IH. lia. Qed.
Lemma tally_le : forall w l, tally w l <= length l.
Proof. intros w. induction l as [|v l IH]; [auto|]. cbn. destruct (beqb w v); lia. Qed.
Lemma tally_in : forall w l, In w l -> 1 <= tally w l.
Proof. intros w. induction l as [|v l IH]; intros []; cbn; [subst; rewrite beqb_refl; lia|]. specialize (IH H). lia. Qed.
Lemma tally_not : forall w l, ~ In w l -> tally w l = 0.
Proof. intros w. induction l as [|v l IH]; intro H; [reflexivity|]. cbn. destruct (beqb w v) eqn:E; [apply beqb_eq in E; subst; destruct H; left; reflexivity|]. apply IH. intro. apply H. right. assumption. Qed.
Lemma tally_sum : forall done keys, NoDup keys -> (forall k, In k done -> In k keys) -> list_sum (map (fun k => tally k done) keys) = length done.
Proof.
  intros done keys Hd. induction done as [|v done IH]; intro H.
  - cbn. clear. induction keys; [reflexivity|]. cbn. exact IHkeys.
  - cbn [tally length]. rewrite <- IH by (intros k Hk; apply H; right; exact Hk). assert (Hv : In v keys) by (apply H; left; reflexivity). clear IH H. revert Hv.
    induction Hd as [|k keys Hk Hd IH]; intros []; cbn [map list_sum fold_right].
    + subst k. rewrite beqb_refl. change (fold_right Init.Nat.add 0) with list_sum. replace (map (fun k => (if beqb k v then 1 else 0) + tally k done) keys) with (map (fun k => tally k done) keys); [lia|].
      apply map_ext_in. intros k Hk'. destruct (beqb k v) eqn:E; [apply beqb_eq in E; subst; destruct (Hk Hk')|reflexivity].
    + change (fold_right Init.Nat.add 0) with list_sum. rewrite (IH H). destruct (beqb k v) eqn:E; [apply beqb_eq in E; subst; destruct (Hk H)|]. lia.
Qed.

Section Count.
  Variable E : env.
  Hypothesis HE : ar E = ieee.
  Notation lit n := (lit64 E (Z.of_nat n) 0).
  Definition big (n : nat) : Prop := (Z.of_nat n <= 2 ^ 53)%Z.
  Lemma add_lits : forall a b, big (a + b) -> add64 E (lit a) (lit b) = lit (a + b).
  Proof.
    unfold big. intros a b H. rewrite Nat2Z.inj_add. rewrite Nat2Z.inj_add in H.
    destruct E as [A u1 u2 u3 u4 u5 u6 u7 u8 u9 u10 u11 u12 u13 u14]. cbn [ar] in *. subst A. apply add_ints; lia.
  Qed.
  Lemma sum_lits : forall l a, big (a + list_sum l) -> fold_left (add64 E) (map (fun n => lit n) l) (lit a) = lit (a + list_sum l).
  Proof.
    induction l as [|n l IH]; intros a H; cbn [map fold_left]; [cbn; rewrite Nat.add_0_r; reflexivity|]. cbn [list_sum fold_right] in *. change (fold_right Init.Nat.add 0 l) with (list_sum l) in *.
    rewrite add_lits by (unfold big in *; lia). rewrite IH by (unfold big in *; lia). do 2 f_equal. lia.
  Qed.

  Definition counted (done : list bytes) (m : fmap E) : Prop :=
    NoDup (map fst m) /\ (forall k f, In (k, f) m -> In k done /\ f = lit (tally k done)) /\ forall k, In k done -> In k (map fst m).
  Lemma fm_add_keys : forall (m : fmap E) w k, In k (map fst (fm_add m w)) <-> k = w \/ In k (map fst m).
  Proof.
    induction m as [|[k' f] m IH]; intros w k; cbn [fm_add map In fst]; [intuition|]. destruct (beqb k' w) eqn:Ek; cbn [map In fst].
    - apply beqb_eq in Ek. subst k'. intuition.
    - rewrite IH. intuition.
  Qed.
  Lemma fm_add_in : forall (m : fmap E) w k f, NoDup (map fst m) -> In (k, f) (fm_add m w) ->
    (k <> w /\ In (k, f) m) \/ (k = w /\ ((~ In w (map fst m) /\ f = lit 1) \/ exists g, In (w, g) m /\ f = add64 E g (lit 1))).
  Proof.
    induction m as [|[k' f'] m IH]; intros w k f Hd; cbn [fm_add].
    - intros [H|[]]. injection H as <- <-. right. split; [reflexivity|]. left. auto.
    - cbn [map fst] in Hd. inversion_clear Hd. destruct (beqb k' w) eqn:Ek.
      + apply beqb_eq in Ek. subst k'. intros [H1|H1].
        * injection H1 as <- <-. right. split; [reflexivity|]. right. exists f'. split; [left; reflexivity|reflexivity].
        * left. split; [intros ->; apply H; exact (in_map fst _ _ H1)|right; exact H1].
      + assert (Hne : k' <> w) by (intros ->; rewrite beqb_refl in Ek; discriminate). intros [H1|H1].
        * injection H1 as <- <-. left. split; [exact Hne|left; reflexivity].
        * destruct (IH w k f H0 H1) as [[G1 G2]|[G1 [[G2 G3]|(g & G2 & G3)]]]; [left; split; [exact G1|right; exact G2]|right; split; [exact G1|left]|right; split; [exact G1|right; exists g; split; [right; exact G2|exact G3]]].
          split; [intros [K|K]; [exact (Hne K)|exact (G2 K)]|exact G3].
  Qed.
  Lemma fm_add_nodup : forall (m : fmap E) w, NoDup (map fst m) -> NoDup (map fst (fm_add m w)).
  Proof.
    induction m as [|[k f] m IH]; intros w H; cbn [fm_add map fst]; [constructor; [intros []|constructor]|]. destruct (beqb k w) eqn:Ek; [exact H|]. cbn [map fst] in *. inversion_clear H. constructor; [|auto].
    rewrite fm_add_keys. intros [->|K]; [rewrite beqb_refl in Ek; discriminate|auto].
  Qed.
  Lemma counted_add : forall done m w, big (S (length done)) -> counted done m -> counted (done ++ [w]) (fm_add m w).
  Proof.
    intros done m w Hb (H1 & H2 & H3). split; [apply fm_add_nodup, H1|]. split.
    - intros k f H. destruct (fm_add_in H1 H) as [[G1 G2]|[-> [[G2 G3]|(g & G2 & G3)]]].
      + destruct (H2 k f G2) as [K1 K2]. split; [apply in_or_app; auto|]. rewrite tally_app. cbn [tally]. destruct (beqb k w) eqn:Ek; [apply beqb_eq in Ek; congruence|]. rewrite !Nat.add_0_r. exact K2.
      + split; [apply in_or_app; right; left; reflexivity|]. rewrite tally_app. cbn [tally]. rewrite beqb_refl, tally_not; [exact G3|]. intro K. apply G2, H3, K.
      + split; [apply in_or_app; right; left; reflexivity|]. rewrite tally_app. cbn [tally]. rewrite beqb_refl, Nat.add_0_r. destruct (H2 _ _ G2) as [_ ->]. rewrite G3. apply add_lits. unfold big in *. pose proof (tally_le w done). lia.
    - intros k H. apply fm_add_keys. apply in_app_or in H as [H|[<-|[]]]; auto.
  Qed.
  Lemma fm_count_ok : forall l ws done m, big (length done + length ws) -> counted done m ->
    exists m', fm_count (Some l) ws m = Ok m' /\ counted (done ++ kept E l ws) m'.
  Proof.
    intros l. induction ws as [|w ws IH]; intros done m Hb H; cbn [fm_count]; [exists m; split; [reflexivity|]; cbn; rewrite app_nil_r; exact H|].
    unfold kept. cbn [map filter]. rewrite Nat.leb_antisym. destruct (length (runes_of (trim_space E w)) <? 2) eqn:Ew; cbn [negb andb]; [apply IH; [unfold big in *; cbn [length] in Hb; lia|exact H]|].
    destruct (in_list (trim_space E w) l); cbn [negb]; [apply IH; [unfold big in *; cbn [length] in Hb; lia|exact H]|].
    destruct (IH (done ++ [trim_space E w]) (fm_add m (trim_space E w))) as (m' & M1 & M2); [unfold big in *; rewrite app_length; cbn [length] in *; lia|apply counted_add; [unfold big in *; cbn [length] in Hb; lia|exact H]|].
    exists m'. split; [exact M1|]. rewrite <- app_assoc in M2. exact M2.
  Qed.
  Lemma total_ok : forall done (m m' : fmap E), big (length done) -> counted done m -> Permutation m m' -> fold_left (add64 E) (map snd m') (lit64 E 0 0) = lit (length done).
  Proof.
    intros done m m' Hb (H1 & H2 & H3) Hp.
    assert (Hm : map snd m' = map (fun n => lit n) (map (fun k => tally k done) (map fst m'))).
    { rewrite !map_map. apply map_ext_in. intros [k f] H. cbn [fst snd]. apply (H2 k f). eapply Permutation_in; [symmetry; exact Hp|exact H]. }
    assert (Hs : list_sum (map (fun k => tally k done) (map fst m')) = length done).
    { apply tally_sum; [eapply Permutation_NoDup; [apply Permutation_map; exact Hp|exact H1]|]. intros k Hk. eapply Permutation_in; [apply Permutation_map; exact Hp|apply H3, Hk]. }
    rewrite Hm. change (lit64 E 0 0) with (lit 0). rewrite sum_lits; rewrite Hs; [reflexivity|exact Hb].
  Qed.
  Lemma kept_len : forall l ws, length (kept E l ws) <= length ws.
  Proof. intros l ws. unfold kept. rewrite <- (map_length (trim_space E) ws). generalize (map (trim_space E) ws). intro k. induction k as [|x t IH]; [auto|]. cbn [filter length]. destruct (_ && _); cbn [length]; lia. Qed.
End Count.

Lemma f2_length : forall A B (R : A -> B -> Prop) a b, Forall2 R a b -> length a = length b.
Proof. intros A B R a b H. induction H; cbn; congruence. Qed.

Lemma nodup_app_l : forall A (a b : list A), NoDup (a ++ b) -> NoDup a.
Proof. intros A. induction a as [|x a IH]; intros b H; [constructor|]. cbn in H. inversion_clear H. constructor; [|eauto]. intro K. apply H0, in_or_app. auto. Qed.

(** ** ExtractTags *)
Section Tags.
  Variable E : env.
  Hypothesis HE : ar E = ieee.
  Variables (c0 : cfg) (di : dict E) (i : idf E).
  Hypothesis Hr : reachable c0 di.
  Hypothesis Hi : s_dict (i_seg i) = Some di.
  Notation lit n := (lit64 E (Z.of_nat n) 0).

  Lemma idf_total : forall w, exists x, idf_is i w x.
  Proof. intro w. destruct (c14 w Hr) as (f & p & b & H & _). exists (if b then f else i_median i). exists di, f, p, b. auto. Qed.
  Lemma idf_fun : forall w x y, idf_is i w x -> idf_is i w y -> x = y.
  Proof. intros w x y (d & f & p & b & H1 & H2 & ->) (d' & f' & p' & b' & H1' & H2' & ->). assert (d = d') as <- by congruence. rewrite H2 in H2'. injection H2' as -> -> ->. reflexivity. Qed.
  Lemma weigh_ok : forall m, exists r, weigh (Some i) m = Ok r /\ Forall2 (fun kv t => fst t = fst kv /\ exists x, idf_is i (fst kv) x /\ snd t = mul64 E x (snd kv)) m r.
  Proof.
    induction m as [|[k v] m (r & IH1 & IH2)]; [exists []; split; [reflexivity|constructor]|]. cbn [weigh]. unfold idf_freq. rewrite Hi. destruct (c14 k Hr) as (f & p & b & H & _). rewrite H. cbn [bind]. rewrite IH1. cbn [bind fst snd].
    eexists. split; [reflexivity|]. constructor; [|exact IH2]. cbn [fst snd]. split; [reflexivity|]. eexists. split; [|reflexivity]. exists di, f, p, b. auto.
  Qed.
  Lemma tag_fun : forall k w x y, tag_is i k (w, x) -> tag_is i k (w, y) -> x = y.
  Proof. intros k w x y (a & A1 & A2) (b & B1 & B2). cbn [fst snd] in *. rewrite (idf_fun A1 B1) in A2. congruence. Qed.
  (** All the entries, sorted. *)
  Lemma tags_all : forall srt o1 o2 l ws, sorts srt -> same_keys_in_any_order o1 -> same_keys_in_any_order o2 -> big (length ws) ->
    let k := kept E l ws in
    exists m w, fm_count (Some l) ws [] = Ok m /\
      weigh (Some i) (o2 (map (fun kv => (fst kv, div64 E (snd kv) (fold_left (add64 E) (map snd (o1 m)) (lit64 E 0 0)))) m)) = Ok w /\
      let s := srt _ (reverse_less (@seg_less E)) w in
      NoDup (map fst s) /\ Permutation (nodup (list_eq_dec Byte.byte_eq_dec) k) (map fst s) /\ (forall t, In t s -> tag_is i k t) /\
      ((forall t x, In t k -> idf_is i t x -> num64 x) -> Forall (@good E) s /\ StronglySorted (@above E) s).
  Proof.
    intros srt o1 o2 l ws Hs Ho1 Ho2 Hb k. destruct (@fm_count_ok E HE l ws [] []) as (m & M1 & M2); [exact Hb|split; [constructor|split; [intros ? ? []|intros ? []]]|]. cbn [app] in M2. fold k in M2. destruct M2 as (M2 & M3 & M4).
    assert (Hk : big (length k)) by (unfold big, k in *; pose proof (kept_len E l ws); lia).
    exists m. rewrite (@total_ok E HE k m (o1 m) Hk (conj M2 (conj M3 M4)) (Ho1 m)). set (md := map (fun kv => (fst kv, div64 E (snd kv) (lit (length k)))) m).
    destruct (weigh_ok (o2 md)) as (w & W1 & W2). exists w. split; [exact M1|]. split; [exact W1|]. intro s.
    destruct (Hs _ (reverse_less (@seg_less E)) w) as [Hp _]. fold s in Hp.
    assert (Fw : map fst w = map fst (o2 md)) by (clear - W2; induction W2 as [|? ? ? ? [H _]]; [reflexivity|]; cbn; congruence).
    assert (Fm : map fst md = map fst m) by (unfold md; rewrite map_map; reflexivity).
    assert (Pm : Permutation (map fst m) (map fst w)) by (rewrite Fw, <- Fm; apply Permutation_map, Ho2).
    assert (Hnd : NoDup (map fst w)) by (eapply Permutation_NoDup; eauto).
    assert (Htag : forall t, In t w -> tag_is i k t).
    { intros t Ht. apply (In_nth_error w) in Ht as (n & Ht). assert (exists kv, nth_error (o2 md) n = Some kv) as (kv & Hkv).
      { destruct (nth_error (o2 md) n) as [kv|] eqn:En; [eauto|]. apply nth_error_None in En. assert (nth_error w n <> None) as K by congruence. apply nth_error_Some in K. pose proof (f2_length W2) as L. change (length w) with (@length (bytes * f64 E) w) in L. rewrite L in En. destruct (Nat.lt_irrefl _ (Nat.lt_le_trans _ _ _ K En)). }
      assert (G : fst t = fst kv /\ exists x, idf_is i (fst kv) x /\ snd t = mul64 E x (snd kv)).
      { clear - W2 Hkv Ht. revert n Ht Hkv. induction W2 as [|a b la lb H W2 IH]; intros [|n] Ht Hkv; try discriminate; [injection Ht as <-; injection Hkv as <-; exact H|]. eapply IH; eauto. }
      destruct G as (G1 & x & G2 & G3). exists x. rewrite G1. split; [exact G2|]. rewrite G3. f_equal.
      assert (Hin : In kv md) by (eapply Permutation_in; [symmetry; apply Ho2|eapply nth_error_In; exact Hkv]).
      unfold md in Hin. apply in_map_iff in Hin as ([k' f'] & <- & Hin). cbn [fst snd]. apply M3 in Hin as [_ ->]. reflexivity. }
    assert (Ink : forall t, In t w -> In (fst t) k).
    { intros t Ht. apply (in_map fst) in Ht. rewrite <- Pm in Ht. apply in_map_iff in Ht as ([k' f'] & <- & Hin). apply M3 in Hin as [Hin _]. exact Hin. }
    split; [eapply Permutation_NoDup; [apply Permutation_map; exact Hp|exact Hnd]|]. split; [|split].
    - transitivity (map fst w); [|apply Permutation_map; exact Hp]. apply NoDup_Permutation; [apply NoDup_nodup|exact Hnd|]. intro x. rewrite nodup_In. split; intro Hx; [rewrite <- Pm; apply M4, Hx|].
      apply in_map_iff in Hx as (t & <- & Ht). apply Ink, Ht.
    - intros t Ht. apply Htag. eapply Permutation_in; [symmetry; exact Hp|exact Ht].
    - intro Hnum. assert (Hg : Forall (@good E) w).
      { apply Forall_forall. intros t Ht. pose proof (Ink t Ht) as Hin. destruct (Htag t Ht) as (x & T1 & T2). specialize (Hnum _ _ Hin T1). unfold good. rewrite T2.
        pose proof (tally_in Hin) as K1. pose proof (tally_le (fst t) k) as K2. revert Hnum K1 K2 Hk. unfold big. clear - HE. generalize (tally (fst t) k) (length k). intros a b Hx K1 K2 Hk. revert x Hx.
        destruct E as [A u1 u2 u3 u4 u5 u6 u7 u8 u9 u10 u11 u12 u13 u14]. cbn [ar] in *. subst A. intros x Hx. destruct (@div_ints (Z.of_nat a) (Z.of_nat b)) as (y & Y0 & Y1 & Y2); [lia|lia|].
        change (num64 (A := ieee) (mul64 ieee x (div64 ieee (lit_64 (Z.of_nat a) 0) (lit_64 (Z.of_nat b) 0)))). rewrite Y0. apply num_nan in Hx. apply num_nan. apply mul_num; [exact Hx|exact Y1|lra]. }
      split; [eapply Permutation_Forall; eauto|]. apply sorted_above; auto.
  Qed.
  Lemma extract_ok : forall srt o1 o2 d c em l text topK ws, sorts srt -> same_keys_in_any_order o1 -> same_keys_in_any_order o2 ->
    cut d c em text (Some true) = Ok ws -> big (length ws) -> (0 <= topK)%Z ->
    let k := kept E l ws in
    exists out, extract_tags srt o1 o2 d c em (Some l) (Some i) text topK = Ok out /\
      NoDup (map fst out) /\ Z.of_nat (length out) = Z.min topK (Z.of_nat (length (nodup (list_eq_dec Byte.byte_eq_dec) k))) /\
      (forall t, In t out -> In (fst t) k /\ tag_is i k t) /\
      ((forall t x, In t k -> idf_is i t x -> num64 x) ->
         StronglySorted (@above E) out /\ forall t, In (fst t) k -> tag_is i k t -> ~ In t out -> forall a, In a out -> above a t).
  Proof.
    intros srt o1 o2 d c em l text topK ws Hs Ho1 Ho2 Hc Hb HK k. destruct (@tags_all srt o1 o2 l ws Hs Ho1 Ho2 Hb) as (m & w & M1 & M2 & M3 & M4 & M5 & M6).
    unfold extract_tags. rewrite Hc. cbn [bind]. rewrite M1. cbn [bind]. rewrite M2. cbn [bind]. fold k in M4, M5, M6. set (s := srt _ (reverse_less (@seg_less E)) w) in *.
    assert (Hlen : length (nodup (list_eq_dec Byte.byte_eq_dec) k) = length s) by (rewrite (Permutation_length M4), map_length; reflexivity). rewrite Hlen.
    assert (Hin : forall t, In t s -> In (fst t) k) by (intros t Ht; apply (in_map fst) in Ht; rewrite <- M4 in Ht; apply nodup_In in Ht; exact Ht).
    assert (Hex : exists n, (if (topK <? Z.of_nat (length s))%Z then if (topK <? 0)%Z then Panic else Ok (firstn (Z.to_nat topK) s) else Ok s) = Ok (firstn n s) /\ Z.of_nat (length (firstn n s)) = Z.min topK (Z.of_nat (length s))).
    { destruct (Z.ltb_spec topK (Z.of_nat (length s))).
      - replace (topK <? 0)%Z with false by (symmetry; apply Z.ltb_ge; lia). exists (Z.to_nat topK). split; [reflexivity|]. rewrite firstn_length. lia.
      - exists (length s). rewrite firstn_all. split; [reflexivity|]. lia. }
    destruct Hex as (n & -> & Hn). exists (firstn n s). split; [reflexivity|].
    assert (Hsub : forall t, In t (firstn n s) -> In t s) by (intros t Ht; rewrite <- (firstn_skipn n s); apply in_or_app; auto).
    split; [|split; [exact Hn|split]].
    - rewrite <- firstn_map. rewrite <- (firstn_skipn n (map fst s)) in M3. apply nodup_app_l in M3. exact M3.
    - intros t Ht. split; [apply Hin, Hsub, Ht|apply M5, Hsub, Ht].
    - intro Hnum. destruct (M6 Hnum) as [_ Hso]. rewrite <- (firstn_skipn n s) in Hso. apply sorted_app in Hso as [Hso1 Hso2]. split; [exact Hso1|].
      intros t Ht Htag Hnot a Ha. apply Hso2; [exact Ha|].
      assert (Hts : In (fst t) (map fst s)) by (rewrite <- M4; apply nodup_In; exact Ht). apply in_map_iff in Hts as (t' & Et & Ht').
      assert (t' = t) as ->. { destruct t as [w1 x1], t' as [w2 x2]. cbn in Et. subst w2. f_equal. eapply tag_fun; [apply M5; exact Ht'|exact Htag]. }
      rewrite <- (firstn_skipn n s) in Ht'. apply in_app_or in Ht' as [Ht'|Ht']; [destruct (Hnot Ht')|exact Ht'].
  Qed.
  Lemma extract_det : forall srt srt' o1 o1' o2 o2' d c em l text topK ws, sorts srt -> sorts srt' -> same_keys_in_any_order o1 -> same_keys_in_any_order o1' ->
    same_keys_in_any_order o2 -> same_keys_in_any_order o2' ->
    cut d c em text (Some true) = Ok ws -> big (length ws) -> (forall t x, In t (kept E l ws) -> idf_is i t x -> num64 x) ->
    extract_tags srt o1 o2 d c em (Some l) (Some i) text topK = extract_tags srt' o1' o2' d c em (Some l) (Some i) text topK.
  Proof.
    intros srt srt' o1 o1' o2 o2' d c em l text topK ws Hs Hs' Ho1 Ho1' Ho2 Ho2' Hc Hb Hnum.
    destruct (@tags_all srt o1 o2 l ws Hs Ho1 Ho2 Hb) as (m & w & M1 & M2 & M3 & M4 & M5 & M6). destruct (@tags_all srt' o1' o2' l ws Hs' Ho1' Ho2' Hb) as (m' & w' & M1' & M2' & M3' & M4' & M5' & M6').
    destruct (M6 Hnum) as [G1 G2]. destruct (M6' Hnum) as [G1' G2'].
    unfold extract_tags. rewrite Hc. cbn [bind]. rewrite M1. cbn [bind]. rewrite M2. assert (m' = m) as -> by congruence. rewrite M2'. cbn [bind].
    assert (Heq : srt _ (reverse_less (@seg_less E)) w = srt' _ (reverse_less (@seg_less E)) w'); [|rewrite Heq; reflexivity].
    apply (above_unique HE); auto. apply NoDup_Permutation; [apply (NoDup_map_inv fst); exact M3|apply (NoDup_map_inv fst); exact M3'|].
    assert (Sub : forall s s', (forall t, In t s -> tag_is i (kept E l ws) t) -> (forall t, In t s' -> tag_is i (kept E l ws) t) ->
      Permutation (nodup (list_eq_dec Byte.byte_eq_dec) (kept E l ws)) (map fst s) -> Permutation (nodup (list_eq_dec Byte.byte_eq_dec) (kept E l ws)) (map fst s') -> forall t, In t s -> In t s').
    { intros s s' T T' P P' t Ht. assert (Hts : In (fst t) (map fst s')) by (rewrite <- P', P; apply in_map, Ht). apply in_map_iff in Hts as (t' & Et & Ht').
      destruct t as [w1 x1], t' as [w2 x2]. cbn in Et. subst w2. rewrite (tag_fun (T _ Ht) (T' _ Ht')). exact Ht'. }
    intro t. split; apply Sub; assumption.
  Qed.
  Lemma extract_neg : forall srt o1 o2 d c em l text topK ws, sorts srt -> same_keys_in_any_order o1 -> same_keys_in_any_order o2 ->
    cut d c em text (Some true) = Ok ws -> big (length ws) -> (topK < 0)%Z ->
    extract_tags srt o1 o2 d c em (Some l) (Some i) text topK = Panic.
  Proof.
    intros srt o1 o2 d c em l text topK ws Hs Ho1 Ho2 Hc Hb HK. destruct (@tags_all srt o1 o2 l ws Hs Ho1 Ho2 Hb) as (m & w & M1 & M2 & _).
    unfold extract_tags. rewrite Hc. cbn [bind]. rewrite M1. cbn [bind]. rewrite M2. cbn [bind].
    replace (topK <? _)%Z with true by (symmetry; apply Z.ltb_lt; lia). replace (topK <? 0)%Z with true by (symmetry; apply Z.ltb_lt; lia). reflexivity.
  Qed.
End Tags.

(** ** The default value *)
Section Median.
  Variable E : env.
  Lemma idf_load_same : forall fs path (i : idf E) arg i' e, idf_load fs path i arg = Ok (i', e) -> i_median i' = i_median i /\ i_freqs i' = i_freqs i.
  Proof. intros fs path i arg i' e H. unfold idf_load in H. destruct (load_dict _ _ _) as [r| |]; try discriminate. injection H as <- <-. auto. Qed.
  Lemma median_run : forall srt, sorts srt -> forall os (i i' : idf E), idf_run srt i os = Ok i' ->
    Permutation (i_freqs i ++ added os) (i_freqs i') /\
    (added os = [] -> i_median i' = i_median i /\ i_freqs i' = i_freqs i) /\
    (added os <> [] -> (exists l, i_freqs i' = srt _ (@float_less E) l) /\ nth_error (i_freqs i') (length (i_freqs i') / 2) = Some (i_median i')).
  Proof.
    intros srt Hs. induction os as [|[text freq pos|fs path arg] os IH]; intros i i' H; cbn [idf_run added] in *.
    - injection H as <-. rewrite app_nil_r. split; [reflexivity|]. split; [auto|congruence].
    - unfold idf_add in H. destruct (s_dict (i_seg i)) as [d|]; [|discriminate]. destruct (seg_add_token _ _ _ _ _) as [d'| |]; try discriminate. cbn [bind] in H.
      set (fs := srt _ (@float_less E) (i_freqs i ++ [freq])) in *. destruct (get fs (length fs / 2)) as [m| |] eqn:Eg; try discriminate. cbn [bind] in H.
      destruct (IH _ _ H) as (I1 & I2 & I3). cbn [i_freqs i_median] in *. destruct (Hs _ (@float_less E) (i_freqs i ++ [freq])) as [Hp _]. fold fs in Hp. split; [|split; [discriminate|intros _]].
      + rewrite <- I1. change (freq :: added os) with ([freq] ++ added os). rewrite app_assoc. apply Permutation_app_tail, Hp.
      + destruct (added os) as [|x l] eqn:Ea; [|apply I3; discriminate]. destruct (I2 eq_refl) as [J1 J2]. rewrite J2, J1. split; [eexists; reflexivity|]. apply get_Ok. exact Eg.
    - destruct (idf_load fs path i arg) as [[i1 e]| |] eqn:El; try discriminate. cbn [bind fst] in H. destruct (idf_load_same El) as [L1 L2]. destruct (IH _ _ H) as (I1 & I2 & I3). rewrite L2 in *. rewrite L1 in *. auto.
  Qed.
  Hypothesis HE : ar E = ieee.
  Lemma float_weak : forall l, weak_order (@float_less E) l.
  Proof.
    intro l. assert (exists K : f64 E -> R, forall x y, float_less x y = Rlt_bool (K x) (K y)) as (K & HK).
    { unfold float_less. destruct E as [A u1 u2 u3 u4 u5 u6 u7 u8 u9 u10 u11 u12 u13 u14]. cbn [ar] in *. subst A. exists fkey. apply float_less_key. }
    split; [|split].
    - intros x _. rewrite HK. apply Rlt_bool_false. lra.
    - intros x y z _ _ _. rewrite !HK. destruct (Rlt_bool_spec (K x) (K y)), (Rlt_bool_spec (K y) (K z)), (Rlt_bool_spec (K x) (K z)); auto; try discriminate; lra.
    - intros x y z _ _ _. rewrite !HK. destruct (Rlt_bool_spec (K x) (K y)), (Rlt_bool_spec (K y) (K z)), (Rlt_bool_spec (K x) (K z)); auto; try discriminate; lra.
  Qed.
  Lemma median_ok : forall srt, sorts srt -> forall os s0 (i' : idf E), idf_run srt (new_idf s0) os = Ok i' ->
    (added os = [] -> i_median i' = lit64 E 0 0) /\ (added os <> [] -> upper_median (added os) (i_median i')).
  Proof.
    intros srt Hs os s0 i' H. destruct (median_run Hs H) as (H1 & H2 & H3). cbn [new_idf i_freqs i_median app] in *. split; [intro K; apply (H2 K)|].
    intro K. destruct (H3 K) as ((l & Hl) & H4). exists (i_freqs i'). split; [exact H1|]. split; [|rewrite (Permutation_length H1); exact H4].
    destruct (Hs _ (@float_less E) l) as [_ Hso]. specialize (Hso (float_weak l)). rewrite <- Hl in Hso. clear - Hso. induction Hso as [|a l' Hso IH Ha]; [constructor|]. constructor; [exact IH|].
    eapply Forall_impl; [|exact Ha]. intros b Hb. unfold float_less in Hb. apply orb_false_iff in Hb as [B1 B2]. split; [exact B1|]. unfold num64. destruct (eqb64 E b b); [auto|]. right. cbn in B2. congruence.
  Qed.
End Median.

(** ** Stop words *)
Lemma in_list_true : forall w l, in_list w l = true <-> In w l.
Proof. intros. apply in_list_iff. Qed.
Definition assigns (os : list swop) : bool := existsb (fun o => match o with WAssign _ => true | _ => false end) os.
Lemma h_upd_sws : forall h p f, h_sws (h_upd h p f) = h_sws h /\ h_pkg (h_upd h p f) = h_pkg h.
Proof. auto. Qed.
(** Without assignments to the package variable there is one map. *)
Lemma one_map : forall os h, assigns os = false -> h_pkg h = 0 -> Forall (fun s => fst s = 0) (h_sws h) ->
  h_pkg (fold_left h_step os h) = 0 /\ Forall (fun s => fst s = 0) (h_sws (fold_left h_step os h)).
Proof.
  induction os as [|o os IH]; intros h Ha Hp Hs; [auto|]. cbn [fold_left]. cbn in Ha. apply orb_false_iff in Ha as [Ho Ha]. apply IH; [exact Ha| |]; clear IH.
  - destruct o as [|s w|s w|s fs files|m]; cbn [h_step]; auto; try discriminate; destruct (nth_error (h_sws h) s) as [[p st]|]; auto. destruct (snd (load_stop fs st files)); auto.
  - destruct o as [|s w|s w|s fs files|m]; cbn [h_step]; try discriminate.
    + cbn [h_sws]. apply Forall_app. split; [exact Hs|]. constructor; [exact Hp|constructor].
    + destruct (nth_error (h_sws h) s) as [[p st]|]; auto.
    + destruct (nth_error (h_sws h) s) as [[p st]|]; auto.
    + destruct (nth_error (h_sws h) s) as [[p st]|] eqn:En; auto.
      assert (K : Forall (fun s => fst s = 0) (firstn s (h_sws h) ++ (p, fst (load_stop fs st files)) :: skipn (S s) (h_sws h))).
      { rewrite Forall_forall in Hs. apply Forall_forall. intros x Hx. apply in_app_or in Hx as [Hx|[<-|Hx]]; [apply Hs; rewrite <- (firstn_skipn s (h_sws h)); apply in_or_app; auto| |apply Hs; rewrite <- (firstn_skipn (S s) (h_sws h)); apply in_or_app; auto].
        apply nth_error_In in En. apply (Hs (p, st) En). }
      destruct (snd (load_stop fs st files)); exact K.
Qed.

Lemma maps_nonempty : forall os h, h_maps h <> [] -> h_maps (fold_left h_step os h) <> [].
Proof.
  assert (U : forall h p f, h_maps h <> [] -> h_maps (h_upd h p f) <> []).
  { intros h p f H. cbn [h_upd h_maps]. destruct (nth_error (h_maps h) p); [|exact H]. destruct (firstn p (h_maps h)); discriminate. }
  induction os as [|o os IH]; intros h H; [exact H|]. cbn [fold_left]. apply IH. destruct o as [|s w|s w|s fs files|m]; cbn [h_step]; auto.
  - destruct (nth_error (h_sws h) s) as [[p st]|]; auto.
  - destruct (nth_error (h_sws h) s) as [[p st]|]; auto.
  - destruct (nth_error (h_sws h) s) as [[p st]|]; auto. destruct (snd (load_stop fs st files)); [exact H|]. apply U. exact H.
  - cbn [h_maps]. destruct (h_maps h); discriminate.
Qed.
(** The one map of a history. *)
Definition the_map (h : sheap) : list bytes := nth 0 (h_maps h) [].
Lemma shared : forall os s w, assigns os = false -> s < length (h_sws (h_run os)) -> h_is_stop (h_run os) s w = in_list w (the_map (h_run os)).
Proof.
  intros os s w Ha Hs. unfold h_is_stop. destruct (nth_error (h_sws (h_run os)) s) as [[p st]|] eqn:En; [|apply nth_error_None in En; lia].
  destruct (@one_map os h_init Ha eq_refl ltac:(constructor)) as [_ K]. rewrite Forall_forall in K. apply nth_error_In in En. apply K in En. cbn in En. subst p. reflexivity.
Qed.
Lemma put_in : forall l w x, in_list x (set_put l w) = true <-> x = w \/ in_list x l = true.
Proof.
  intros l w x. unfold set_put. rewrite in_list_true. destruct (in_list w l) eqn:Ew; rewrite ?in_list_true; [|cbn; intuition].
  apply in_list_true in Ew. split; [auto|]. intros [->|]; auto.
Qed.
Lemma del_in : forall l w x, in_list x (set_del l w) = true <-> x <> w /\ in_list x l = true.
Proof. intros l w x. unfold set_del. rewrite !in_list_true, filter_In, negb_true_iff, beqb_neq. intuition. Qed.
Lemma put_all_in : forall ws l x, in_list x (put_all l ws) = true <-> In x ws \/ in_list x l = true.
Proof. induction ws as [|w ws IH]; intros l x; [cbn; intuition|]. cbn [put_all fold_left]. change (fold_left set_put ws (set_put l w)) with (put_all (set_put l w) ws). rewrite IH, put_in. cbn. intuition. Qed.
Lemma upd_map : forall h f, h_maps h <> [] -> the_map (h_upd h 0 f) = f (the_map h).
Proof. intros h f H. unfold the_map, h_upd. cbn [h_maps]. destruct (h_maps h); [congruence|]. reflexivity. Qed.
Lemma h_run_snoc : forall os o, h_run (os ++ [o]) = h_step (h_run os) o.
Proof. intros. unfold h_run. rewrite fold_left_app. reflexivity. Qed.
Lemma assigns_snoc : forall os o, assigns (os ++ [o]) = assigns os || assigns [o].
Proof. intros. apply existsb_app. Qed.
Lemma step_shared : forall os o s s' w, assigns os = false -> s < length (h_sws (h_run os)) -> s' < length (h_sws (h_run os)) ->
  match o with
  | WNew => h_is_stop (h_run (os ++ [o])) s' w = h_is_stop (h_run os) s' w /\ h_is_stop (h_run (os ++ [o])) (length (h_sws (h_run os))) w = h_is_stop (h_run os) s' w
  | WAdd t x => t = s -> (h_is_stop (h_run (os ++ [o])) s' w = true <-> w = x \/ h_is_stop (h_run os) s' w = true)
  | WRemove t x => t = s -> (h_is_stop (h_run (os ++ [o])) s' w = true <-> w <> x /\ h_is_stop (h_run os) s' w = true)
  | WLoad t fs files => t = s -> exists st p, nth_error (h_sws (h_run os)) s = Some (p, st) /\
      (h_is_stop (h_run (os ++ [o])) s' w = true <-> (snd (load_stop fs st files) = false /\ is_stop (fst (load_stop fs st files)) w = true) \/ h_is_stop (h_run os) s' w = true)
  | WAssign _ => True
  end.
Proof.
  intros os o s s' w Ha Hs Hs'. destruct (@one_map os h_init Ha eq_refl ltac:(constructor)) as [Kp K]. fold (h_run os) in Kp, K.
  assert (Hm : h_maps (h_run os) <> []) by (apply maps_nonempty; discriminate).
  assert (Hns : forall t, t < length (h_sws (h_run os)) -> exists st, nth_error (h_sws (h_run os)) t = Some (0, st)).
  { intros t Ht. destruct (nth_error (h_sws (h_run os)) t) as [[p st]|] eqn:En; [|apply nth_error_None in En; lia]. rewrite Forall_forall in K. pose proof (nth_error_In _ _ En) as Hin. apply K in Hin. cbn in Hin. subst p. eauto. }
  destruct o as [|t x|t x|t fs files|m]; [| | | |exact I].
  - assert (Ha' : assigns (os ++ [WNew]) = false) by (rewrite assigns_snoc, Ha; reflexivity).
    assert (L : length (h_sws (h_run (os ++ [WNew]))) = S (length (h_sws (h_run os)))) by (rewrite h_run_snoc; cbn [h_step h_sws]; rewrite app_length; cbn; lia).
    rewrite (@shared (os ++ [WNew]) s') by (auto; lia). rewrite (@shared (os ++ [WNew]) (length (h_sws (h_run os)))) by (auto; lia). rewrite shared by auto. rewrite h_run_snoc. auto.
  - intros ->. assert (Ha' : assigns (os ++ [WAdd s x]) = false) by (rewrite assigns_snoc, Ha; reflexivity). destruct (Hns s Hs) as (st & Est).
    assert (Hst : h_run (os ++ [WAdd s x]) = h_upd (h_run os) 0 (fun m => set_put m x)) by (rewrite h_run_snoc; cbn [h_step]; rewrite Est; reflexivity).
    rewrite !shared by (auto; rewrite Hst; exact Hs'). rewrite Hst, upd_map by exact Hm. apply put_in.
  - intros ->. assert (Ha' : assigns (os ++ [WRemove s x]) = false) by (rewrite assigns_snoc, Ha; reflexivity). destruct (Hns s Hs) as (st & Est).
    assert (Hst : h_run (os ++ [WRemove s x]) = h_upd (h_run os) 0 (fun m => set_del m x)) by (rewrite h_run_snoc; cbn [h_step]; rewrite Est; reflexivity).
    rewrite !shared by (auto; rewrite Hst; exact Hs'). rewrite Hst, upd_map by exact Hm. apply del_in.
  - intros ->. assert (Ha' : assigns (os ++ [WLoad s fs files]) = false) by (rewrite assigns_snoc, Ha; reflexivity). destruct (Hns s Hs) as (st & Est). exists st, 0. split; [exact Est|].
    assert (L : length (h_sws (h_run (os ++ [WLoad s fs files]))) = length (h_sws (h_run os))).
    { rewrite h_run_snoc. cbn [h_step]. rewrite Est. destruct (snd (load_stop fs st files)); cbn [h_upd h_sws]; rewrite app_length, firstn_length_le by lia; cbn [length]; rewrite skipn_length; lia. }
    rewrite !shared by (auto; rewrite ?L; exact Hs'). rewrite h_run_snoc. cbn [h_step]. rewrite Est, Kp. destruct (snd (load_stop fs st files)).
    + unfold the_map. cbn [h_maps]. split; [auto|intros [[H _]|H]; [discriminate|exact H]].
    + rewrite upd_map by exact Hm. rewrite put_all_in. unfold the_map. cbn [h_maps]. unfold is_stop, made. destruct (fst (load_stop fs st files)) as [l|].
      * rewrite (in_list_true w l). tauto.
      * split; [intros [[]|H]; auto|intros [[_ H]|H]; [discriminate|auto]].
Qed.
