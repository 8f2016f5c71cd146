(** Routes of two runs of calc; suffixes of a text cut by CutDAGNoHMM. *)
From Verif Require Import S_Dag P_Utf8 P_Utf8b P_Dict P_Seg P_Seg2 P_Hist P_Hmm P_Dag P_Dag2.
From Coq Require Import Sorting.Sorted.
Set Implicit Arguments. Unset Strict Implicit.

Lemma ssorted_ext : forall l l', StronglySorted lt l -> StronglySorted lt l' -> (forall j, In j l <-> In j l') -> l = l'.
Proof.
  intros l. induction l as [|a l IH]; intros l' H H' Hin.
  - destruct l' as [|b l']; [reflexivity|]. exfalso. apply (Hin b). left. reflexivity.
  - destruct l' as [|b l']; [exfalso; apply (Hin a); left; reflexivity|]. inversion_clear H as [|? ? Hs Hf]. inversion_clear H' as [|? ? Hs' Hf']. rewrite Forall_forall in Hf, Hf'.
    assert (a = b).
    { destruct (proj1 (Hin a) (or_introl eq_refl)) as [|H1]; [auto|]. destruct (proj2 (Hin b) (or_introl eq_refl)) as [|H2]; [auto|]. apply Hf' in H1. apply Hf in H2. lia. }
    subst b. f_equal. apply IH; auto. intro j. split; intro Hj.
    + destruct (proj1 (Hin j) (or_intror Hj)) as [<-|]; [|assumption]. apply Hf in Hj. lia.
    + destruct (proj2 (Hin j) (or_intror Hj)) as [<-|]; [|assumption]. apply Hf' in Hj. lia.
Qed.
Lemma ssorted_map_sub : forall n l, StronglySorted lt l -> Forall (fun j => n <= j) l -> StronglySorted lt (map (fun j => j - n) l).
Proof.
  intros n l H. induction H as [|a l Hs IH Hf]; intro HF; cbn; constructor; inversion_clear HF as [|? ? Ha HF']; auto.
  rewrite Forall_map. rewrite Forall_forall in *. intros x Hx. specialize (Hf x Hx). specialize (HF' x Hx). lia.
Qed.
Lemma slice_shift : forall A (l : list A) n i j, slice (skipn n l) i j = slice l (n + i) (n + j).
Proof. intros A l n i j. unfold slice. rewrite skipn_skipn. replace (n + j - (n + i)) with (j - i) by lia. f_equal. f_equal. lia. Qed.

Section Routes.
  Variable E : env.
  Variables d1 d2 : dict E.
  Variables T1 T2 : f64 E.
  Variables rs1 rs2 : list rune.
  Variable n : nat.
  Hypothesis Hn : n <= length rs1.
  Hypothesis Hrs : rs2 = skipn n rs1.
  Hypothesis HP : forall w, w <> [] -> (pos_word d1 w <-> pos_word d2 w).
  Hypothesis HE : forall w, w <> [] -> edge d1 T1 w = edge d2 T2 w.

  Lemma len2 : length rs1 = n + length rs2.
  Proof. rewrite Hrs, skipn_length. lia. Qed.
  Lemma word_shift : forall i j, string_of_runes (slice rs2 i (S j)) = string_of_runes (slice rs1 (n + i) (S (n + j))).
  Proof. intros i j. rewrite Hrs, slice_shift. do 2 f_equal. lia. Qed.
  Lemma word_ne : forall i j, i <= j < length rs2 -> string_of_runes (slice rs1 (n + i) (S (n + j))) <> [].
  Proof. intros i j H. pose proof len2. apply string_nonempty, slice_ne; lia. Qed.

  Lemma spec_unique : forall k row row', k < length rs2 -> dag_spec d2 rs2 k row -> dag_spec d2 rs2 k row' -> row = row'.
  Proof.
    intros k row row' Hk H H'. destruct H as [[N1 [S1 M1]]|[-> N1]], H' as [[N2 [S2 M2]]|[-> N2]]; auto.
    - apply ssorted_ext; auto. intro j. rewrite M1, M2. tauto.
    - exfalso. destruct row as [|a row]; [congruence|]. destruct (proj1 (M1 a) (or_introl eq_refl)) as [A B]. exact (N2 _ A B).
    - exfalso. destruct row' as [|a row']; [congruence|]. destruct (proj1 (M2 a) (or_introl eq_refl)) as [A B]. exact (N1 _ A B).
  Qed.
  Lemma spec_shift : forall i row, i < length rs2 -> dag_spec d1 rs1 (n + i) row -> dag_spec d2 rs2 i (map (fun j => j - n) row).
  Proof.
    intros i row Hi H. pose proof len2 as HL. destruct H as [[N1 [S1 M1]]|[-> N1]].
    - left. split; [destruct row; [congruence|discriminate]|]. split.
      + apply ssorted_map_sub; [exact S1|]. apply Forall_forall. intros j Hj. apply M1 in Hj. lia.
      + intro j. rewrite in_map_iff, word_shift. split.
        * intros (x & <- & Hx). apply M1 in Hx as [A B]. split; [lia|]. replace (n + (x - n)) with x by lia. apply HP; [|exact B]. apply string_nonempty, slice_ne; lia.
        * intros [A B]. exists (n + j). split; [lia|]. apply M1. split; [lia|]. apply HP; [|exact B]. apply word_ne. lia.
    - right. split; [cbn; f_equal; lia|]. intros j Hj. rewrite word_shift. intro B. apply (N1 (n + j)); [lia|]. apply HP; [|exact B]. apply word_ne. lia.
  Qed.

  Definition shift (r : route E) : route E := (fst r, snd r - n).
  Lemma better_shift : forall a b : route E, n <= snd a -> n <= snd b -> better (Some (shift a)) (shift b) = shift (better (Some a) b).
  Proof.
    intros a b Ha Hb. unfold better, shift. cbn [fst snd]. replace (snd a - n <? snd b - n) with (snd a <? snd b); [destruct (_ || _); reflexivity|].
    destruct (Nat.ltb_spec (snd a) (snd b)), (Nat.ltb_spec (snd a - n) (snd b - n)); lia || reflexivity.
  Qed.
  Lemma fold_shift : forall (l : list (route E)) x, n <= snd x -> Forall (fun r => n <= snd r) l ->
    fold_left (fun a b => better (Some a) b) (map shift l) (shift x) = shift (fold_left (fun a b => better (Some a) b) l x).
  Proof.
    induction l as [|y l IH]; intros x Hx HF; [reflexivity|]. inversion_clear HF as [|? ? Hy HF']. cbn [map fold_left]. rewrite better_shift by assumption. apply IH; [|assumption].
    unfold better. destruct (_ || _); assumption.
  Qed.

  Variables tl1 tl2 : list (route E).
  Hypothesis R1 : routes_ok d1 T1 rs1 tl1.
  Hypothesis R2 : routes_ok d2 T2 rs2 tl2.

  Lemma routes_shift : forall k i, length rs2 - i <= k -> i <= length rs2 -> fst (rt tl2 i) = fst (rt tl1 (n + i)) /\ (i < length rs2 -> rt tl2 i = shift (rt tl1 (n + i))).
  Proof.
    pose proof len2 as HL. induction k as [|k IH]; intros i Hk Hi.
    - replace i with (length rs2) by lia. split; [|lia]. rewrite (ro_end R2). rewrite <- HL, (ro_end R1). reflexivity.
    - destruct (Nat.eq_dec i (length rs2)) as [->|Hne]; [apply IH; lia|]. enough (rt tl2 i = shift (rt tl1 (n + i))) as Hs by (split; [rewrite Hs; reflexivity|auto]).
      destruct (ro_step R1 (i := n + i)) as (row & D1 & ->); [lia|]. destruct (ro_step R2 (i := i)) as (row2 & D2 & ->); [lia|].
      assert (Hri : i < length rs2) by lia. pose proof (spec_shift Hri D1) as D3. rewrite (spec_unique Hri D2 D3).
      assert (Hrange : Forall (fun j => n + i <= j < length rs1) row). { apply Forall_forall. intros j Hj. apply (spec_range (E := E) (d := d1) (rs := rs1) (k := n + i) (row := row)); auto. lia. }
      assert (Hc : map (cand' d2 T2 rs2 tl2 i) (map (fun j => j - n) row) = map shift (map (cand' d1 T1 rs1 tl1 (n + i)) row)).
      { rewrite !map_map. apply map_ext_in. intros j Hj. rewrite Forall_forall in Hrange. specialize (Hrange j Hj). unfold cand', shift. cbn [fst snd]. f_equal.
        rewrite word_shift. replace (n + (j - n)) with j by lia. rewrite HE by (apply string_nonempty, slice_ne; lia). f_equal.
        destruct (IH (S (j - n))) as [F _]; [lia|lia|]. rewrite F. do 2 f_equal. lia. }
      rewrite Hc. destruct row as [|j0 row]; [exfalso; apply (spec_ne D1); reflexivity|]. cbn [map best_of]. apply fold_shift.
      + cbn. inversion_clear Hrange. lia.
      + inversion_clear Hrange as [|? ? _ HF]. rewrite Forall_map. eapply Forall_impl; [|exact HF]. cbn. intros j Hj. lia.
  Qed.

  Lemma follows_shift : forall x ps, follows rs1 tl1 x ps -> forall i, x = n + i -> follows rs2 tl2 i ps.
  Proof.
    pose proof len2 as HL. intros x ps H. induction H as [|x ps H1 H2 H3 IH]; intros i Hx0; [replace i with (length rs2) by lia; constructor|subst x].
    assert (Hi : i < length rs2) by lia. destruct (@routes_shift (length rs2) i) as [_ Hs]; [lia|lia|]. specialize (Hs Hi).
    assert (Hx : route_index tl2 i = route_index tl1 (n + i) - n) by (unfold route_index; unfold rt in Hs; rewrite Hs; reflexivity).
    replace (slice rs1 (n + i) (S (route_index tl1 (n + i)))) with (slice rs2 i (S (route_index tl2 i))).
    - constructor; [exact Hi|lia|]. apply IH. lia.
    - rewrite Hrs, slice_shift. f_equal. lia.
  Qed.
End Routes.

Lemma follows_unique : forall E rs (tl : list (route E)) x ps, follows rs tl x ps -> forall ps', follows rs tl x ps' -> ps = ps'.
Proof.
  intros E rs tl x ps H. induction H as [|x ps H1 H2 H3 IH]; intros ps' H'; inversion H'; subst; try lia; auto. f_equal. auto.
Qed.
Lemma follows_at : forall E rs (tl : list (route E)) ps1 ps2 x, follows rs tl x (ps1 ++ ps2) -> follows rs tl (x + length (concat ps1)) ps2.
Proof.
  intros E rs tl. induction ps1 as [|p ps1 IH]; intros ps2 x H; cbn [app concat length] in *; [rewrite Nat.add_0_r; exact H|].
  inversion H as [|x' ps' H1 H2 H3 Hx Hp]; subst. apply IH in H3. rewrite app_length, slice_length by lia. replace (x + (S (route_index tl x) - x + length (concat ps1))) with (S (route_index tl x) + length (concat ps1)) by lia. exact H3.
Qed.

Lemma runs_suffix : forall A (p : A -> bool) g1 g2 l, runs p l = g1 ++ g2 -> exists l1 l2, l = l1 ++ l2 /\ runs p l2 = g2 /\ concat (map snd g1) = l1.
Proof.
  intros A p g1 g2 l. revert g1 g2. induction l as [|a l IH]; intros g1 g2 H.
  - cbn in H. symmetry in H. apply app_eq_nil in H as [-> ->]. exists [], []. auto.
  - destruct g1 as [|x g1]; [exists [], (a :: l); auto|]. cbn [runs] in H. destruct (p a) eqn:Ep.
    + destruct (runs p l) as [|[[|] r] g] eqn:Er; cbn [app] in H; injection H as <- H.
      * symmetry in H. apply app_eq_nil in H as [-> ->]. destruct (IH [] [] eq_refl) as (l1 & l2 & -> & K1 & K2). exists [a], l2. cbn in K2. subst l1. auto.
      * subst g. destruct (IH ((true, r) :: g1) g2 eq_refl) as (l1 & l2 & -> & K1 & K2). exists (a :: l1), l2. split; [reflexivity|]. split; [exact K1|]. cbn in *. rewrite K2. reflexivity.
      * destruct (IH g1 g2 H) as (l1 & l2 & -> & K1 & K2). exists (a :: l1), l2. split; [reflexivity|]. split; [exact K1|]. cbn. rewrite K2. reflexivity.
    + cbn [app] in H. injection H as <- H. destruct (IH g1 g2 H) as (l1 & l2 & -> & K1 & K2). exists (a :: l1), l2. split; [reflexivity|]. split; [exact K1|]. cbn. rewrite K2. reflexivity.
Qed.

(** Decoding what was encoded. *)
Definition clean (r : rune) : rune := if scalar r then r else RuneError.
Lemma clean_scalar : forall r, scalar (clean r) = true.
Proof. intro r. unfold clean. destruct (scalar r) eqn:H; [exact H|reflexivity]. Qed.
Lemma runes_string : forall rs, runes_of (string_of_runes rs) = map clean rs.
Proof.
  intro rs. replace (string_of_runes rs) with (concat (map enc (map clean rs))); [apply runes_encs; rewrite Forall_map; apply Forall_forall; intros; apply clean_scalar|].
  rewrite map_map. reflexivity.
Qed.
Lemma dag_runes_eq : forall E c s, dag_runes E c s = if c_lower c then map (fun r => clean (rune_lower E r)) (runes_of s) else runes_of s.
Proof. intros E c s. unfold dag_runes, to_lower_str. destruct (c_lower c); [|reflexivity]. rewrite runes_string, map_map. reflexivity. Qed.
Lemma dag_runes_again : forall E c s n, (c_lower c = true -> forall r, rune_lower E (rune_lower E r) = rune_lower E r) ->
  dag_runes E c (string_of_runes (skipn n (dag_runes E c s))) = skipn n (dag_runes E c s).
Proof.
  intros E c s n Hl. rewrite (@dag_runes_eq E c s), dag_runes_eq, runes_string. destruct (c_lower c).
  - rewrite map_map, skipn_map, map_map. apply map_ext. intro r. unfold clean at 3. destruct (scalar (rune_lower E r)) eqn:Hs.
    + unfold clean at 2. rewrite Hs, Hl by reflexivity. unfold clean. rewrite Hs. reflexivity.
    + unfold clean at 3. rewrite Hs. cbn. reflexivity.
  - pose proof (runes_scalar s) as HF. rewrite <- (firstn_skipn n (runes_of s)) in HF. apply Forall_app in HF as [_ HF]. rewrite <- map_id. apply map_ext_in. intros r Hr.
    rewrite Forall_forall in HF. unfold clean. rewrite (HF r Hr). reflexivity.
Qed.

(** C76 *)
Lemma c76 : forall E c0 (d : dict E) c s a b, reachable c0 d -> (c_lower c = true -> forall r, rune_lower E (rune_lower E r) = rune_lower E r) ->
  cut_dag_nohmm d c s = Ok (a ++ b) -> cut_dag_nohmm d c (concat b) = Ok b.
Proof.
  intros E c0 d c s a b Hr Hl H. apply reachable_inv in Hr. destruct (nohmm_cut Hr c s) as (tl & ps & _ & R & F & H1). rewrite H1 in H. injection H as H.
  apply map_eq_app in H as (g1 & g2 & Hg & Ha & Hb). destruct (runs_suffix Hg) as (l1 & l2 & -> & K1 & K2).
  pose proof (follows_concat F) as Hc. cbn [skipn] in Hc. rewrite concat_app in Hc. set (n := length (concat l1)).
  assert (Hn : n <= length (dag_runes E c s)) by (rewrite <- Hc, app_length; unfold n; lia).
  assert (Hs : concat l2 = skipn n (dag_runes E c s)) by (rewrite <- Hc, skipn_app; unfold n; rewrite skipn_all, Nat.sub_diag; reflexivity).
  assert (Hb' : concat b = string_of_runes (skipn n (dag_runes E c s))).
  { rewrite <- Hb, groups_string, <- Hs. do 2 f_equal. rewrite <- K1. apply runs_concat. }
  rewrite Hb'. destruct (nohmm_cut Hr c (string_of_runes (skipn n (dag_runes E c s)))) as (tl' & ps' & _ & R' & F' & H'). rewrite H'. do 1 f_equal.
  rewrite dag_runes_again in R', F' by exact Hl. apply follows_at in F. cbn [plus] in F. fold n in F.
  assert (F2 : follows (skipn n (dag_runes E c s)) tl' 0 l2).
  { eapply (@follows_shift E d d (m_log E (d_total d)) (m_log E (d_total d)) (dag_runes E c s) (skipn n (dag_runes E c s)) n Hn eq_refl); eauto; try lia; try reflexivity. }
  rewrite (follows_unique F' F2), K1. exact Hb.
Qed.
