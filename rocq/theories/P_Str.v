(** Facts about M_Str. *)
From Verif Require Import M_Str S_Load P_Utf8.
Set Implicit Arguments. Unset Strict Implicit.

Lemma index_Some : forall sep s i, index sep s = Some i ->
  s = firstn i s ++ sep ++ skipn (i + length sep) s /\ i + length sep <= length s /\
  forall j, j < i -> ~ occurs_at sep s j.
Proof.
  intros sep s; induction s as [|b s IH]; intros i H; cbn [index] in H.
  - destruct (is_prefix sep []) eqn:Ep; [|discriminate]. inversion H; subst. apply is_prefix_spec in Ep as [t Ht].
    destruct sep; [|discriminate]. cbn. repeat split; auto. intros; lia.
  - destruct (is_prefix sep (b :: s)) eqn:Ep.
    + inversion H; subst. apply is_prefix_spec in Ep as [t Ht]. rewrite Ht. cbn [firstn app Nat.add].
      rewrite skipn_app, skipn_all, Nat.sub_diag. cbn [skipn app]. repeat split; auto.
      * rewrite app_length. lia.
      * intros; lia.
    + destruct (index sep s) as [k|] eqn:Ei; [|discriminate]. inversion H; subst. destruct (IH k eq_refl) as (H1 & H2 & H3).
      cbn [firstn app Nat.add skipn length]. rewrite <- H1. repeat split; [lia|].
      intros j Hj (u & v & Hu & Hv). destruct u as [|x u].
      * cbn in Hu. enough (is_prefix sep (b :: s) = true) by congruence. apply is_prefix_spec. exists v; exact Hu.
      * inversion Hu; subst. cbn in Hj. apply (H3 (length u)); [lia|]. exists u, v. auto.
Qed.

Lemma index_None : forall sep s, index sep s = None -> forall i, ~ occurs_at sep s i.
Proof.
  intros sep s; induction s as [|b s IH]; intros H i (u & v & Hu & Hv); cbn [index] in H.
  - destruct (is_prefix sep []) eqn:Ep; [discriminate|]. enough (is_prefix sep [] = true) by congruence.
    destruct u; [|discriminate]. destruct sep; [reflexivity|discriminate].
  - destruct (is_prefix sep (b :: s)) eqn:Ep; [discriminate|]. destruct (index sep s) as [k|] eqn:Ei; [discriminate|].
    destruct u as [|x u].
    + enough (is_prefix sep (b :: s) = true) by congruence. apply is_prefix_spec. exists v; exact Hu.
    + inversion Hu; subst. apply (IH eq_refl (length u)). exists u, v. auto.
Qed.

Lemma index_first : forall sep f rest, (forall i, i < length f -> ~ occurs_at sep (f ++ sep ++ rest) i) ->
  index sep (f ++ sep ++ rest) = Some (length f).
Proof.
  intros sep f rest H. destruct (index sep (f ++ sep ++ rest)) as [i|] eqn:Ei.
  - pose proof (index_Some Ei) as (H1 & H2 & H3). f_equal. destruct (Nat.lt_trichotomy i (length f)) as [Hl|[Hl|Hl]]; auto; exfalso.
    + apply (H i Hl). exists (firstn i (f ++ sep ++ rest)), (skipn (i + length sep) (f ++ sep ++ rest)). split; [exact H1|].
      rewrite firstn_length. rewrite !app_length. lia.
    + apply (H3 _ Hl). exists f, rest. auto.
  - exfalso. apply (index_None Ei (i := length f)). exists f, rest. auto.
Qed.

Lemma contains_iff : forall s sub, contains s sub = true <-> exists a b, s = a ++ sub ++ b.
Proof.
  intros s sub. unfold contains. destruct (index sub s) as [i|] eqn:Ei; split; intro H; auto; try discriminate.
  - apply index_Some in Ei as (H1 & _). eauto.
  - destruct H as (a & b & H). exfalso. apply (index_None Ei (i := length a)). exists a, b; auto.
Qed.

Lemma split_fuel_fields : forall sep, sep <> [] -> forall f s, length s <= f -> fields sep s (split_fuel f sep s).
Proof.
  intros sep Hs f; induction f as [|f IH]; intros s Hl; cbn [split_fuel].
  - destruct s; [|cbn in Hl; lia]. apply fields_last. intros i (a & b & H & _). destruct a; [|discriminate]. destruct sep; [congruence|discriminate].
  - destruct (index sep s) as [i|] eqn:Ei.
    + pose proof (index_Some Ei) as (H1 & H2 & H3). rewrite H1 at 1. apply fields_cons.
      * intros j Hj. rewrite <- H1. apply H3. rewrite firstn_length in Hj. lia.
      * apply IH. rewrite skipn_length. destruct sep; [congruence|]. cbn [length] in *. lia.
    + apply fields_last. apply index_None; assumption.
Qed.

Lemma split_fields : forall sep s, sep <> [] -> fields sep s (split_str s sep).
Proof. intros. apply split_fuel_fields; auto. Qed.

Lemma fields_unique : forall sep s fs, fields sep s fs -> sep <> [] -> forall fs', fields sep s fs' -> fs = fs'.
Proof.
  intros sep s fs H Hs; induction H as [s H|f rest fs H HF IH]; intros fs' H'.
  - inversion H' as [s' H1|f' rest' fs'' H1 H2]; subst; auto. exfalso. apply (H (length f')). exists f', rest'. auto.
  - pose proof (index_first H) as E1. inversion H' as [s' H1 E2|f' rest' fs'' H1 H2 E2]; subst.
    + exfalso. apply (H1 (length f)). exists f, rest. auto.
    + pose proof (index_first H1) as E3. rewrite E2, E1 in E3. inversion E3 as [E4].
      assert (f' = f). { apply (f_equal (firstn (length f))) in E2. rewrite E4 in E2 at 1. rewrite !firstn_app, !firstn_all, !Nat.sub_diag in E2. cbn in E2. rewrite !app_nil_r in E2. exact E2. }
      subst f'. apply app_inv_head in E2. apply app_inv_head in E2. subst. f_equal. apply IH. exact H2.
Qed.

Lemma fields_iff : forall sep s fs, sep <> [] -> (fields sep s fs <-> fs = split_str s sep).
Proof.
  intros sep s fs Hs. split; intro H.
  - eapply fields_unique; eauto. apply split_fields; auto.
  - subst. apply split_fields; auto.
Qed.

Lemma split_str_ne : forall s sep, split_str s sep <> [].
Proof. intros s sep. unfold split_str. destruct (length s); cbn; [|destruct (index sep s)]; discriminate. Qed.

(** *** Trimming *)
Lemma drop_while_spec : forall A (p : A -> bool) l, exists a, l = a ++ drop_while p l /\ Forall (fun x => p x = true) a /\
  match drop_while p l with [] => True | x :: _ => p x = false end.
Proof.
  intros A p l; induction l as [|x l IH]; cbn; [exists []; auto|]. destruct (p x) eqn:Ep.
  - destruct IH as (a & H1 & H2 & H3). exists (x :: a). cbn. rewrite <- H1. auto.
  - exists []. auto.
Qed.

Lemma drop_while_app : forall A (p : A -> bool) a l, Forall (fun x => p x = true) a -> drop_while p (a ++ l) = drop_while p l.
Proof. intros A p a l H; induction H as [|x a Hx H IH]; cbn; [reflexivity|rewrite Hx; exact IH]. Qed.

Lemma drop_while_stop : forall A (p : A -> bool) x l, p x = false -> drop_while p (x :: l) = x :: l.
Proof. intros. cbn. rewrite H. reflexivity. Qed.

Lemma drop_while_all : forall A (p : A -> bool) a, Forall (fun x => p x = true) a -> drop_while p a = [].
Proof. intros. rewrite <- (app_nil_r a). rewrite drop_while_app by auto. reflexivity. Qed.

Lemma trim_by_spec : forall A (p : A -> bool) l, exists a b, l = a ++ trim_by p l ++ b /\
  Forall (fun x => p x = true) a /\ Forall (fun x => p x = true) b /\
  (trim_by p l = [] \/ exists x m1 m2 y, trim_by p l = x :: m1 /\ p x = false /\ trim_by p l = m2 ++ [y] /\ p y = false).
Proof.
  intros A p l. unfold trim_by. destruct (drop_while_spec p l) as (a & H1 & H2 & H3).
  set (m := drop_while p l) in *. destruct (drop_while_spec p (rev m)) as (b & G1 & G2 & G3).
  set (n := drop_while p (rev m)) in *. exists a, (rev b). assert (Hm : m = rev n ++ rev b).
  { rewrite <- rev_app_distr, <- G1, rev_involutive. reflexivity. }
  repeat apply conj; auto.
  - rewrite <- Hm. exact H1.
  - apply Forall_rev. exact G2.
  - destruct n as [|y n']; [left; reflexivity|right]. cbn [rev] in *. destruct (rev n') as [|x r] eqn:Er; cbn [app] in *.
    + exists y, [], [], y. rewrite Hm in H3. cbn in H3. auto.
    + exists x, (r ++ [y]), (x :: r), y. rewrite Hm in H3. cbn in H3. auto.
Qed.

Lemma trim_by_unique : forall A (p : A -> bool) a m b, Forall (fun x => p x = true) a -> Forall (fun x => p x = true) b ->
  (m = [] \/ exists x m1 m2 y, m = x :: m1 /\ p x = false /\ m = m2 ++ [y] /\ p y = false) ->
  trim_by p (a ++ m ++ b) = m.
Proof.
  intros A p a m b Ha Hb Hm. unfold trim_by. rewrite drop_while_app by auto. destruct Hm as [->|(x & m1 & m2 & y & H1 & H2 & H3 & H4)].
  - cbn [app]. rewrite (drop_while_all Hb). reflexivity.
  - rewrite H1 at 1. cbn [app]. rewrite drop_while_stop by auto. rewrite app_comm_cons, <- H1. rewrite rev_app_distr.
    rewrite drop_while_app by (apply Forall_rev; auto). rewrite H3 at 1. rewrite rev_app_distr. cbn [rev app].
    rewrite drop_while_stop by auto. cbn [rev]. rewrite rev_involutive. symmetry. exact H3.
Qed.

Lemma trimmed_iff : forall E s t, trimmed E s t <-> t = trim_space E s.
Proof.
  intros E s t. unfold trimmed, trim_space. split.
  - intros (a & m & b & H1 & H2 & H3 & H4 & H5). rewrite H1. rewrite (@trim_by_unique _ (fun u => is_space E (fst u)) a m b H2 H3 H5). exact H4.
  - intros ->. destruct (trim_by_spec (fun u => is_space E (fst u)) (units s)) as (a & b & H1 & H2 & H3 & H4).
    exists a, (trim_by (fun u => is_space E (fst u)) (units s)), b. auto.
Qed.
