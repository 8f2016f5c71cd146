(** Facts about the trie and the dictionary invariant. *)
From Verif Require Import S_Split P_Utf8 P_Split M_Seg.
Set Implicit Arguments. Unset Strict Implicit.

(* ---- trie ---- *)

Lemma t_get_In : forall t k v, t_get t k = Some v -> In (k, v) t.
Proof.
  induction t as [|[k' v'] t IH]; intros k v H; cbn in H; [discriminate|].
  destruct (beqb k' k) eqn:Eb.
  - apply beqb_eq in Eb. left. congruence.
  - right. apply IH. exact H.
Qed.

Lemma t_get_Some_In : forall t k v, In (k, v) t -> exists v', t_get t k = Some v'.
Proof.
  induction t as [|[k' v'] t IH]; intros k v H; [contradiction|]. cbn.
  destruct (beqb k' k) eqn:Eb; [eauto|]. destruct H as [H|H].
  - apply beqb_neq in Eb. congruence.
  - eapply IH; eauto.
Qed.

Lemma t_get_app : forall t1 t2 k, t_get (t1 ++ t2) k =
  match t_get t1 k with Some v => Some v | None => t_get t2 k end.
Proof.
  induction t1 as [|[k' v'] t1 IH]; intros; cbn; [reflexivity|].
  destruct (beqb k' k); [reflexivity|apply IH].
Qed.

Lemma t_get_filter : forall f t k, t_get (filter (fun kv => f (fst kv)) t) k =
  if f k then t_get t k else None.
Proof.
  induction t as [|[k' v'] t IH]; intros k; cbn; [destruct (f k); reflexivity|].
  destruct (f k') eqn:Ef; cbn.
  - destruct (beqb k' k) eqn:Eb.
    + apply beqb_eq in Eb; subst. rewrite Ef. reflexivity.
    + apply IH.
  - destruct (beqb k' k) eqn:Eb.
    + apply beqb_eq in Eb; subst. rewrite IH, Ef. reflexivity.
    + apply IH.
Qed.

Lemma t_get_insert : forall t k v k', t_get (t_insert t k v) k' =
  if beqb k k' then Some v else t_get t k'.
Proof.
  intros. unfold t_insert. rewrite t_get_app, (t_get_filter (fun x => negb (beqb x k))). cbn.
  destruct (beqb k k') eqn:Eb.
  - apply beqb_eq in Eb; subst. rewrite beqb_refl. reflexivity.
  - destruct (beqb k' k) eqn:Eb'.
    + apply beqb_eq in Eb'; subst. rewrite beqb_refl in Eb. discriminate.
    + cbn. destruct (t_get t k'); reflexivity.
Qed.

Lemma t_path_spec : forall t p, t_path t p = true <->
  p = [] \/ exists k v, t_get t k = Some v /\ is_prefix p k = true.
Proof.
  intros t p. split.
  - destruct p as [|b p]; [auto|]. intro H. right. cbn [t_path] in H.
    apply existsb_exists in H as ([k v] & Hin & Hp). cbn [fst] in Hp.
    destruct (t_get_Some_In Hin) as [v' Hv']. eauto.
  - intros [->|(k & v & Hg & Hp)]; [reflexivity|]. destruct p as [|b p]; [reflexivity|].
    cbn [t_path]. apply existsb_exists. exists (k, v). split; [apply t_get_In; exact Hg|exact Hp].
Qed.

Lemma t_path_key : forall t k v, t_get t k = Some v -> t_path t k = true.
Proof.
  intros t k v H. apply t_path_spec. right. exists k, v. split; [exact H|].
  apply is_prefix_spec. exists []. rewrite app_nil_r. reflexivity.
Qed.

Lemma t_path_prefix : forall t p q, t_path t (p ++ q) = true -> t_path t p = true.
Proof.
  intros t p q H. apply t_path_spec. apply t_path_spec in H as [H|(k & v & Hg & Hp)].
  - apply app_eq_nil in H as [-> _]. auto.
  - right. exists k, v. split; [exact Hg|]. apply is_prefix_spec in Hp as [r Hr].
    apply is_prefix_spec. exists (q ++ r). rewrite Hr, app_assoc. reflexivity.
Qed.

Lemma t_delete_get : forall drop t k t' k', t_delete drop t k = Some t' ->
  t_get t' k' =
  match t_get t k with
  | Some _ => if beqb k' k then None else t_get t k'
  | None => if drop && is_prefix k k' then None else t_get t k'
  end.
Proof.
  intros drop t k t' k' H. unfold t_delete in H. destruct (t_path t k); [|discriminate].
  destruct (t_get t k) eqn:Eg; inversion H; subst.
  - rewrite (t_get_filter (fun x => negb (beqb x k))). destruct (beqb k' k); reflexivity.
  - destruct drop; cbn [andb]; [|reflexivity].
    rewrite (t_get_filter (fun x => negb (is_prefix k x))). destruct (is_prefix k k'); reflexivity.
Qed.

Lemma t_delete_sub : forall drop t k t' k' v, t_delete drop t k = Some t' ->
  t_get t' k' = Some v -> t_get t k' = Some v.
Proof.
  intros drop t k t' k' v H Hg. rewrite (t_delete_get k' H) in Hg.
  destruct (t_get t k); [destruct (beqb k' k)|destruct (drop && is_prefix k k')]; congruence.
Qed.

(* ---- dictionary invariant ---- *)

Record dict_ok (E : env) (c : cfg) (d : dict E) : Prop := {
  ok_entry : forall k v, t_get (d_trie d) k = Some v ->
    exists t, nth_error (d_tokens d) v = Some t /\ t_text t = wsplit E c k /\ concat (t_text t) = k /\
              length (t_text t) <= d_max d;
  ok_tokens : Forall (fun t => exists s, t_text t = wsplit E c s) (d_tokens d)
}.

Lemma new_dict_ok : forall E c, dict_ok c (new_dict E).
Proof. intros E c. constructor; [intros k v H; discriminate|constructor]. Qed.

Lemma split_of_concat : forall E c s ws, ws = wsplit E c s -> wsplit E c (concat ws) = ws.
Proof. intros E c s ws ->. apply split_concat_split. Qed.

Lemma add_token_ok : forall E c (d : dict E) t s, dict_ok c d -> t_text t = wsplit E c s -> dict_ok c (add_token d t).
Proof.
  intros E c d t s [He Ht] Hs. unfold add_token.
  destruct (t_get (d_trie d) (text_bytes (t_text t))) eqn:Eg; [constructor; assumption|].
  constructor; cbn [d_trie d_tokens d_max].
  - intros k v H. rewrite t_get_insert in H. unfold text_bytes in *.
    destruct (beqb (concat (t_text t)) k) eqn:Eb.
    + apply beqb_eq in Eb. injection H as <-. exists t. repeat apply conj.
      * rewrite nth_error_app2 by lia. rewrite Nat.sub_diag. reflexivity.
      * subst k. symmetry. eapply split_of_concat; exact Hs.
      * exact Eb.
      * destruct (Nat.ltb_spec (d_max d) (length (t_text t))); lia.
    + destruct (He _ _ H) as (t' & H1 & H2 & H3 & H4). exists t'. repeat apply conj; auto.
      * rewrite nth_error_app1; [exact H1|]. apply nth_error_Some. congruence.
      * destruct (Nat.ltb_spec (d_max d) (length (t_text t))); lia.
  - apply Forall_app. split; [exact Ht|]. constructor; [|constructor]. exists s. exact Hs.
Qed.

Lemma remove_token_ok : forall E c (d d' : dict E) text, dict_ok c d -> remove_token d text = Some d' -> dict_ok c d'.
Proof.
  intros E c d d' text [He Ht] H. unfold remove_token in H.
  destruct (t_delete (q_drop E) (d_trie d) (text_bytes text)) eqn:Ed; [|discriminate].
  injection H as <-. constructor; cbn [d_trie d_tokens d_max]; [|exact Ht].
  intros k v Hk. apply He. eapply t_delete_sub; eassumption.
Qed.

(** Changing distances, frequencies or sub-segments keeps the invariant. *)
Lemma set_tokens_ok : forall E c (d : dict E) ts, dict_ok c d ->
  map (@t_text E) ts = map (@t_text E) (d_tokens d) -> dict_ok c (set_tokens d ts).
Proof.
  intros E c d ts [He Ht] Hm. constructor; cbn [d_trie d_tokens d_max set_tokens].
  - intros k v Hk. destruct (He _ _ Hk) as (t & H1 & H2 & H3 & H4).
    assert (Hn : nth_error (map (@t_text E) ts) v = Some (t_text t)).
    { rewrite Hm. apply map_nth_error. exact H1. }
    destruct (nth_error ts v) as [t'|] eqn:Et'.
    + rewrite (map_nth_error _ _ _ Et') in Hn. injection Hn as Hn. exists t'. rewrite Hn. auto.
    + exfalso. apply nth_error_None in Et'. rewrite <- (map_length (@t_text E)) in Et'.
      apply nth_error_None in Et'. congruence.
  - clear -Ht Hm. revert Hm. generalize (d_tokens d) Ht. clear Ht. induction ts as [|t ts IH]; intros l Ht Hm; [constructor|].
    destruct l as [|t' l]; [discriminate|]. cbn in Hm. inversion Ht; subst.
    assert (Hx1 : t_text t = t_text t') by congruence.
    assert (Hx2 : map (@t_text E) ts = map (@t_text E) l) by congruence.
    constructor; [rewrite Hx1; assumption|eapply IH; eassumption].
Qed.

(* ---- lookup ---- *)

Fixpoint somes {A} (l : list (option A)) : list A :=
  match l with [] => [] | Some a :: t => a :: somes t | None :: t => somes t end.

Lemma somes_app : forall A (l1 l2 : list (option A)), somes (l1 ++ l2) = somes l1 ++ somes l2.
Proof. induction l1 as [|[a|] l1 IH]; intros; cbn; rewrite ?IH; reflexivity. Qed.

Lemma somes_length : forall A (l : list (option A)), length (somes l) <= length l.
Proof. induction l as [|[a|] l IH]; cbn; lia. Qed.

Lemma somes_In : forall A (l : list (option A)) a, In a (somes l) <-> In (Some a) l.
Proof.
  induction l as [|[b|] l IH]; intros a; cbn; [tauto| |].
  - rewrite IH. split; intros [H|H]; auto; [left; congruence|inversion H; auto].
  - rewrite IH. split; [auto|]. intros [H|H]; [discriminate|auto].
Qed.

Lemma lookup_no_path : forall t id words, t_path t id = false -> Forall (fun w => w <> []) words ->
  somes (map (fun k => t_get t (id ++ concat (firstn k words))) (seq 1 (length words))) = [].
Proof.
  intros t id words Hp Hne.
  assert (H : forall l, somes (map (fun k => t_get t (id ++ concat (firstn k words))) l) = []).
  { induction l as [|k l IH]; [reflexivity|]. cbn.
    destruct (t_get t (id ++ concat (firstn k words))) eqn:Eg; [|exact IH].
    apply t_path_key in Eg. apply t_path_prefix in Eg. congruence. }
  apply H.
Qed.

Lemma lookup_spec : forall E (d : dict E) cap words id acc,
  (forall k v, t_get (d_trie d) k = Some v -> v < length (d_tokens d)) ->
  Forall (fun w => w <> []) words -> length acc + length words <= cap ->
  lookup d cap words id acc =
  Ok (acc ++ somes (map (fun k => t_get (d_trie d) (id ++ concat (firstn k words))) (seq 1 (length words)))).
Proof.
  intros E d cap words. induction words as [|w ws IH]; intros id acc Hv Hne Hcap; cbn [lookup].
  - cbn. rewrite app_nil_r. reflexivity.
  - inversion Hne as [|? ? Hw Hws]; subst.
    cbn [length seq map]. rewrite <- seq_shift, map_map.
    assert (Hmap : map (fun k => t_get (d_trie d) (id ++ concat (firstn (S k) (w :: ws)))) (seq 1 (length ws)) =
                   map (fun k => t_get (d_trie d) ((id ++ w) ++ concat (firstn k ws))) (seq 1 (length ws))).
    { apply map_ext. intro k. cbn [firstn concat]. rewrite app_assoc. reflexivity. }
    rewrite Hmap. cbn [firstn concat]. rewrite app_nil_r.
    unfold t_jump. destruct w as [|b w]; [congruence|]. set (w0 := b :: w) in *.
    destruct (t_path (d_trie d) (id ++ w0)) eqn:Ep.
    + unfold t_value. destruct (t_get (d_trie d) (id ++ w0)) as [v|] eqn:Eg.
      * cbn [somes]. pose proof (Hv _ _ Eg) as Hlt.
        destruct (Nat.ltb_spec (length acc) cap); [|cbn [length] in Hcap; lia].
        destruct (Nat.ltb_spec v (length (d_tokens d))); [|lia]. cbn [andb].
        rewrite IH; [|exact Hv|exact Hws|rewrite app_length; cbn [length] in *; lia].
        rewrite <- app_assoc. reflexivity.
      * cbn [somes]. apply IH; [exact Hv|exact Hws|cbn [length] in *; lia].
    + destruct (t_get (d_trie d) (id ++ w0)) eqn:Eg.
      { apply t_path_key in Eg. congruence. }
      cbn [somes]. rewrite lookup_no_path by assumption. rewrite app_nil_r. reflexivity.
Qed.

Lemma dict_ok_value : forall E c (d : dict E), dict_ok c d ->
  forall k v, t_get (d_trie d) k = Some v -> v < length (d_tokens d).
Proof.
  intros E c d H k v Hk. destruct (ok_entry H Hk) as (t & H1 & _).
  apply nth_error_Some. congruence.
Qed.

Lemma dict_value_get : forall E (d : dict E) w, dict_value d w = t_get (d_trie d) w.
Proof.
  intros E d w. unfold dict_value, t_jump, t_value. destruct w as [|b w]; [reflexivity|].
  cbn [app]. destruct (t_path (d_trie d) (b :: w)) eqn:Ep; [reflexivity|].
  destruct (t_get (d_trie d) (b :: w)) eqn:Eg; [|reflexivity]. apply t_path_key in Eg. congruence.
Qed.
