(** ToSlice, ToString, ToPos, Join, Equals (C05, C08, C09, C50). *)
From Verif Require Import S_Split P_Utf8 P_Split S_Seg P_Dict P_Seg P_Seg2 M_Out.
Set Implicit Arguments. Unset Strict Implicit.

(* ---- Join ---- *)

Lemma copy_at_spec : forall pre s rest bp, length pre = bp -> length s <= length rest ->
  copy_at (pre ++ rest) bp s = (pre ++ s ++ skipn (length s) rest, length s).
Proof.
  intros pre s rest bp <- H. unfold copy_at. rewrite app_length.
  replace (Nat.min (length pre + length rest - length pre) (length s)) with (length s) by lia.
  rewrite firstn_app, firstn_all, Nat.sub_diag, firstn_O, app_nil_r, firstn_all, skipn_app.
  rewrite skipn_all2 by lia. cbn [app]. do 4 f_equal. lia.
Qed.

Lemma join_rest_spec : forall text pre rest, length rest = length (concat text) ->
  join_rest (pre ++ rest) (length pre) text = pre ++ concat text.
Proof.
  induction text as [|w text IH]; intros pre rest H; cbn [join_rest concat] in *.
  - destruct rest; [reflexivity|discriminate].
  - rewrite app_length in H. rewrite copy_at_spec by lia. cbn [fst snd].
    rewrite app_assoc. rewrite <- app_length. rewrite IH by (rewrite skipn_length; lia).
    rewrite <- app_assoc. reflexivity.
Qed.

Lemma text_len_eq : forall l, text_len l = length (concat l).
Proof. induction l as [|w l IH]; cbn; [reflexivity|]. rewrite app_length, IH. reflexivity. Qed.

Lemma join_eq : forall text, join text = concat text.
Proof.
  intros [|a [|b [|c [|e text]]]]; unfold join; try (cbn; rewrite ?app_nil_r; reflexivity).
  set (rest := b :: c :: e :: text). rewrite text_len_eq. cbn [concat].
  pose proof (@copy_at_spec [] a (repeat x00 (length (a ++ concat rest))) 0 eq_refl) as Hc.
  cbn [app] in Hc. rewrite Hc by (rewrite repeat_length, app_length; lia). cbn [fst snd].
  rewrite join_rest_spec; [reflexivity|]. rewrite skipn_length, repeat_length, app_length. lia.
Qed.

Lemma eq_bytes_spec : forall w s idx, idx + length w <= length s ->
  eq_bytes w s idx = Ok (if beqb w (slice s idx (idx + length w)) then Some (idx + length w) else None).
Proof.
  induction w as [|b w IH]; intros s idx H; cbn [eq_bytes length] in *.
  - rewrite Nat.add_0_r, slice_nil. reflexivity.
  - destruct (nth_error s idx) as [x|] eqn:Ex.
    2:{ apply nth_error_None in Ex. lia. }
    unfold get. rewrite Ex. cbn [bind].
    assert (Hs : slice s idx (idx + S (length w)) = x :: slice s (S idx) (S idx + length w)).
    { rewrite <- (@slice_app _ s idx (S idx) (idx + S (length w))) by lia. unfold slice at 1.
      replace (S idx - idx) with 1 by lia. destruct (nth_error_split _ _ Ex) as (l1 & l2 & -> & <-).
      rewrite skipn_app, skipn_all, Nat.sub_diag. cbn [app skipn firstn]. do 2 f_equal. lia. }
    rewrite Hs. cbn [beqb]. destruct (Byte.eqb b x) eqn:Eb; cbn [andb]; [|reflexivity].
    rewrite IH by lia. replace (S idx + length w) with (idx + S (length w)) by lia. reflexivity.
Qed.

Lemma eq_words_spec : forall ws s idx, idx + length (concat ws) <= length s ->
  eq_words ws s idx = Ok (beqb (concat ws) (slice s idx (idx + length (concat ws)))).
Proof.
  induction ws as [|w ws IH]; intros s idx H; cbn [eq_words concat] in *.
  - cbn [length]. rewrite Nat.add_0_r, slice_nil. reflexivity.
  - rewrite app_length in H. rewrite eq_bytes_spec by lia. cbn [bind].
    rewrite app_length, <- (@slice_app _ s idx (idx + length w) (idx + (length w + length (concat ws)))) by lia.
    assert (Happ : forall a b x y : bytes, length a = length x -> beqb (a ++ b) (x ++ y) = beqb a x && beqb b y).
    { induction a as [|p a IHa]; intros b [|q x] y Hl; try discriminate; cbn; [reflexivity|].
      rewrite IHa by (cbn in Hl; lia). apply andb_assoc. }
    rewrite Happ by (rewrite slice_length by lia; lia).
    destruct (beqb w (slice s idx (idx + length w))); [|reflexivity]. cbn [andb].
    rewrite IH by lia. do 3 f_equal. lia.
Qed.

Lemma token_equals_spec : forall text s, token_equals text s = Ok (beqb (concat text) s).
Proof.
  intros text s. unfold token_equals. rewrite text_len_eq. destruct (Nat.eqb_spec (length (concat text)) (length s)) as [He|He].
  - rewrite eq_words_spec by lia. cbn [Nat.add]. rewrite He, slice_full. reflexivity.
  - f_equal. symmetry. apply beqb_neq. congruence.
Qed.

(* ---- the tree walks ---- *)

Ltac dif x :=
  match goal with
  | |- context [if 1 <? ?a then ?b else ?c] => destruct (if 1 <? a then b else c) as [x| |]
  end.

Section Walk.
  Variable E : env.

  Fixpoint tok_walk (A : Type) (leaf : token E -> list A) (fuel : nat) (d : dict E) (t : token E) : res (list A) :=
    match fuel with
    | O => Hang
    | S f => do out <- walk_subs (tok_walk leaf f d) d (t_segs t) true [] ; Ok (out ++ leaf t)
    end.

  Definition leaf_pos (t : token E) : list (bytes * bytes) := [(join (t_text t), t_pos t)].

  Lemma walk_ext : forall A (rec rec' : token E -> res (list A)) d subs b out, (forall t, rec t = rec' t) ->
    walk_subs rec d subs b out = walk_subs rec' d subs b out.
  Proof.
    intros A rec rec' d subs. induction subs as [|s subs IH]; intros b out H; cbn [walk_subs]; [reflexivity|].
    destruct (deref d (sg_tok s)) as [t| |]; cbn [bind]; try reflexivity.
    dif x; cbn [bind]; try reflexivity.
    destruct (if x then false else b); [auto|]. rewrite H. destruct (rec' t); cbn [bind]; auto.
  Qed.

  Lemma slice_walk : forall fuel d t, token_to_slice fuel d t = tok_walk (fun t => [join (t_text t)]) fuel d t.
  Proof.
    induction fuel as [|f IH]; intros d t; cbn [token_to_slice tok_walk]; [reflexivity|].
    rewrite (walk_ext (rec' := tok_walk (fun t => [join (t_text t)]) f d)); [reflexivity|]. intro; apply IH.
  Qed.
  Lemma pos_walk : forall fuel d t, token_to_pos fuel d t = tok_walk leaf_pos fuel d t.
  Proof.
    induction fuel as [|f IH]; intros d t; cbn [token_to_pos tok_walk]; [reflexivity|].
    rewrite (walk_ext (rec' := tok_walk leaf_pos f d)); [reflexivity|]. intro; apply IH.
  Qed.
  Lemma string_walk : forall fuel d t,
    token_to_string fuel d t = tok_walk (fun t => render (join (t_text t), t_pos t)) fuel d t.
  Proof.
    induction fuel as [|f IH]; intros d t; cbn [token_to_string tok_walk]; [reflexivity|].
    rewrite (walk_ext (rec' := tok_walk (fun t => render (join (t_text t), t_pos t)) f d)); [reflexivity|].
    intro; apply IH.
  Qed.

  Definition rmap (A B : Type) (f : A -> B) (r : res A) : res B :=
    match r with Ok a => Ok (f a) | Panic => Panic | Hang => Hang end.

  Section Nat_.
    Variables (A B : Type) (h : list A -> list B).
    Hypothesis h_nil : h [] = [].
    Hypothesis h_app : forall x y, h (x ++ y) = h x ++ h y.

    Lemma walk_nat : forall (rec : token E -> res (list A)) (rec' : token E -> res (list B)) d subs b out,
      (forall t, rec' t = rmap h (rec t)) ->
      walk_subs rec' d subs b (h out) = rmap h (walk_subs rec d subs b out).
    Proof.
      intros rec rec' d subs. induction subs as [|s subs IH]; intros b out H; cbn [walk_subs]; [reflexivity|].
      destruct (deref d (sg_tok s)) as [t| |]; cbn [bind]; try reflexivity.
      dif x; cbn [bind]; try reflexivity.
      destruct (if x then false else b); [auto|]. rewrite H. destruct (rec t) as [o| |]; cbn [bind rmap]; auto.
      rewrite <- h_app. auto.
    Qed.

    Lemma tok_walk_nat : forall (leaf : token E -> list A) fuel d t,
      tok_walk (fun t => h (leaf t)) fuel d t = rmap h (tok_walk leaf fuel d t).
    Proof.
      intros leaf fuel. induction fuel as [|f IH]; intros d t; cbn [tok_walk]; [reflexivity|].
      rewrite <- h_nil at 1. rewrite (@walk_nat (tok_walk leaf f d)) by (intro; apply IH).
      destruct (walk_subs (tok_walk leaf f d) d (t_segs t) true []); cbn [bind rmap]; try reflexivity.
      rewrite h_app. reflexivity.
    Qed.

    Lemma seg_loop_nat : forall (f : token E -> res (list A)) (f' : token E -> res (list B)) d segs out,
      (forall t, f' t = rmap h (f t)) -> seg_loop f' d segs (h out) = rmap h (seg_loop f d segs out).
    Proof.
      intros f f' d segs. induction segs as [|s segs IH]; intros out H; cbn [seg_loop]; [reflexivity|].
      destruct (deref d (sg_tok s)) as [t| |]; cbn [bind]; try reflexivity.
      rewrite H. destruct (f t); cbn [bind rmap]; try reflexivity. rewrite <- h_app. auto.
    Qed.
  End Nat_.

  Lemma c09_slice : forall fuel d segs m, to_slice fuel d segs m = rmap (map fst) (to_pos (E := E) fuel d segs m).
  Proof.
    intros fuel d segs m. unfold to_slice, to_pos. destruct m.
    - apply (@seg_loop_nat _ _ (map fst) (@map_app _ _ fst) (token_to_pos fuel d)) with (out := []).
      intro t. rewrite slice_walk, pos_walk. symmetry.
      rewrite <- (@tok_walk_nat _ _ (map fst) eq_refl (@map_app _ _ fst)). reflexivity.
    - apply (@seg_loop_nat _ _ (map fst) (@map_app _ _ fst) (fun t => Ok [(join (t_text t), t_pos t)])) with (out := []).
      intro t. reflexivity.
  Qed.

  Lemma flat_map_app : forall A B (f : A -> list B) x y, flat_map f (x ++ y) = flat_map f x ++ flat_map f y.
  Proof. intros. rewrite !flat_map_concat_map, map_app, concat_app. reflexivity. Qed.

  Lemma c09_string : forall fuel d segs m, to_string fuel d segs m = rmap (flat_map render) (to_pos (E := E) fuel d segs m).
  Proof.
    intros fuel d segs m. unfold to_string, to_pos. destruct m.
    - apply (@seg_loop_nat _ _ (flat_map render) (flat_map_app render) (token_to_pos fuel d)) with (out := []).
      intro t. rewrite string_walk, pos_walk. symmetry.
      rewrite <- (@tok_walk_nat _ _ (flat_map render) eq_refl (flat_map_app render)).
      replace (fun t0 => flat_map render (leaf_pos t0)) with (fun t0 => render (join (t_text (E := E) t0), t_pos t0) ++ []) by reflexivity.
      revert t. induction fuel as [|f IH]; intro t; cbn [tok_walk]; [reflexivity|].
      rewrite (walk_ext (rec' := tok_walk (fun t => render (join (t_text t), t_pos t)) f d)); [|intro; apply IH].
      rewrite app_nil_r. reflexivity.
    - apply (@seg_loop_nat _ _ (flat_map render) (flat_map_app render) (fun t => Ok [(join (t_text t), t_pos t)])) with (out := []).
      intro t. cbn [rmap flat_map]. rewrite app_nil_r. reflexivity.
  Qed.

  (* subsequence *)
  Lemma subseq_refl : forall A (l : list A), subseq l l.
  Proof. induction l; constructor; assumption. Qed.
  Lemma subseq_app : forall A (a b x y : list A), subseq a x -> subseq b y -> subseq (a ++ b) (x ++ y).
  Proof.
    intros A a b x y H Hb. induction H as [l|c l l' H IH|c l l' H IH]; cbn.
    - induction l; cbn; [exact Hb|constructor; assumption].
    - constructor. assumption.
    - constructor. assumption.
  Qed.
  Lemma subseq_skip_l : forall A (b x y : list A), subseq b y -> subseq b (x ++ y).
  Proof. intros A b x y H. apply (subseq_app (ss_nil x) H). Qed.

  Lemma seg_loop_subseq : forall fuel d segs out out' l', seg_loop (token_to_pos (E := E) fuel d) d segs out' = Ok l' ->
    subseq out out' ->
    exists l, seg_loop (fun t => Ok [(join (t_text t), t_pos t)]) d segs out = Ok l /\ subseq l l'.
  Proof.
    intros fuel d segs. induction segs as [|s segs IH]; intros out out' l' H Hs; cbn [seg_loop] in *.
    - injection H as <-. eauto.
    - apply bind_Ok in H as (t & H1 & H). rewrite H1. cbn [bind]. apply bind_Ok in H as (o & H2 & H).
      eapply IH; [exact H|]. apply subseq_app; [exact Hs|].
      destruct fuel as [|f]; [discriminate|]. cbn [token_to_pos] in H2. apply bind_Ok in H2 as (o' & _ & H2).
      injection H2 as <-. apply subseq_skip_l, subseq_refl.
  Qed.

  Lemma c09_subseq : forall fuel (d : dict E) segs l', to_pos fuel d segs true = Ok l' ->
    exists l, to_pos fuel d segs false = Ok l /\ subseq l l'.
  Proof. intros fuel d segs l' H. eapply seg_loop_subseq; [exact H|constructor]. Qed.

  (* termination *)
  Lemma covers_bound : forall (d : dict E) text a b segs, covers d text a b segs -> b <= length text ->
    Forall (fun s => exists t, deref d (sg_tok s) = Ok t /\ a <= sg_start s /\ sg_start s < sg_end s /\ sg_end s <= b /\
                               length (concat (t_text t)) = sg_end s - sg_start s) segs.
  Proof.
    intros d text a b segs H. induction H as [|from mid to s rest t H1 H2 H3 H4 H5 H6 IH]; intro Hb; [constructor|].
    pose proof (covers_le H6). constructor.
    - exists t. rewrite H5, slice_length by lia. repeat apply conj; auto; lia.
    - eapply Forall_impl; [|exact (IH Hb)]. cbv beta. intros s' (t' & A & B & C & D & F). exists t'. repeat apply conj; auto; lia.
  Qed.

  Lemma covers_strict : forall (d : dict E) text segs, covers d text 0 (length text) segs -> 2 <= length segs ->
    Forall (fun s => exists t, deref d (sg_tok s) = Ok t /\ 0 < length (concat (t_text t)) < length text) segs.
  Proof.
    intros d text segs H Hl. inversion H as [|from mid to s rest t H1 H2 H3 H4 H5 H6]; subst; [constructor|].
    pose proof (covers_bound H6 (le_n _)) as HF.
    destruct rest as [|s2 rest]; [cbn in Hl; lia|].
    assert (Hmid : sg_end s < length text).
    { inversion HF as [|? ? (t2 & A & B & C & D & F) ?]; subst. lia. }
    constructor.
    - exists t. split; [exact H4|]. rewrite H5, slice_length by lia. lia.
    - eapply Forall_impl; [|exact HF]. cbv beta. intros s' (t' & A & B & C & D & F). exists t'. split; [exact A|]. lia.
  Qed.

  Lemma subs_strict : forall (d : dict E) t, subs_ok d t ->
    Forall (fun s => exists t', deref d (sg_tok s) = Ok t' /\ 0 < length (concat (t_text t')) < length (concat (t_text t))) (t_segs t).
  Proof.
    intros d t [->|(full & H1 & H2 & ->)]; [constructor|].
    apply Forall_forall. intros s Hs. apply filter_In in Hs as [Hs _].
    pose proof (covers_strict H1 H2) as HF. rewrite Forall_forall in HF. exact (HF s Hs).
  Qed.

  Lemma walk_mono : forall A (rec rec' : token E -> res (list A)) d subs b out o,
    (forall t l, rec t = Ok l -> rec' t = Ok l) -> walk_subs rec d subs b out = Ok o -> walk_subs rec' d subs b out = Ok o.
  Proof.
    intros A rec rec' d subs. induction subs as [|s subs IH]; intros b out o H Hw; cbn [walk_subs] in *; [exact Hw|].
    destruct (deref d (sg_tok s)) as [t| |]; cbn [bind] in *; try discriminate.
    dif x; cbn [bind] in *; try discriminate.
    destruct (if x then false else b); [auto|]. apply bind_Ok in Hw as (o' & H1 & H2). rewrite (H _ _ H1). cbn [bind]. auto.
  Qed.

  Lemma tok_walk_mono : forall A (leaf : token E -> list A) d f t l, tok_walk leaf f d t = Ok l -> tok_walk leaf (S f) d t = Ok l.
  Proof.
    intros A leaf d. induction f as [|f IH]; intros t l H; [discriminate|].
    cbn [tok_walk] in H. apply bind_Ok in H as (o & H1 & H2). injection H2 as <-.
    change (tok_walk leaf (S (S f)) d t) with (do out <- walk_subs (tok_walk leaf (S f) d) d (t_segs t) true [] ; Ok (out ++ leaf t)).
    rewrite (walk_mono (rec' := tok_walk leaf (S f) d) IH H1). reflexivity.
  Qed.

  Lemma tok_walk_mono_le : forall A (leaf : token E -> list A) d f f' t l, f <= f' -> tok_walk leaf f d t = Ok l -> tok_walk leaf f' d t = Ok l.
  Proof. intros A leaf d f f' t l Hle H. induction Hle; [exact H|]. apply tok_walk_mono. assumption. Qed.

  Lemma walk_total : forall A (rec : token E -> res (list A)) d subs b out,
    Forall (fun s => exists t l, deref d (sg_tok s) = Ok t /\ t_text t <> [] /\ rec t = Ok l) subs ->
    exists o, walk_subs rec d subs b out = Ok o.
  Proof.
    intros A rec d subs. induction subs as [|s subs IH]; intros b out H; cbn [walk_subs]; [eauto|].
    inversion H as [|? ? (t & l & H1 & H2 & H3) H4]; subst. rewrite H1. cbn [bind].
    destruct (t_text t) as [|w ws] eqn:Et; [congruence|]. unfold get. cbn [nth_error bind].
    destruct (1 <? length (t_segs t)); cbn [bind].
    - rewrite H3. cbn [bind]. auto.
    - destruct (if is_jp E w then false else b); [auto|]. rewrite H3. cbn [bind]. auto.
  Qed.

  Definition valid_ref (d : dict E) (t : token E) : Prop := In t (d_tokens d) \/ exists w, t = fallback_token E w.

  Lemma deref_valid : forall (d : dict E) r t, deref d r = Ok t -> valid_ref d t.
  Proof.
    intros d [v|w] t H; cbn in H.
    - left. apply get_Ok in H. eapply nth_error_In; exact H.
    - right. exists w. congruence.
  Qed.

  Lemma tok_walk_total : forall A (leaf : token E -> list A) c d, dict_inv c d -> forall f t, valid_ref d t ->
    length (concat (t_text t)) < f -> exists l, tok_walk leaf f d t = Ok l.
  Proof.
    intros A leaf c d Hi. induction f as [|f IH]; intros t Hv Hlt; [lia|]. cbn [tok_walk].
    assert (Hs : subs_ok d t).
    { destruct Hv as [Hin|[w ->]]; [|left; reflexivity]. pose proof (inv_subs Hi) as HF. rewrite Forall_forall in HF. auto. }
    destruct (@walk_total A (tok_walk leaf f d) d (t_segs t) true []) as [o Ho].
    - eapply Forall_impl; [|exact (subs_strict Hs)]. cbv beta. intros s (t' & H1 & H2).
      destruct (IH t') as [l Hl]; [eapply deref_valid; exact H1|lia|]. exists t', l. repeat apply conj; auto.
      intro Hx. rewrite Hx in H2. cbn in H2. lia.
    - rewrite Ho. cbn [bind]. eauto.
  Qed.

  Lemma tok_walk_def : forall A (leaf : token E -> list A) c d t, dict_inv c d -> valid_ref d t ->
    exists l, forall f, length (concat (t_text t)) < f -> tok_walk leaf f d t = Ok l.
  Proof.
    intros A leaf c d t Hi Hv. destruct (@tok_walk_total A leaf c d Hi (S (length (concat (t_text t)))) t Hv) as [l Hl]; [lia|].
    exists l. intros f Hf. eapply tok_walk_mono_le; [|exact Hl]. lia.
  Qed.

  Lemma c08 : forall c (d : dict E) t, reachable c d -> In t (d_tokens d) ->
    Forall (fun s => exists t', deref d (sg_tok s) = Ok t' /\
                     0 < length (concat (t_text t')) < length (concat (t_text t))) (t_segs t) /\
    subs_ok d t /\
    (exists l, forall f, length (concat (t_text t)) < f -> token_to_slice f d t = Ok l) /\
    (exists l, forall f, length (concat (t_text t)) < f -> token_to_pos f d t = Ok l) /\
    (exists l, forall f, length (concat (t_text t)) < f -> token_to_string f d t = Ok l).
  Proof.
    intros c d t Hr Hin. apply reachable_inv in Hr.
    assert (Hs : subs_ok d t) by (pose proof (inv_subs Hr) as HF; rewrite Forall_forall in HF; auto).
    assert (Hv : valid_ref d t) by (left; exact Hin).
    split; [exact (subs_strict Hs)|]. split; [exact Hs|]. repeat apply conj.
    - destruct (tok_walk_def (fun t => [join (t_text t)]) Hr Hv) as [l Hl]. exists l. intros f Hf. rewrite slice_walk. auto.
    - destruct (tok_walk_def leaf_pos Hr Hv) as [l Hl]. exists l. intros f Hf. rewrite pos_walk. auto.
    - destruct (tok_walk_def (fun t => render (join (t_text t), t_pos t)) Hr Hv) as [l Hl]. exists l. intros f Hf. rewrite string_walk. auto.
  Qed.

  Lemma c08_concat : forall (d : dict E) t, subs_ok d t -> t_segs t <> [] ->
    (forall s t', deref d (sg_tok s) = Ok t' -> kept d s = true) ->
    covers d (concat (t_text t)) 0 (length (concat (t_text t))) (t_segs t).
  Proof.
    intros d t [Hn|(full & H1 & H2 & H3)] Hne Hk; [congruence|]. rewrite H3.
    assert (Hf : filter (kept d) full = full).
    { pose proof (covers_deref H1) as HF. clear -HF Hk. induction HF as [|s full [t Ht] HF IH]; [reflexivity|].
      cbn. rewrite (Hk _ _ Ht). f_equal. exact IH. }
    rewrite Hf. exact H1.
  Qed.

  (* C05 *)
  Lemma seg_loop_total : forall A (f : token E -> res (list A)) d segs out,
    Forall (fun s => exists t l, deref d (sg_tok s) = Ok t /\ f t = Ok l) segs -> exists o, seg_loop f d segs out = Ok o.
  Proof.
    intros A f d segs. induction segs as [|s segs IH]; intros out H; cbn [seg_loop]; [eauto|].
    inversion H as [|? ? (t & l & H1 & H2) H3]; subst. rewrite H1. cbn [bind]. rewrite H2. cbn [bind]. auto.
  Qed.

  Lemma covers_concat : forall (d : dict E) text a b segs, covers d text a b segs -> b <= length text -> forall out,
    exists l, seg_loop (fun t => Ok [join (t_text t)]) d segs out = Ok l /\ concat l = concat out ++ slice text a b.
  Proof.
    intros d text a b segs H. induction H as [|from mid to s rest t H1 H2 H3 H4 H5 H6 IH]; intros Hb out; cbn [seg_loop].
    - exists out. rewrite slice_nil, app_nil_r. auto.
    - rewrite H4. cbn [bind]. destruct (IH Hb (out ++ [join (t_text t)])) as (l & L1 & L2). exists l. split; [exact L1|].
      rewrite L2, concat_app. cbn [concat]. rewrite app_nil_r, join_eq, H5, <- app_assoc. f_equal.
        pose proof (covers_le H6). apply slice_app; lia.
  Qed.

  Lemma c05 : forall c (d : dict E) s, reachable c d ->
    exists l, seg_slice c (Some d) s false = Ok l /\ cut_default c (Some d) s = Ok l /\ concat l = norm E c s /\
      (c_lower c = false -> concat l = s) /\ Forall (fun w => w <> []) l.
  Proof.
    intros c d s Hr. destruct (c01 s false Hr) as (segs & H1 & [(Hf & _)|H2]); [discriminate|].
    assert (Hlen : length (norm E c s) = length s) by apply norm_length.
    destruct (covers_concat H2) with (out := @nil bytes) as (l & L1 & L2); [lia|].
    exists l. unfold cut_default, seg_slice. rewrite H1. cbn [bind to_slice].
    repeat apply conj; auto.
    - rewrite L2. cbn. rewrite <- Hlen. apply slice_full.
    - intro Hlow. rewrite L2. cbn. rewrite <- Hlen, slice_full. apply norm_off. exact Hlow.
    - assert (G : forall segs out l, seg_loop (fun t => Ok [join (t_text t)]) d segs out = Ok l -> Forall (fun w => w <> []) out ->
                 Forall (fun s => exists t, deref d (sg_tok s) = Ok t /\ concat (t_text t) <> []) segs -> Forall (fun w => w <> []) l).
      { clear. induction segs as [|s segs IH]; intros out l H Ho HF; cbn [seg_loop] in H; [congruence|].
        inversion HF as [|? ? (t & A & B) C]; subst. rewrite A in H. cbn [bind] in H. eapply IH; [exact H| |exact C].
        apply Forall_app. split; [exact Ho|]. constructor; [rewrite join_eq; exact B|constructor]. }
      eapply G; [exact L1|constructor|]. pose proof (covers_bound H2 ltac:(lia)) as HF.
      eapply Forall_impl; [|exact HF]. cbv beta. intros sg (t & A & B & C & D & F). exists t. split; [exact A|].
      intro Hx. rewrite Hx in F. cbn in F. lia.
  Qed.

  (** Neither mode of Slice/Pos/String panics or runs forever. *)
  Lemma out_total : forall c (d : dict E) s m, reachable c d ->
    (exists l, seg_slice c (Some d) s m = Ok l) /\ (exists l, seg_pos c (Some d) s m = Ok l) /\
    (exists l, seg_string c (Some d) s m = Ok l).
  Proof.
    intros c d s m Hr. destruct (c01 s m Hr) as (segs & H1 & H2). unfold seg_slice, seg_pos, seg_string.
    rewrite H1. cbn [bind].
    assert (HP : exists l, to_pos (depth s) d segs m = Ok l).
    { destruct H2 as [(_ & -> & _)|H2]; [destruct m; cbn; eauto|].
      assert (Hlen : length (norm E c s) = length s) by apply norm_length.
      pose proof (covers_bound H2 ltac:(lia)) as HF. unfold to_pos. destruct m; apply seg_loop_total;
        (eapply Forall_impl; [|exact HF]); cbv beta; intros sg (t & A & B & C & D & F).
      - destruct (@tok_walk_total _ leaf_pos c d (reachable_inv Hr) (depth s) t) as [l Hl].
        + eapply deref_valid; exact A.
        + unfold depth. lia.
        + exists t, l. rewrite pos_walk. auto.
      - exists t, [(join (t_text t), t_pos t)]. auto. }
    destruct HP as [l Hl]. rewrite c09_slice, c09_string, Hl. cbn [rmap]. repeat apply conj; eauto.
  Qed.
End Walk.

Lemma token_equals_iff : forall text s, exists b, token_equals text s = Ok b /\ (b = true <-> s = concat text).
Proof.
  intros text s. exists (beqb (concat text) s). split; [apply token_equals_spec|]. rewrite beqb_eq. split; congruence.
Qed.
