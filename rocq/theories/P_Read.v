(** The output of ToString can be read back (C93). *)
From Verif Require Import S_Read P_Utf8 P_Utf8b P_Split P_Dict P_Seg P_Seg2 P_Out P_Ascii.
Set Implicit Arguments. Unset Strict Implicit.

Lemma cut_at_app : forall b u v, ~ In b u -> cut_at b (u ++ b :: v) = Some (u, v).
Proof.
  intros b u v. induction u as [|x u IH]; intros H; cbn [app cut_at].
  - rewrite byte_eqb_refl. reflexivity.
  - destruct (Byte.eqb x b) eqn:Hx; [apply byte_eqb_eq in Hx; subst; exfalso; apply H; left; reflexivity|]. rewrite IH; [reflexivity|]. intro K. apply H. right. exact K.
Qed.
Lemma read_render : forall l fuel, length l <= fuel -> Forall (fun tp => fst tp <> [] /\ plain_word (fst tp) /\ plain_tag (snd tp)) l -> read_tags fuel (flat_map render l) = Some l.
Proof.
  induction l as [|[w p] l IH]; intros fuel Hf H; [destruct fuel; reflexivity|]. inversion H as [|? ? (H1 & H2 & H3) H']; subst. cbn [fst snd] in *. destruct w as [|x w]; [congruence|].
  destruct fuel as [|f]; [cbn in Hf; lia|]. cbn [flat_map]. unfold render at 1. cbn [fst snd app]. cbn [read_tags].
  replace ((w ++ x2f :: p ++ [x20]) ++ flat_map render l) with (w ++ x2f :: (p ++ x20 :: flat_map render l)) by (rewrite <- app_assoc; cbn [app]; rewrite <- app_assoc; reflexivity).
  rewrite cut_at_app by exact H2. rewrite cut_at_app by exact H3. rewrite IH; [reflexivity|cbn in Hf; lia|exact H'].
Qed.
Lemma render_length : forall l, length l <= length (flat_map render l).
Proof. induction l as [|[w p] l IH]; [reflexivity|]. cbn [flat_map length]. rewrite app_length. replace (length (render (w, p))) with (length w + S (length p + 1)) by (unfold render; cbn [fst snd]; rewrite !app_length; cbn [length]; reflexivity). lia. Qed.

(** *** Words of a text *)
Lemma enc_low : forall r x, scalar r = true -> In x (enc r) -> (bz x < 128)%Z -> enc r = [x].
Proof.
  intros r x Hs Hx Hlt. unfold scalar, in_range in Hs. unfold enc in *.
  assert (Hb : forall z, (128 <= z < 256)%Z -> x = zb z -> False) by (intros z Hz ->; rewrite bz_zb in Hlt; lia).
  destruct (Z.ltb_spec r 128); [destruct Hx as [->|[]]; reflexivity|]. exfalso.
  assert (Hm : forall z, (128 <= 128 + z mod 64 < 256)%Z) by (intro z; pose proof (Z.mod_pos_bound z 64); lia).
  destruct (Z.ltb_spec r 2048); [|destruct (Z.ltb_spec r 65536)]; cbn [In] in Hx;
    repeat (destruct Hx as [Hx|Hx]; [symmetry in Hx; revert Hx; apply Hb; try apply Hm|]); try contradiction;
    pose proof (Z.div_pos r 64); pose proof (Z.div_pos r 4096); pose proof (Z.div_pos r 262144);
    pose proof (Z.div_lt_upper_bound r 64 32); pose proof (Z.div_lt_upper_bound r 4096 16); pose proof (Z.div_lt_upper_bound r 262144 8); lia.
Qed.
Lemma unit_low : forall s u x, In u (units s) -> In x (snd u) -> (bz x < 128)%Z -> snd u = [x] /\ fst u = bz x.
Proof.
  intros s u x Hu Hx Hlt. pose proof (units_decode s) as D. pose proof (units_nonempty s) as N. rewrite Forall_forall in D, N. specialize (D u Hu). specialize (N u Hu).
  destruct (decode_cases N D) as [[H1 H2]|(H1 & H2 & b & t & H3 & H4)].
  - rewrite firstn_all in H2. assert (Hs : snd u = [x]) by (rewrite H2; apply enc_low; [exact H1|rewrite <- H2; exact Hx|exact Hlt]). split; [exact Hs|].
    rewrite Hs in D. unfold decode_rune in D. destruct (Z.ltb_spec (bz x) 128); [|lia]. cbv zeta in D. congruence.
  - exfalso. rewrite H2 in D. destruct (snd u) as [|y [|]] eqn:E; try discriminate. injection H3 as -> <-. destruct Hx as [->|[]]. lia.
Qed.
Lemma small_slash : forall b, small b = x2f -> b = x2f.
Proof. intros b. destruct b; vm_compute; intro H; try discriminate H; reflexivity. Qed.
Lemma norm_unit_slash : forall E c s u, In u (units s) -> In x2f (norm_unit E c u) -> snd u = [x2f] /\ fst u = 47%Z.
Proof.
  intros E c s u Hu Hx. assert (H : In x2f (snd u)).
  { unfold norm_unit in Hx. destruct (alnum_unit E c u && c_lower c); [|exact Hx]. apply in_map_iff in Hx as (y & Hy & Hin). apply small_slash in Hy. subst y. exact Hin. }
  exact (unit_low Hu H ltac:(vm_compute; reflexivity)).
Qed.
Lemma slash_no_word : forall E c, alnum_unit E c (47%Z, [x2f]) = false.
Proof. intros E c. change 47%Z with (bz x2f). rewrite (ascii_alnum_unit E c (b := x2f)) by (vm_compute; reflexivity). vm_compute. destruct c as [? [] [] ?]; reflexivity. Qed.
Lemma split_plain : forall E c s w, In w (wsplit E c s) -> plain_word w.
Proof.
  intros E c s w Hw. destruct (split_is_split E c s) as (gs & a & Hg & Hc & He). rewrite He in Hw. apply in_map_iff in Hw as (g & <- & Hin).
  assert (Hu : forall u, In u g -> In u (units s)) by (intros u Hug; rewrite <- Hc; apply in_concat; eauto).
  assert (Hgr : exists b, word_group E c g b). { clear -Hg Hin. induction Hg as [|g' b gs b' Hw Hg IH]; [destruct Hin|]. destruct Hin as [->|Hin]; [eauto|auto]. }
  destruct Hgr as (b & Hgr). assert (Hal : forall u, In u g -> alnum_unit E c u = true -> ~ In x2f (norm_unit E c u)).
  { intros u Hug Ha K. destruct (norm_unit_slash (Hu u Hug) K) as [K1 K2]. destruct u as [r bs]. cbn in K1, K2. subst. rewrite slash_no_word in Ha. discriminate. }
  assert (Hone : forall u, g = [u] -> plain_word (concat (map (norm_unit E c) g))).
  { intros u ->. cbn [map concat]. rewrite app_nil_r. intro K. assert (Kin : In x2f (norm_unit E c u)) by (destruct (norm_unit E c u); [destruct K|right; exact K]).
    destruct (norm_unit_slash (Hu u (or_introl eq_refl)) Kin) as [K1 K2]. destruct u as [r bs]. cbn in K1, K2. subst. unfold norm_unit in K. rewrite slash_no_word in K. destruct K. }
  destruct Hgr as [u Hn|u Hn Ha|us Hn Hne Ha]; [eapply Hone; reflexivity|eapply Hone; reflexivity|].
  intro K. assert (Kin : In x2f (concat (map (norm_unit E c) us))) by (destruct (concat (map (norm_unit E c) us)); [destruct K|right; exact K]).
  apply in_concat in Kin as (x & Hx & Kx). apply in_map_iff in Hx as (u & <- & Hu'). rewrite Forall_forall in Ha. exact (Hal u Hu' (Ha u Hu') Kx).
Qed.

(** *** The pairs of Pos *)
Section Pos.
  Variables (E : env) (c : cfg) (d : dict E).
  Hypothesis Hi : dict_inv c d.
  Hypothesis Hp : plain_dict d.
  Definition fine_tok (t : token E) : Prop := (In t (d_tokens d) \/ exists w, t = fallback_token E w) /\ concat (t_text t) <> [] /\ plain_word (concat (t_text t)) /\ plain_tag (t_pos t).
  Definition fine_pair (tp : bytes * bytes) : Prop := fst tp <> [] /\ plain_word (fst tp) /\ plain_tag (snd tp).
  Lemma fine_leaf : forall t, fine_tok t -> Forall fine_pair (leaf_pos t).
  Proof. intros t (_ & H1 & H2 & H3). unfold leaf_pos. constructor; [|constructor]. split; [|split]; cbn [fst snd]; rewrite ?join_eq; assumption. Qed.
  Lemma tl_slice : forall (w : bytes) i j, plain_word w -> plain_word (slice w i j).
  Proof.
    intros w i j H K. apply H. clear H. unfold slice in K. revert w K. induction i as [|i IH]; intros w K; cbn [skipn] in K.
    - destruct (j - 0) as [|k]; [destruct K|]. destruct w as [|x w]; [destruct K|]. cbn in K |- *. rewrite <- (firstn_skipn k w). apply in_or_app. left. exact K.
    - destruct w as [|x w]; [rewrite firstn_nil in K; destruct K|]. cbn [tl]. assert (Kin : In x2f (skipn i w)).
      { destruct (j - S i) as [|k]; [destruct K|]. destruct (skipn i w) as [|y l]; [destruct K|]. cbn in K. right. rewrite <- (firstn_skipn k l). apply in_or_app. left. exact K. }
      rewrite <- (firstn_skipn i w). apply in_or_app. right. exact Kin.
  Qed.
  Lemma x_plain : plain_tag (t_pos (fallback_token E [])).
  Proof. cbn. intros [H|[]]. discriminate H. Qed.
  Lemma cover_tok : forall text a b segs, plain_word text -> b <= length text -> covers d text a b segs -> Forall (fun s => forall t, deref d (sg_tok s) = Ok t -> fine_tok t) segs.
  Proof.
    intros text a b segs Hw Hb H. induction H as [|from mid to s rest t H1 H2 H3 H4 H5 H6 IH]; [constructor|]. constructor; [|apply IH, Hb].
    intros t' Ht'. assert (t' = t) by congruence. subst t'. assert (Hne : concat (t_text t) <> []).
    { intro K. rewrite H5 in K. pose proof (covers_le H6) as Hle. apply (f_equal (@length _)) in K. rewrite slice_length in K by lia. cbn [length] in K. lia. }
    destruct (sg_tok s) as [v|w].
    - cbn in H4. unfold get in H4. destruct (nth_error (d_tokens d) v) eqn:Hv; [|discriminate]. injection H4 as ->. apply nth_error_In in Hv. destruct (Hp Hv) as [P1 P2].
      split; [left; exact Hv|]. auto.
    - cbn in H4. injection H4 as <-. split; [right; eauto|]. split; [exact Hne|]. split; [|exact x_plain]. rewrite H5. apply tl_slice, Hw.
  Qed.
  Lemma subs_tok : forall t, fine_tok t -> Forall (fun s => forall t', deref d (sg_tok s) = Ok t' -> fine_tok t') (t_segs t).
  Proof.
    intros t ([Hin|(w & ->)] & _ & Hw & _); [|constructor]. pose proof (inv_subs Hi) as Hs. rewrite Forall_forall in Hs. destruct (Hs t Hin) as [->|(full & Hc & _ & ->)]; [constructor|].
    apply Forall_forall. intros s Hs'. apply filter_In in Hs' as [Hs' _]. pose proof (cover_tok Hw (le_n _) Hc) as K. rewrite Forall_forall in K. apply K, Hs'.
  Qed.
  Lemma top_fine : forall s segs, covers d (norm E c s) 0 (length s) segs -> tiling d (wsplit E c s) (map sg_tok segs) ->
    Forall (fun s => forall t', deref d (sg_tok s) = Ok t' -> fine_tok t') segs.
  Proof.
    intros s segs Hc (ps & Hps & HF). assert (Hne : Forall (fun sg => forall t, deref d (sg_tok sg) = Ok t -> concat (t_text t) <> []) segs).
    { assert (Hb : length s <= length (norm E c s)) by (rewrite norm_length; reflexivity). revert Hb. clear Hps HF ps. induction Hc as [|from mid to sg rest t H1 H2 H3 H4 H5 H6 IH]; intro Hb; [constructor|].
      constructor; [|apply IH, Hb]. intros t' Ht' K. assert (t' = t) by congruence. subst t'. rewrite H5 in K. pose proof (covers_le H6) as Hle. apply (f_equal (@length _)) in K. rewrite slice_length in K by lia. cbn [length] in K. lia. }
    apply Forall_forall. intros sg Hin t Ht. rewrite Forall_forall in Hne. specialize (Hne sg Hin t Ht). destruct (sg_tok sg) as [v|w] eqn:Hsg.
    - cbn in Ht. unfold get in Ht. destruct (nth_error (d_tokens d) v) eqn:Hv; [|discriminate]. injection Ht as ->. apply nth_error_In in Hv. destruct (Hp Hv) as [P1 P2]. split; [left; exact Hv|]. auto.
    - cbn in Ht. injection Ht as <-. split; [right; eauto|]. split; [exact Hne|]. split; [|exact x_plain]. cbn [fallback_token t_text concat]. rewrite app_nil_r. eapply (@split_plain E c s). rewrite <- Hps.
      assert (Hr : In (Fallback w) (map sg_tok segs)) by (rewrite <- Hsg; apply in_map, Hin). clear -HF Hr. induction HF as [|p r ps rs Hp HF IH]; [destruct Hr|]. destruct Hr as [->|Hr].
      + inversion Hp; subst. left. reflexivity.
      + cbn [concat]. apply in_or_app. right. apply IH, Hr.
  Qed.
  Lemma walk_fine : forall fuel t l, fine_tok t -> tok_walk (@leaf_pos E) fuel d t = Ok l -> Forall fine_pair l.
  Proof.
    induction fuel as [|f IH]; intros t l Ht Hl; [discriminate|]. cbn [tok_walk] in Hl.
    assert (K : forall subs b out o, Forall (fun s => forall t', deref d (sg_tok s) = Ok t' -> fine_tok t') subs -> Forall fine_pair out ->
      walk_subs (tok_walk (@leaf_pos E) f d) d subs b out = Ok o -> Forall fine_pair o).
    { induction subs as [|s subs IHs]; intros b out o Hs Ho Hw; cbn [walk_subs] in Hw; [congruence|]. inversion Hs as [|? ? Hs1 Hs2]; subst.
      destruct (deref d (sg_tok s)) as [t'| |] eqn:Hd; try discriminate. cbn [bind] in Hw.
      match type of Hw with (do b <- ?x ; _) = _ => destruct x as [bb| |]; try discriminate end. cbn [bind] in Hw.
      destruct (if bb then false else b); [eapply IHs; eassumption|]. destruct (tok_walk (@leaf_pos E) f d t') as [o'| |] eqn:Ho'; try discriminate. cbn [bind] in Hw.
      eapply IHs; [exact Hs2| |exact Hw]. apply Forall_app. split; [exact Ho|]. eapply IH; [|exact Ho']. apply Hs1. reflexivity. }
    destruct (walk_subs _ d (t_segs t) true []) as [o| |] eqn:Ho; try discriminate. cbn [bind] in Hl. injection Hl as <-. apply Forall_app. split; [|apply fine_leaf, Ht].
    eapply K; [apply subs_tok, Ht|constructor|exact Ho].
  Qed.
  Lemma loop_fine : forall (f : token E -> res (list (bytes * bytes))), (forall t l, fine_tok t -> f t = Ok l -> Forall fine_pair l) ->
    forall segs out o, Forall (fun s => forall t', deref d (sg_tok s) = Ok t' -> fine_tok t') segs -> Forall fine_pair out -> seg_loop f d segs out = Ok o -> Forall fine_pair o.
  Proof.
    intros f Hf. induction segs as [|s segs IH]; intros out o Hs Ho Hl; cbn [seg_loop] in Hl; [congruence|]. inversion Hs as [|? ? Hs1 Hs2]; subst.
    destruct (deref d (sg_tok s)) as [t| |] eqn:Hd; try discriminate. cbn [bind] in Hl. destruct (f t) as [x| |] eqn:Hx; try discriminate. cbn [bind] in Hl.
    eapply IH; [exact Hs2| |exact Hl]. apply Forall_app. split; [exact Ho|]. eapply Hf; [apply Hs1; reflexivity|exact Hx].
  Qed.
  Lemma pos_fine : forall s m l, seg_pos c (Some d) s m = Ok l -> Forall fine_pair l.
  Proof.
    intros s m l H. unfold seg_pos in H. destruct (internal_segment c (Some d) s m) as [segs| |] eqn:Hseg; try discriminate. cbn [bind] in H.
    assert (Hs : Forall (fun s => forall t', deref d (sg_tok s) = Ok t' -> fine_tok t') segs).
    { destruct (Nat.eq_dec (length (wsplit E c s)) 1) as [H1|H1]; [destruct m|].
      - rewrite (search_one d H1) in Hseg. injection Hseg as <-. constructor.
      - destruct (@segment_inv E c d s false Hi ltac:(congruence)) as (segs' & A & B & C & _). assert (segs' = segs) by congruence. subst segs'. eapply top_fine; eassumption.
      - destruct (@segment_inv E c d s m Hi (fun _ => H1)) as (segs' & A & B & C & _). assert (segs' = segs) by congruence. subst segs'. eapply top_fine; eassumption. }
    unfold to_pos in H. destruct m; (eapply loop_fine; [|exact Hs|constructor|exact H]).
    - intros t o Ht Ho. rewrite pos_walk in Ho. eapply walk_fine; eassumption.
    - intros t o Ht Ho. injection Ho as <-. apply (fine_leaf Ht).
  Qed.
End Pos.

Lemma c93_read : forall E c (d : dict E) s m str, reachable c d -> plain_dict d -> seg_string c (Some d) s m = Ok str ->
  exists l, seg_pos c (Some d) s m = Ok l /\ forall fuel, length str <= fuel -> read_tags fuel str = Some l.
Proof.
  intros E c d s m str Hr Hp Hs. apply reachable_inv in Hr. unfold seg_string in Hs. destruct (internal_segment c (Some d) s m) as [segs| |] eqn:Hseg; try discriminate. cbn [bind] in Hs.
  rewrite c09_string in Hs. destruct (to_pos (depth s) d segs m) as [l| |] eqn:Hl; try discriminate. cbn [rmap] in Hs. injection Hs as <-.
  assert (Hpos : seg_pos c (Some d) s m = Ok l) by (unfold seg_pos; rewrite Hseg; exact Hl). exists l. split; [exact Hpos|]. intros fuel Hf.
  apply read_render; [pose proof (render_length l); lia|]. exact (pos_fine Hr Hp Hpos).
Qed.
