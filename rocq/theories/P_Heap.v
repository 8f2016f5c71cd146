(** Token pointers against token indices (C88). *)
From Verif Require Import S_Heap S_Split S_Seg P_Split P_Dict P_Seg P_Seg2 P_Out P_Hist.
Set Implicit Arguments. Unset Strict Implicit.

(** segmentWords reads text and distance only. *)
Section Sim.
  Variable E : env.
  Variables d1 d2 : dict E.
  Definition td (t : token E) := (t_text t, t_dist t).
  Hypothesis Ht : d_trie d1 = d_trie d2.
  Hypothesis Hm : d_max d1 = d_max d2.
  Hypothesis Hk : map td (d_tokens d1) = map td (d_tokens d2).

  Lemma len_sim : length (d_tokens d1) = length (d_tokens d2).
  Proof. rewrite <- (map_length td (d_tokens d1)), Hk, map_length. reflexivity. Qed.
  Lemma get_sim : forall v, match get (d_tokens d1) v, get (d_tokens d2) v with
    | Ok t1, Ok t2 => t_text t1 = t_text t2 /\ t_dist t1 = t_dist t2 | Panic, Panic => True | _, _ => False end.
  Proof.
    intro v. unfold get. pose proof (f_equal (fun l => nth_error l v) Hk) as H. cbv beta in H. rewrite !nth_error_map in H.
    destruct (nth_error (d_tokens d1) v), (nth_error (d_tokens d2) v); cbn [option_map] in H; try discriminate; [|exact I]. injection H as H1 H2. auto.
  Qed.
  Lemma lookup_sim : forall cap ws id acc, lookup d1 cap ws id acc = lookup d2 cap ws id acc.
  Proof.
    intros cap ws. induction ws as [|w ws IH]; intros id acc; cbn [lookup]; [reflexivity|]. rewrite <- Ht, len_sim.
    destruct (t_jump (d_trie d1) w id) as [b|]; [|reflexivity]. destruct (t_value (d_trie d1) b); [|apply IH]. destruct (_ && _); [apply IH|reflexivity].
  Qed.
  Lemma update_all_sim : forall sm n cur b vs js, update_all d1 sm n cur b vs js = update_all d2 sm n cur b vs js.
  Proof.
    intros sm n cur b vs. induction vs as [|v vs IH]; intro js; cbn [update_all]; [reflexivity|].
    pose proof (get_sim v) as H. destruct (get (d_tokens d1) v) as [t1| |], (get (d_tokens d2) v) as [t2| |]; try contradiction; try reflexivity.
    destruct H as [H1 H2]. cbn [bind]. rewrite H1, H2. destruct (cur + length (t_text t2)); [reflexivity|]. destruct (_ || _); [|apply IH]. destruct (get js n0); cbn [bind]; auto.
  Qed.
  Lemma step_sim : forall sm text cur js, seg_step d1 sm text cur js = seg_step d2 sm text cur js.
  Proof.
    intros sm text cur js. unfold seg_step. destruct (match cur with O => _ | _ => _ end); cbn [bind]; try reflexivity. rewrite <- Hm.
    destruct (gslice text cur _); cbn [bind]; try reflexivity. unfold lookup_tokens. rewrite lookup_sim. destruct (lookup d2 _ _ _ _) as [found| |]; cbn [bind]; try reflexivity.
    rewrite update_all_sim. destruct (update_all d2 _ _ _ _ _ _); cbn [bind]; try reflexivity. destruct found as [|v found]; [reflexivity|].
    pose proof (get_sim v) as H. destruct (get (d_tokens d1) v) as [t1| |], (get (d_tokens d2) v) as [t2| |]; try contradiction; try reflexivity. destruct H as [H _]. cbn [bind]. rewrite H. reflexivity.
  Qed.
  Lemma forward_sim : forall sm text todo cur js, seg_forward d1 sm text todo cur js = seg_forward d2 sm text todo cur js.
  Proof.
    intros sm text todo. induction todo as [|k IH]; intros cur js; cbn [seg_forward]; [reflexivity|]. rewrite step_sim. destruct (seg_step d2 _ _ _ _); cbn [bind]; auto.
  Qed.
  Lemma deref_text : forall r, match deref d1 r, deref d2 r with Ok t1, Ok t2 => t_text t1 = t_text t2 | Panic, Panic => True | _, _ => False end.
  Proof.
    intros [v|w]; cbn [deref]; [|reflexivity]. pose proof (get_sim v) as H. destruct (get (d_tokens d1) v), (get (d_tokens d2) v); try contradiction; [apply H|exact I].
  Qed.
  Lemma back_sim : forall f js i acc, seg_back d1 f js i acc = seg_back d2 f js i acc.
  Proof.
    intros f js. induction f as [|f IH]; intros [|i] acc; cbn [seg_back]; try reflexivity. destruct (get js i) as [j| |]; cbn [bind]; try reflexivity. destruct (snd j) as [r|]; [|reflexivity].
    pose proof (deref_text r) as H. destruct (deref d1 r), (deref d2 r); try contradiction; cbn [bind]; try reflexivity. rewrite H. apply IH.
  Qed.
  Lemma positions_sim : forall rs p, positions d1 p rs = positions d2 p rs.
  Proof.
    induction rs as [|r rs IH]; intro p; cbn [positions]; [reflexivity|].
    pose proof (deref_text r) as H. destruct (deref d1 r), (deref d2 r); try contradiction; cbn [bind]; try reflexivity. rewrite H, IH. reflexivity.
  Qed.
  Lemma segment_words_sim : forall ws m, segment_words (Some d1) ws m = segment_words (Some d2) ws m.
  Proof.
    intros ws m. unfold segment_words. destruct (_ && _); [reflexivity|]. rewrite forward_sim. destruct (seg_forward d2 _ _ _ _ _); cbn [bind]; try reflexivity.
    rewrite back_sim. destruct (seg_back d2 _ _ _ _); cbn [bind]; try reflexivity. apply positions_sim.
  Qed.
End Sim.

Section Heap.
  Variable E : env.
  Implicit Types (h : heap E) (hd : hdict E).

  (** The dictionary of M_Dict that a heap stands for: addresses become indices. *)
  Definition unptr (p : hptr) : tref := match p with HTok _ i => InDict i | HNew w => Fallback w end.
  Definition unseg (s : hseg) : segment := {| sg_start := hs_start s; sg_end := hs_end s; sg_tok := unptr (hs_tok s) |}.
  Definition tok_of (x : cell E) : token E := {| t_text := h_text x; t_freq := h_freq x; t_pos := h_pos x; t_dist := h_dist x; t_segs := map unseg (h_segs x) |}.
  Definition view h hd : dict E := {| d_trie := hd_trie hd; d_max := hd_max hd; d_tokens := map tok_of (array h (hd_arr hd)); d_total := hd_total hd |}.

  (** What the pointer leads to is also in the current array, at the same index. *)
  Definition okp h hd (p : hptr) : Prop := match p with HTok a i => nth_error (array h a) i = nth_error (array h (hd_arr hd)) i | HNew _ => True end.
  Definition okc h hd (x : cell E) : Prop := Forall (fun s => okp h hd (hs_tok s) /\ match hs_tok s with HTok _ i => i < length (array h (hd_arr hd)) | _ => True end) (h_segs x).
  Definition good h hd : Prop := hd_arr hd < length h /\ Forall (okc h hd) (array h (hd_arr hd)).

  Lemma array_upd_eq : forall h a l, a < length h -> array (upd h a l) a = l.
  Proof. intros h a l H. unfold array. apply nth_error_nth. apply nth_upd_eq. exact H. Qed.
  Lemma array_upd_neq : forall h a b l, a <> b -> array (upd h a l) b = array h b.
  Proof.
    intros h a b l H. unfold array. destruct (nth_error h b) as [x|] eqn:Hb.
    - rewrite (nth_error_nth _ _ _ Hb). apply nth_error_nth. rewrite nth_upd_neq by exact H. exact Hb.
    - apply nth_error_None in Hb. rewrite !nth_overflow; [reflexivity|exact Hb|rewrite upd_length; exact Hb].
  Qed.
  Lemma array_app_old : forall h l a, a < length h -> array (h ++ [l]) a = array h a.
  Proof. intros h l a H. unfold array. apply app_nth1. exact H. Qed.
  Lemma array_app_new : forall h l, array (h ++ [l]) (length h) = l.
  Proof. intros h l. unfold array. rewrite app_nth2, Nat.sub_diag by lia. reflexivity. Qed.
  Lemma array_out : forall h a i x, nth_error (array h a) i = Some x -> a < length h.
  Proof. intros h a i x H. destruct (Nat.lt_ge_cases a (length h)) as [L|L]; [exact L|]. unfold array in H. rewrite nth_overflow in H by exact L. destruct i; discriminate. Qed.
  Lemma in_array : forall h a x, In x (array h a) -> a < length h.
  Proof. intros h a x H. apply In_nth_error in H as (i & H). exact (array_out H). Qed.

  Lemma deref_sim : forall h hd p, okp h hd p -> deref (view h hd) (unptr p) = match h_deref h p with Ok x => Ok (tok_of x) | Panic => Panic | Hang => Hang end.
  Proof.
    intros h hd [a i|w] H; [|reflexivity]. cbn [unptr deref h_deref okp] in *. unfold get, view. cbn [d_tokens]. rewrite nth_error_map, <- H. destruct (nth_error (array h a) i); reflexivity.
  Qed.
  Lemma deref_okc : forall h hd p x, good h hd -> okp h hd p -> h_deref h p = Ok x -> okc h hd x.
  Proof.
    intros h hd [a i|w] x [_ HG] H Hx; cbn [h_deref okp] in *.
    - apply get_Ok in Hx. rewrite H in Hx. rewrite Forall_forall in HG. apply HG. exact (nth_error_In _ _ Hx).
    - injection Hx as <-. constructor.
  Qed.

  (** *** Output *)
  Section Out.
    Variables (A : Type) (leaf : cell E -> list A) (leaf' : token E -> list A).
    Hypothesis Hl : forall x, leaf' (tok_of x) = leaf x.
    Variables (h : heap E) (hd : hdict E).
    Hypothesis HG : good h hd.
    Definition rec_ok (r : cell E -> res (list A)) (r' : token E -> res (list A)) : Prop := forall x, okc h hd x -> r' (tok_of x) = r x.

    Lemma walk_sim : forall r r', rec_ok r r' -> forall subs b out, Forall (fun s => okp h hd (hs_tok s)) subs ->
      walk_subs r' (view h hd) (map unseg subs) b out = h_walk r h subs b out.
    Proof.
      intros r r' Hr subs. induction subs as [|s subs IH]; intros b out HF; cbn [map walk_subs h_walk]; [reflexivity|].
      inversion_clear HF as [|? ? Hs HF']. cbn [sg_tok unseg]. rewrite (deref_sim Hs). destruct (h_deref h (hs_tok s)) as [x| |] eqn:Hx; cbn [bind]; try reflexivity.
      cbn [tok_of t_segs t_text]. rewrite map_length.
      destruct (if 1 <? length (h_segs x) then Ok true else do w <- get (h_text x) 0; Ok (is_jp E w)) as [y| |]; cbn [bind]; try reflexivity.
      destruct (if y then false else b); [apply IH; exact HF'|].
      change {| t_text := h_text x; t_freq := h_freq x; t_pos := h_pos x; t_dist := h_dist x; t_segs := map unseg (h_segs x) |} with (tok_of x).
      rewrite (Hr x (deref_okc HG Hs Hx)). destruct (r x); cbn [bind]; auto.
    Qed.
    Lemma token_sim : forall f x, okc h hd x -> tok_walk leaf' f (view h hd) (tok_of x) = h_token leaf f h x.
    Proof.
      induction f as [|f IH]; intros x Hx; cbn [tok_walk h_token]; [reflexivity|]. cbn [tok_of t_segs].
      rewrite (walk_sim (r := h_token leaf f h)); [|exact IH|eapply Forall_impl; [|exact Hx]; cbv beta; tauto].
      change {| t_text := h_text x; t_freq := h_freq x; t_pos := h_pos x; t_dist := h_dist x; t_segs := map unseg (h_segs x) |} with (tok_of x). rewrite Hl. reflexivity.
    Qed.
    Lemma loop_sim : forall r r', rec_ok r r' -> forall segs out, Forall (fun s => okp h hd (hs_tok s)) segs ->
      seg_loop r' (view h hd) (map unseg segs) out = h_loop r h segs out.
    Proof.
      intros r r' Hr segs. induction segs as [|s segs IH]; intros out HF; cbn [map seg_loop h_loop]; [reflexivity|].
      inversion_clear HF as [|? ? Hs HF']. cbn [sg_tok unseg]. rewrite (deref_sim Hs). destruct (h_deref h (hs_tok s)) as [x| |] eqn:Hx; cbn [bind]; try reflexivity.
      rewrite (Hr x (deref_okc HG Hs Hx)). destruct (r x); cbn [bind]; auto.
    Qed.
  End Out.

  (** *** Segment *)
  Lemma unseg_point : forall a s, unseg (point a s) = s.
  Proof. intros a [b e [v|w]]; reflexivity. Qed.
  Lemma unseg_points : forall a l, map unseg (map (point a) l) = l.
  Proof. intros a l. rewrite map_map. rewrite <- (map_id l) at 2. apply map_ext. apply unseg_point. Qed.
  Lemma point_okp : forall h hd s, okp h hd (hs_tok (point (hd_arr hd) s)).
  Proof. intros h hd [b e [v|w]]; cbn; auto. Qed.
  Lemma flat_view : forall h hd ws m, segment_words (Some (flat h hd)) ws m = segment_words (Some (view h hd)) ws m.
  Proof. intros h hd ws m. apply segment_words_sim; try reflexivity. cbn [flat view d_tokens]. rewrite !map_map. reflexivity. Qed.
  Lemma segment_sim : forall c h hd s m, h_segment c h hd s m = match internal_segment c (Some (view h hd)) s m with Ok l => Ok (map (point (hd_arr hd)) l) | Panic => Panic | Hang => Hang end.
  Proof.
    intros c h hd [|b s] m; [reflexivity|]. unfold h_segment, internal_segment. destruct (split_words E c (b :: s)) as [ws| |]; cbn [bind]; try reflexivity.
    unfold h_segment_words. rewrite flat_view. destruct (segment_words (Some (view h hd)) ws m); reflexivity.
  Qed.
  Lemma outputs : forall c h hd, good h hd -> forall s m,
    (do segs <- h_segment c h hd s m ; h_to_slice (depth s) h segs m) = seg_slice c (Some (view h hd)) s m /\
    (do segs <- h_segment c h hd s m ; h_to_string (depth s) h segs m) = seg_string c (Some (view h hd)) s m /\
    (do segs <- h_segment c h hd s m ; h_to_pos (depth s) h segs m) = seg_pos c (Some (view h hd)) s m.
  Proof.
    intros c h hd HG s m. unfold seg_slice, seg_string, seg_pos. rewrite segment_sim. destruct (internal_segment c (Some (view h hd)) s m) as [segs| |]; cbn [bind]; auto.
    assert (HF : Forall (fun s => okp h hd (hs_tok s)) (map (point (hd_arr hd)) segs)) by (apply Forall_map, Forall_forall; intros; apply point_okp).
    pose proof (unseg_points (hd_arr hd) segs) as Hu.
    unfold to_slice, to_string, to_pos, h_to_slice, h_to_string, h_to_pos, h_out. destruct m; repeat split; rewrite <- Hu at 2; symmetry; apply loop_sim; try assumption.
    - intros x Hx. rewrite slice_walk. apply token_sim; auto.
    - intros x Hx. rewrite string_walk. apply token_sim; auto.
    - intros x Hx. rewrite pos_walk. apply token_sim; auto.
    - intros x Hx. reflexivity.
    - intros x Hx. reflexivity.
    - intros x Hx. reflexivity.
  Qed.

  (** *** The calls *)
  (** Later heaps: entries stay where they are and keep text, frequency and tag; those outside the current array do not change at all. *)
  Definition same (x y : cell E) : Prop := h_text y = h_text x /\ h_freq y = h_freq x /\ h_pos y = h_pos x.
  Definition grows h h' : Prop := forall a i x, nth_error (array h a) i = Some x -> exists y, nth_error (array h' a) i = Some y /\ same x y.
  Definition others h h' (hd hd' : hdict E) : Prop := forall a, a <> hd_arr hd' -> array h' a = array h a.

  Lemma same_refl : forall x, same x x.
  Proof. intro x. repeat split. Qed.
  Lemma grows_refl : forall h, grows h h.
  Proof. intros h a i x H. exists x. split; [exact H|apply same_refl]. Qed.
  Lemma grows_trans : forall h1 h2 h3, grows h1 h2 -> grows h2 h3 -> grows h1 h3.
  Proof.
    intros h1 h2 h3 H12 H23 a i x H. destruct (H12 _ _ _ H) as (y & Hy & (S1 & S2 & S3)). destruct (H23 _ _ _ Hy) as (z & Hz & (T1 & T2 & T3)).
    exists z. split; [exact Hz|]. repeat split; congruence.
  Qed.

  Lemma append_spec : forall g h hd t, hd_arr hd < length h ->
    let r := h_append g h hd t in let h' := fst (fst r) in let a' := snd (fst r) in
    a' < length h' /\ array h' a' = array h (hd_arr hd) ++ [t] /\ (forall a, a <> a' -> array h' a = array h a) /\ (a' = hd_arr hd \/ array h a' = []).
  Proof.
    intros g h hd t Ha. unfold h_append. cbv zeta. destruct (length (array h (hd_arr hd)) <? hd_cap hd); cbn [fst snd].
    - split; [rewrite upd_length; exact Ha|]. split; [apply array_upd_eq; exact Ha|]. split; [|left; reflexivity]. intros a Hn. apply array_upd_neq. auto.
    - split; [rewrite app_length; cbn; lia|]. split; [apply array_app_new|]. split.
      + intros a Hn. destruct (Nat.lt_ge_cases a (length h)) as [L|L]; [apply array_app_old; exact L|]. unfold array. rewrite !nth_overflow; [reflexivity|exact L|rewrite app_length; cbn; lia].
      + right. unfold array. apply nth_overflow. lia.
  Qed.
  Lemma nth_app_some : forall A (l l' : list A) i x, nth_error l i = Some x -> nth_error (l ++ l') i = Some x.
  Proof. intros A l l' i x H. rewrite nth_error_app1; [exact H|]. apply nth_error_Some. congruence. Qed.
  Lemma add_spec : forall g h hd t, good h hd -> h_segs t = [] -> let r := h_add_token g h hd t in
    view (fst r) (snd r) = add_token (view h hd) (tok_of t) /\ good (fst r) (snd r) /\ grows h (fst r) /\ others h (fst r) hd (snd r).
  Proof.
    intros g h hd t HG Ht. unfold h_add_token, add_token. cbn [view d_trie tok_of t_text]. destruct (t_get (hd_trie hd) (text_bytes (h_text t))) as [v|]; cbv zeta; cbn [fst snd].
    { split; [reflexivity|]. split; [exact HG|]. split; [apply grows_refl|]. intros a _. reflexivity. }
    destruct HG as [Ha HG]. destruct (append_spec g t Ha) as (A1 & A2 & A3 & A4). cbv zeta in *. set (h' := fst (fst (h_append g h hd t))) in *. set (a' := snd (fst (h_append g h hd t))) in *.
    assert (HN : forall a i x, nth_error (array h a) i = Some x -> nth_error (array h' a) i = Some x).
    { intros a i x H. destruct (Nat.eq_dec a a') as [->|Hne]; [|rewrite A3 by exact Hne; exact H]. rewrite A2. destruct A4 as [A4|A4]; [|rewrite A4 in H; destruct i; discriminate]. rewrite A4 in H. apply nth_app_some. exact H. }
    split; [|split; [|split]].
    - unfold view. cbn [hd_trie hd_max hd_arr hd_total d_max d_tokens d_total t_freq]. f_equal. + rewrite map_length. reflexivity. + rewrite A2, map_app. reflexivity.
    - split; [exact A1|]. cbn [hd_arr]. rewrite A2. apply Forall_app. split; [|constructor; [|constructor]; red; rewrite Ht; constructor].
      eapply Forall_impl; [|exact HG]. intros x Hx. unfold okc in *. eapply Forall_impl; [|exact Hx]. cbv beta. cbn [hd_arr]. intros s [Hp Hb]. rewrite A2, app_length. cbn [length].
      destruct (hs_tok s) as [a i|w]; [|split; exact I]. cbn [okp hd_arr] in *. split; [|lia]. destruct (nth_error (array h (hd_arr hd)) i) as [y|] eqn:Hy; [|apply nth_error_None in Hy; lia].
      rewrite (HN _ _ _ Hp), A2. symmetry. apply nth_app_some. exact Hy.
    - intros a i x H. exists x. split; [apply HN; exact H|apply same_refl].
    - intros a Hne. apply A3. exact Hne.
  Qed.

  (** CalcToken *)
  Lemma keep_sim : forall h hd (d1 : dict E), map (@h_text E) (array h (hd_arr hd)) = map (@t_text E) (d_tokens d1) -> forall segs kept, keep_subs d1 segs = Ok kept ->
    h_keep_subs h (map (point (hd_arr hd)) segs) = Ok (map (point (hd_arr hd)) kept) /\ incl kept segs.
  Proof.
    intros h hd d1 Ht segs. induction segs as [|s segs IH]; intros kept H; cbn [keep_subs map h_keep_subs] in *.
    - injection H as <-. split; [reflexivity|intros ? []].
    - apply bind_Ok in H as (t & H1 & H). apply bind_Ok in H as (rest & H2 & H). injection H as <-. destruct (IH _ H2) as [I1 I2].
      assert (D : exists x, h_deref h (hs_tok (point (hd_arr hd) s)) = Ok x /\ h_text x = t_text t).
      { destruct s as [b e [v|w]]; cbn [point hs_tok sg_tok deref h_deref] in *.
        - apply get_Ok in H1. apply (map_nth_error (@t_text E)) in H1. rewrite <- Ht, nth_error_map in H1. destruct (nth_error (array h (hd_arr hd)) v) as [x|] eqn:Hx; [|discriminate].
          exists x. split; [apply get_Ok; exact Hx|]. injection H1 as <-. reflexivity.
        - injection H1 as <-. eexists. split; reflexivity. }
      destruct D as (x & D1 & D2). rewrite D1. cbn [bind]. rewrite I1. cbn [bind]. rewrite D2. destruct (keep_sub E (t_text t)); (split; [reflexivity|]).
      + intros y [<-|Hy]; [left; reflexivity|right; apply I2; exact Hy].
      + intros y Hy. right. apply I2. exact Hy.
  Qed.
  Definition fresh hd n (x : cell E) : Prop := Forall (fun s => match hs_tok s with HTok a i => a = hd_arr hd /\ i < n | HNew _ => True end) (h_segs x).
  Lemma calc_segs_sim : forall hd (d1 : dict E) n, d_trie d1 = hd_trie hd -> d_max d1 = hd_max hd -> length (d_tokens d1) = n -> forall rest pre h ts, hd_arr hd < length h ->
    array h (hd_arr hd) = pre ++ rest -> map (fun x => (h_text x, h_dist x)) (pre ++ rest) = map (@td E) (d_tokens d1) -> calc_segs d1 (map tok_of rest) = Ok ts ->
    exists h' rest', h_calc_segs hd (length rest) (length pre) h = Ok h' /\ length h' = length h /\ array h' (hd_arr hd) = pre ++ rest' /\ map tok_of rest' = ts /\ Forall (fresh hd n) rest' /\
      Forall2 same rest rest' /\ (forall a, a <> hd_arr hd -> array h' a = array h a).
  Proof.
    intros hd d1 n Ht Hm Hn rest. induction rest as [|x rest IH]; intros pre h ts Ha Har Htd Hc; cbn [map calc_segs length h_calc_segs] in *.
    - injection Hc as <-. exists h, []. repeat split; auto.
    - apply bind_Ok in Hc as (segs & C1 & Hc). apply bind_Ok in Hc as (kept & C2 & Hc). apply bind_Ok in Hc as (ts' & C3 & Hc). injection Hc as <-.
      rewrite Har. unfold get at 1. rewrite nth_error_app2, Nat.sub_diag by lia. cbn [nth_error bind]. unfold h_segment_words.
      rewrite (@segment_words_sim E (flat h hd) d1); [|symmetry; exact Ht|symmetry; exact Hm|cbn [flat d_tokens]; rewrite map_map, Har; exact Htd].
      cbn [tok_of t_text] in C1. rewrite C1. cbn [bind].
      assert (Htx : map (@h_text E) (array h (hd_arr hd)) = map (@t_text E) (d_tokens d1)).
      { rewrite Har. apply (f_equal (map fst)) in Htd. rewrite !map_map in Htd. exact Htd. }
      destruct (keep_sim Htx C2) as [K1 K2]. rewrite K1. cbn [bind].
      set (x' := cell_segs x (map (point (hd_arr hd)) kept)).
      assert (Hu : upd (pre ++ x :: rest) (length pre) x' = (pre ++ [x']) ++ rest).
      { clear. rewrite <- app_assoc. cbn [app]. induction pre as [|y pre IH]; cbn [app length upd]; [reflexivity|]. rewrite IH. reflexivity. }
      destruct (IH (pre ++ [x']) (upd h (hd_arr hd) (upd (pre ++ x :: rest) (length pre) x')) ts') as (h' & rest' & R1 & R2 & R3 & R4 & R5 & R6 & R7).
      + rewrite upd_length. exact Ha.
      + rewrite array_upd_eq by exact Ha. exact Hu.
      + rewrite <- Htd, <- app_assoc. rewrite !map_app. reflexivity.
      + exact C3.
      + exists h', (x' :: rest'). rewrite app_length in R1. cbn [length] in R1. rewrite Nat.add_1_r in R1. split; [exact R1|]. split; [rewrite R2; apply upd_length|]. split; [rewrite R3, <- app_assoc; reflexivity|].
        split; [cbn [map]; rewrite R4; f_equal; unfold x', tok_of, cell_segs, set_segs; cbn [h_text h_freq h_pos h_dist h_segs t_text t_freq t_pos t_dist]; rewrite unseg_points; reflexivity|].
        split; [constructor; [|exact R5]|].
        * unfold fresh, x'. cbn [cell_segs h_segs]. apply Forall_map, Forall_forall. intros s Hs. destruct s as [b e [v|w]]; cbn [point hs_tok sg_tok]; [|exact I]. split; [reflexivity|].
          assert (Hin : exists t, deref d1 (InDict v) = Ok t).
          { clear -C2 Hs. revert kept C2 Hs. induction segs as [|s segs IH]; intros kept C2 Hs; cbn [keep_subs] in C2; [injection C2 as <-; destruct Hs|].
            apply bind_Ok in C2 as (t & H1 & C2). apply bind_Ok in C2 as (r & H2 & C2). injection C2 as <-. destruct (keep_sub E (t_text t)); [|eapply IH; eassumption].
            destruct Hs as [->|Hs]; [exists t; exact H1|eapply IH; eassumption]. }
          destruct Hin as (t & Hin). cbn [deref] in Hin. apply get_Ok in Hin. rewrite <- Hn. apply nth_error_Some. congruence.
        * split; [constructor; [repeat split|exact R6]|]. intros a Hne. rewrite R7 by exact Hne. apply array_upd_neq. auto.
  Qed.
  Lemma F2_length : forall A B (P : A -> B -> Prop) l l', Forall2 P l l' -> length l = length l'.
  Proof. intros A B P l l' H. induction H; cbn; auto. Qed.
  Lemma F2_nth : forall A B (P : A -> B -> Prop) l l', Forall2 P l l' -> forall i a, nth_error l i = Some a -> exists b, nth_error l' i = Some b /\ P a b.
  Proof. intros A B P l l' H. induction H as [|a b l l' Hab H IH]; intros [|i] x Hx; cbn [nth_error] in *; try discriminate; [injection Hx as <-; eauto|auto]. Qed.
  Lemma calc_spec : forall h hd d', good h hd -> calc_token (view h hd) = Ok d' -> exists h', h_calc_token h hd = Ok h' /\ view h' hd = d' /\ good h' hd /\ grows h h' /\ others h h' hd hd.
  Proof.
    intros h hd d' [Ha HG] Hc. unfold calc_token in Hc. apply bind_Ok in Hc as (ts & C1 & C2). injection C2 as <-. set (h1 := h_calc_dist h hd).
    assert (A1 : array h1 (hd_arr hd) = map (fun t => cell_dist t (sub32 E (to32 E (m_log2 E (hd_total hd))) (to32 E (m_log2 E (h_freq t))))) (array h (hd_arr hd))) by (apply array_upd_eq; exact Ha).
    assert (V1 : d_tokens (calc_dist (view h hd)) = map tok_of (array h1 (hd_arr hd))) by (rewrite A1; cbn [calc_dist set_tokens view d_tokens]; rewrite !map_map; reflexivity).
    rewrite V1 in C1.
    destruct (@calc_segs_sim hd (calc_dist (view h hd)) (length (array h1 (hd_arr hd))) eq_refl eq_refl ltac:(rewrite V1, map_length; reflexivity) (array h1 (hd_arr hd)) [] h1 ts) as (h' & rest' & R1 & R2 & R3 & R4 & R5 & R6 & R7).
    - unfold h1, h_calc_dist. rewrite upd_length. exact Ha.
    - reflexivity.
    - cbn [app]. rewrite V1, map_map. reflexivity.
    - exact C1.
    - cbn [app length] in *. exists h'. split; [exact R1|]. assert (Ha' : hd_arr hd < length h') by (rewrite R2; unfold h1, h_calc_dist; rewrite upd_length; exact Ha).
      assert (O1 : forall a, a <> hd_arr hd -> array h' a = array h a) by (intros a Hne; rewrite R7 by exact Hne; apply array_upd_neq; auto).
      split; [unfold view; rewrite R3, R4; reflexivity|]. split; [|split; [|exact O1]].
      + split; [exact Ha'|]. rewrite R3. eapply Forall_impl; [|exact R5]. intros x Hx. unfold okc. eapply Forall_impl; [|exact Hx]. cbv beta. intros s Hs. destruct (hs_tok s) as [a i|w]; [|split; exact I].
        destruct Hs as [-> Hs]. split; [reflexivity|]. rewrite R3. pose proof (F2_length R6). lia.
      + intros a i x Hx. destruct (Nat.eq_dec a (hd_arr hd)) as [->|Hne].
        * rewrite R3. assert (Hx1 : nth_error (array h1 (hd_arr hd)) i = Some (cell_dist x (sub32 E (to32 E (m_log2 E (hd_total hd))) (to32 E (m_log2 E (h_freq x)))))) by (rewrite A1; exact (map_nth_error _ _ _ Hx)).
          destruct (F2_nth R6 Hx1) as (y & Y1 & Y2). exists y. split; [exact Y1|]. exact Y2.
        * exists x. rewrite O1 by exact Hne. split; [exact Hx|apply same_refl].
  Qed.

  (** *** Histories *)
  Definition after (c : cfg) (d : dict E) (o : hop E) : res (dict E) := match o with HReset => Ok (new_dict E) | HOp o => run_op c d o end.
  (** Pointers in any array lead to shorter words. *)
  Definition hok h : Prop := forall a i x s, nth_error (array h a) i = Some x -> In s (h_segs x) ->
    exists y, h_deref h (hs_tok s) = Ok y /\ h_text y <> [] /\ length (concat (h_text y)) < length (concat (h_text x)).
  Record inv c h hd : Prop := { i_good : good h hd; i_reach : reachable c (view h hd); i_ok : hok h }.

  Lemma grows_deref : forall h h' p x, grows h h' -> h_deref h p = Ok x -> exists y, h_deref h' p = Ok y /\ same x y.
  Proof.
    intros h h' [a i|w] x H Hx; cbn [h_deref] in *.
    - apply get_Ok in Hx. destruct (H _ _ _ Hx) as (y & Hy & S). exists y. rewrite get_Ok. auto.
    - exists x. split; [exact Hx|apply same_refl].
  Qed.
  Lemma hok_step : forall c h h' hd hd', hok h -> grows h h' -> others h h' hd hd' -> good h' hd' -> reachable c (view h' hd') -> hok h'.
  Proof.
    intros c h h' hd hd' HO Hg Ho HG Hr a i x s Hx Hs. destruct (Nat.eq_dec a (hd_arr hd')) as [->|Hne].
    - assert (Hin : In (tok_of x) (d_tokens (view h' hd'))) by (cbn [view d_tokens]; apply in_map; exact (nth_error_In _ _ Hx)).
      destruct (c08 Hr Hin) as (HF & _). rewrite Forall_forall in HF. specialize (HF (unseg s) ltac:(cbn [tok_of t_segs]; apply in_map; exact Hs)). destruct HF as (t' & D & L1 & L2). cbn [unseg sg_tok tok_of t_text] in *.
      destruct HG as [_ HG]. rewrite Forall_forall in HG. pose proof (HG x (nth_error_In _ _ Hx)) as Hc. unfold okc in Hc. rewrite Forall_forall in Hc. destruct (Hc s Hs) as [Hp _].
      rewrite (deref_sim Hp) in D. destruct (h_deref h' (hs_tok s)) as [y| |]; try discriminate. injection D as <-. exists y. split; [reflexivity|]. cbn [tok_of t_text] in *. split; [|exact L2].
      intro K. rewrite K in L1. cbn in L1. lia.
    - rewrite (Ho a Hne) in Hx. destruct (HO _ _ _ _ Hx Hs) as (y & Y1 & Y2 & Y3). destruct (grows_deref Hg Y1) as (z & Z1 & (S1 & _ & _)). exists z. rewrite S1. auto.
  Qed.
  Lemma to_token_sim : forall c text f pos, to_token (E := E) c text f pos = match h_to_token c text f pos with Ok x => Ok (tok_of x) | Panic => Panic | Hang => Hang end.
  Proof. intros c text f pos. unfold to_token, h_to_token. destruct (split_words E c text); reflexivity. Qed.
  Lemma to_token_segs : forall c text f pos (x : cell E), h_to_token c text f pos = Ok x -> h_segs x = [].
  Proof. intros c text f pos x H. unfold h_to_token in H. apply bind_Ok in H as (ws & _ & H). injection H as <-. reflexivity. Qed.
  Lemma remove_sim : forall h hd text, remove_token (view h hd) text = match h_remove_token hd text with Some hd' => Some (view h hd') | None => None end.
  Proof. intros h hd text. unfold remove_token, h_remove_token. cbn [view d_trie]. destruct (t_delete (q_drop E) (hd_trie hd) (text_bytes text)); reflexivity. Qed.
  Lemma remove_good : forall h hd hd' text, h_remove_token hd text = Some hd' -> good h hd -> good h hd' /\ hd_arr hd' = hd_arr hd.
  Proof. intros h hd hd' text H HG. unfold h_remove_token in H. destruct (t_delete (q_drop E) (hd_trie hd) (text_bytes text)); [|discriminate]. injection H as <-. split; [exact HG|reflexivity]. Qed.

  Lemma op_spec : forall g c h hd o d', good h hd -> after c (view h hd) o = Ok d' ->
    exists h' hd', h_op g c (h, hd) o = Ok (h', hd') /\ view h' hd' = d' /\ good h' hd' /\ grows h h' /\ others h h' hd hd'.
  Proof.
    intros g c h hd o d' HG H. destruct o as [|o]; [|destruct o as [text f pos|text f pos|text|]]; cbn [after run_op h_op] in *.
    - injection H as <-. unfold h_new. exists (h ++ [[]]). eexists. split; [reflexivity|]. split; [unfold view; cbn [hd_arr hd_trie hd_max hd_total]; rewrite array_app_new; reflexivity|].
      split; [split; cbn [hd_arr]; [rewrite app_length; cbn; lia|rewrite array_app_new; constructor]|]. split.
      + intros a i x Hx. exists x. rewrite array_app_old by exact (array_out Hx). split; [exact Hx|apply same_refl].
      + intros a Hne. cbn [hd_arr] in Hne. destruct (Nat.lt_ge_cases a (length h)) as [L|L]; [apply array_app_old; exact L|]. unfold array. rewrite !nth_overflow; [reflexivity|exact L|rewrite app_length; cbn; lia].
    - unfold seg_add_token in H. rewrite to_token_sim in H. destruct (h_to_token c text f pos) as [x| |] eqn:Hx; cbn [bind] in *; try discriminate. injection H as <-.
      destruct (add_spec g HG (to_token_segs Hx)) as (S1 & S2 & S3 & S4). cbv zeta in *. destruct (h_add_token g h hd x) as [h' hd']. exists h', hd'. auto.
    - apply bind_Ok in H as (r & H & Hr). unfold seg_readd_token in H. rewrite to_token_sim in H. destruct (h_to_token c text f pos) as [x| |] eqn:Hx; cbn [bind] in *; try discriminate.
      cbn [tok_of t_text] in H. rewrite remove_sim in H. destruct (h_remove_token hd (h_text x)) as [hd1|] eqn:Hd.
      + injection H as <-. cbn [fst] in Hr. injection Hr as <-. destruct (remove_good Hd HG) as [HG1 Ha]. destruct (add_spec g HG1 (to_token_segs Hx)) as (S1 & S2 & S3 & S4). cbv zeta in *.
        destruct (h_add_token g h hd1 x) as [h' hd']. exists h', hd'. auto.
      + injection H as <-. cbn [fst] in Hr. injection Hr as <-. exists h, hd. split; [reflexivity|]. split; [reflexivity|]. split; [exact HG|]. split; [apply grows_refl|]. intros a _. reflexivity.
    - apply bind_Ok in H as (r & H & Hr). unfold seg_remove_token in H. destruct (split_words E c text) as [ws| |]; cbn [bind] in *; try discriminate. rewrite remove_sim in H.
      destruct (h_remove_token hd ws) as [hd1|] eqn:Hd; injection H as <-; cbn [fst] in Hr; injection Hr as <-.
      + destruct (remove_good Hd HG) as [HG1 Ha]. exists h, hd1. split; [reflexivity|]. split; [reflexivity|]. split; [exact HG1|]. split; [apply grows_refl|]. intros a _. reflexivity.
      + exists h, hd. split; [reflexivity|]. split; [reflexivity|]. split; [exact HG|]. split; [apply grows_refl|]. intros a _. reflexivity.
    - destruct (calc_spec HG H) as (h' & H1 & H2 & H3 & H4 & H5). exists h', hd. rewrite H1. cbn [bind]. auto.
  Qed.
  Lemma after_total : forall c (d : dict E) o, reachable c d -> exists d', after c d o = Ok d' /\ reachable c d'.
  Proof.
    intros c d [|o] Hr; cbn [after].
    - exists (new_dict E). split; [reflexivity|]. exists []. reflexivity.
    - destruct (run_ops_inv [o] (reachable_inv Hr)) as (d' & H & _). cbn [run_ops] in H. destruct (run_op c d o) as [d1| |] eqn:Ho; cbn [bind] in H; try discriminate. exists d1. split; [reflexivity|].
      destruct Hr as (os & Hos). exists (os ++ [o]). rewrite run_ops_app, Hos. cbn [bind run_ops]. rewrite Ho. reflexivity.
  Qed.
  Lemma init_inv : forall c, inv c (fst (h_new (E := E) [])) (snd (h_new (E := E) [])).
  Proof.
    intro c. split.
    - split; cbn; [lia|constructor].
    - exists []. reflexivity.
    - intros a i x s H. unfold array in H. cbn in H. destruct a as [|[|a]]; destruct i; discriminate.
  Qed.
  Lemma op_inv : forall g c h hd o, inv c h hd -> exists h' hd', h_op g c (h, hd) o = Ok (h', hd') /\ after c (view h hd) o = Ok (view h' hd') /\ inv c h' hd' /\ grows h h'.
  Proof.
    intros g c h hd o [I1 I2 I3]. destruct (after_total o I2) as (d' & A1 & A2). destruct (op_spec g I1 A1) as (h' & hd' & S1 & S2 & S3 & S4 & S5).
    exists h', hd'. rewrite S2. split; [exact S1|]. split; [exact A1|]. split; [|exact S4]. split; [exact S3|rewrite S2; exact A2|]. apply (hok_step (c := c) I3 S4 S5 S3). rewrite S2. exact A2.
  Qed.
  Lemma run_inv : forall g c os h hd, inv c h hd -> exists h' hd', h_run g c (h, hd) os = Ok (h', hd') /\ inv c h' hd' /\ grows h h'.
  Proof.
    intros g c os. induction os as [|o os IH]; intros h hd HI; cbn [h_run]; [exists h, hd; split; [reflexivity|]; split; [exact HI|apply grows_refl]|].
    destruct (op_inv g o HI) as (h1 & hd1 & O1 & _ & O2 & O3). rewrite O1. cbn [bind]. destruct (IH h1 hd1 O2) as (h2 & hd2 & R1 & R2 & R3). exists h2, hd2. split; [exact R1|]. split; [exact R2|]. exact (grows_trans O3 R3).
  Qed.
  Lemma run_view : forall g c os l h hd h' hd', inv c h hd -> run_ops c (new_dict E) l = Ok (view h hd) -> h_run g c (h, hd) os = Ok (h', hd') ->
    run_ops c (new_dict E) (fold_left (fun l o => match o with HReset => [] | HOp o => l ++ [o] end) os l) = Ok (view h' hd').
  Proof.
    intros g c os. induction os as [|o os IH]; intros l h hd h' hd' HI Hl H; cbn [h_run fold_left] in *; [injection H as <- <-; exact Hl|].
    destruct (op_inv g o HI) as (h1 & hd1 & O1 & O2 & O3 & _). rewrite O1 in H. cbn [bind] in H. apply (IH _ h1 hd1); [exact O3| |exact H].
    destruct o as [|o]; cbn [after] in O2.
    - assert (K : view h1 hd1 = new_dict E) by congruence. rewrite K. reflexivity.
    - rewrite run_ops_app, Hl. cbn [bind run_ops]. rewrite O2. reflexivity.
  Qed.
  Lemma runs : forall g c os, exists h hd d, h_run g c (h_new []) os = Ok (h, hd) /\ run_ops c (new_dict E) (last_calls os) = Ok d /\ d = view h hd /\ inv c h hd.
  Proof.
    intros g c os. destruct (run_inv g os (init_inv c)) as (h & hd & R1 & R2 & _). exists h, hd, (view h hd). split; [exact R1|]. split; [|auto].
    apply (run_view (g := g) (os := os) (l := []) (init_inv c) eq_refl R1).
  Qed.

  (** *** Kept segments *)
  Lemma seg_cells : forall c h hd s m segs, inv c h hd -> h_segment c h hd s m = Ok segs ->
    Forall (fun sg => exists x, h_deref h (hs_tok sg) = Ok x /\ h_text x <> [] /\ length (concat (h_text x)) <= length s) segs.
  Proof.
    intros c h hd s m segs [I1 I2 I3] H. rewrite segment_sim in H. destruct (c01 s m I2) as (sg & H1 & H2). rewrite H1 in H. injection H as <-. apply Forall_map.
    destruct H2 as [(_ & -> & _)|H2]; [constructor|]. pose proof (covers_bound H2 ltac:(rewrite norm_length; lia)) as HF. eapply Forall_impl; [|exact HF]. cbv beta.
    intros sg' (t & D & B). pose proof (point_okp h hd sg') as Hp. pose proof (deref_sim Hp) as Hd. replace (unptr (hs_tok (point (hd_arr hd) sg'))) with (sg_tok sg') in Hd by (destruct sg' as [b e [v|w]]; reflexivity).
    rewrite D in Hd. destruct (h_deref h (hs_tok (point (hd_arr hd) sg'))) as [x| |]; try discriminate. injection Hd as ->. exists x. split; [reflexivity|]. cbn [tok_of t_text] in B. destruct B as (B1 & B2 & B3 & B4). split; [|lia]. intro K. rewrite K in B4. cbn in B4. lia.
  Qed.

  Section Kept.
    Variables (A : Type) (leaf : cell E -> list A).

    Lemma kept_plain : (forall x y, same x y -> leaf y = leaf x) -> forall h h' segs out, grows h h' -> Forall (fun sg => exists x, h_deref h (hs_tok sg) = Ok x) segs ->
      h_loop (fun t => Ok (leaf t)) h' segs out = h_loop (fun t => Ok (leaf t)) h segs out.
    Proof.
      intros Hl h h' segs out Hg HF. revert out. induction HF as [|sg segs (x & Hx) HF IH]; intro out; cbn [h_loop]; [reflexivity|].
      destruct (grows_deref Hg Hx) as (y & Hy & S). rewrite Hx, Hy. cbn [bind]. rewrite (Hl _ _ S). apply IH.
    Qed.
    Lemma walk_total : forall h (r : cell E -> res (list A)) subs b out,
      Forall (fun s => exists y l, h_deref h (hs_tok s) = Ok y /\ h_text y <> [] /\ r y = Ok l) subs -> exists o, h_walk r h subs b out = Ok o.
    Proof.
      intros h r subs. induction subs as [|s subs IH]; intros b out H; cbn [h_walk]; [eauto|]. inversion_clear H as [|? ? (y & l & H1 & H2 & H3) H4]. rewrite H1. cbn [bind].
      destruct (h_text y) as [|w ws] eqn:Et; [congruence|]. unfold get. cbn [nth_error bind]. destruct (1 <? length (h_segs y)); cbn [bind]; [rewrite H3; cbn [bind]; auto|].
      destruct (is_jp E w); [rewrite H3; cbn [bind]; auto|]. destruct b; [auto|]. rewrite H3. cbn [bind]. auto.
    Qed.
    Lemma token_total : forall h, hok h -> forall f p x, h_deref h p = Ok x -> length (concat (h_text x)) < f -> exists o, h_token leaf f h x = Ok (o ++ leaf x).
    Proof.
      intros h HO. induction f as [|f IH]; intros p x Hx Hf; [lia|]. cbn [h_token].
      assert (HS : Forall (fun s => exists y l, h_deref h (hs_tok s) = Ok y /\ h_text y <> [] /\ h_token leaf f h y = Ok l) (h_segs x)).
      { apply Forall_forall. intros s Hs. destruct p as [a i|w]; cbn [h_deref] in Hx.
        - apply get_Ok in Hx. destruct (HO _ _ _ _ Hx Hs) as (y & Y1 & Y2 & Y3). destruct (IH _ _ Y1 ltac:(lia)) as (o & Ho). exists y, (o ++ leaf y). auto.
        - injection Hx as <-. destruct Hs. }
      destruct (walk_total true [] HS) as (o & Ho). rewrite Ho. cbn [bind]. exists o. reflexivity.
    Qed.
    Lemma kept_search : forall h segs f out plain l, hok h -> Forall (fun sg => exists x, h_deref h (hs_tok sg) = Ok x /\ length (concat (h_text x)) < f) segs ->
      h_loop (fun t => Ok (leaf t)) h segs plain = Ok l -> subseq plain out -> exists l', h_loop (h_token leaf f h) h segs out = Ok l' /\ subseq l l'.
    Proof.
      intros h segs f out plain l HO HF. revert out plain. induction HF as [|sg segs (x & Hx & Hf) HF IH]; intros out plain H Hi; cbn [h_loop] in *; [injection H as <-; eauto|].
      rewrite Hx in *. cbn [bind] in *. destruct (token_total HO Hx Hf) as (o & Ho). rewrite Ho. cbn [bind]. apply (IH _ (plain ++ leaf x)); [exact H|].
      apply subseq_app; [exact Hi|]. clear. induction o; cbn [app]; [apply subseq_refl|apply ss_skip; assumption].
    Qed.
  End Kept.
  Lemma kept : forall A (leaf : cell E -> list A) c g h hd h' hd' os s m segs, (forall x y, same x y -> leaf y = leaf x) -> inv c h hd -> h_segment c h hd s m = Ok segs -> h_run g c (h, hd) os = Ok (h', hd') ->
    exists l l', h_out leaf (depth s) h segs false = Ok l /\ h_out leaf (depth s) h' segs false = Ok l /\ h_out leaf (depth s) h' segs true = Ok l' /\ subseq l l'.
  Proof.
    intros A leaf c g h hd h' hd' os s m segs Hl HI Hs Hr. destruct (run_inv g os HI) as (h2 & hd2 & R1 & R2 & R3). rewrite R1 in Hr. injection Hr as -> ->.
    pose proof (seg_cells HI Hs) as HF.
    assert (HF1 : Forall (fun sg => exists x, h_deref h (hs_tok sg) = Ok x) segs) by (eapply Forall_impl; [|exact HF]; cbv beta; intros sg (x & H & _); eauto).
    assert (HF2 : Forall (fun sg => exists x, h_deref h' (hs_tok sg) = Ok x /\ length (concat (h_text x)) < depth s) segs).
    { eapply Forall_impl; [|exact HF]. cbv beta. intros sg (x & H1 & _ & H2). destruct (grows_deref R3 H1) as (y & Y1 & (S1 & _)). exists y. split; [exact Y1|]. rewrite S1. unfold depth. lia. }
    assert (HT : forall segs out, Forall (fun sg => exists x, h_deref h (hs_tok sg) = Ok x) segs -> exists l, h_loop (fun t => Ok (leaf t)) h segs out = Ok l).
    { clear. intros segs out HF. revert out. induction HF as [|sg segs (x & Hx) HF IH]; intro out; cbn [h_loop]; [eauto|]. rewrite Hx. cbn [bind]. apply IH. }
    destruct (HT segs [] HF1) as (l & L). unfold h_out. pose proof (kept_plain Hl [] R3 HF1) as K. rewrite L in K.
    destruct (kept_search (out := []) (i_ok R2) HF2 K) as (l' & L1 & L2); [constructor|]. exists l, l'. auto.
  Qed.
End Heap.
