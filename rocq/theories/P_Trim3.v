(** Proofs about the composed cuts: what CutStop, CutTrim, CutTrimHtml and CutUrl leave of the text. *)
From Verif Require Import S_Trim S_Seg S_Dag P_Trim P_Trim2 P_Utf8 P_Utf8b P_Str P_Hmm P_Split P_Dict P_Seg2 P_Dag P_Dag2 P_Out.
Set Implicit Arguments. Unset Strict Implicit.

Section HCutValid.
  Variable E : env.
  Variable em : emits E.
  Variables han skip : matcher.
  Hypothesis Hwf : wf_matcher han. Hypothesis Hr : rune_matcher han. Hypothesis Hne : nonempty_matcher han.
  Hypothesis Swf : wf_matcher skip. Hypothesis Sr : rune_matcher skip. Hypothesis Sne : nonempty_matcher skip.

  Lemma skip_valid : forall f, wf_matcher f -> rune_matcher f -> forall t a b, valid t -> f t = Some (a, b) ->
    valid (firstn a t) /\ valid (firstn b t) /\ valid (skipn a t) /\ valid (skipn b t).
  Proof.
    intros f Hw Hf t a b Ht He. destruct (Hf t a b Ht He) as (V1 & V2 & V3). pose proof (Hw t a b He). split; [exact V1|].
    split; [|split; [|exact V3]].
    - rewrite <- slice0. rewrite <- (@slice_app _ t 0 a b) by lia. rewrite slice0. apply valid_app; assumption.
    - replace (skipn a t) with (slice t a b ++ skipn b t); [apply valid_app; auto|].
      unfold slice. rewrite <- (firstn_skipn (b - a) (skipn a t)) at 2. f_equal. rewrite skipn_skipn. f_equal. lia.
  Qed.

  Lemma hcut_valid : forall fuel text result out, hcut_loop fuel em han skip text result = Ok out -> valid text -> Forall valid result -> Forall valid out.
  Proof.
    induction fuel as [|fuel IH]; intros text result out H Hv Hres; [discriminate|]. cbn [hcut_loop] in H.
    assert (Hjudge : forall loc, loc_judge (han text) (skip text) = Some loc -> han text = Some loc \/ skip text = Some loc).
    { intros loc. destruct (han text) as [a|], (skip text) as [b|]; cbn [loc_judge]; try (intro; auto; fail); try discriminate. destruct (fst a <? fst b); auto. }
    assert (Hstep : forall loc, han text = Some loc \/ skip text = Some loc ->
      valid (firstn (fst loc) text) /\ valid (firstn (snd loc) text) /\ valid (skipn (fst loc) text) /\ valid (skipn (snd loc) text)).
    { intros [a b] [K|K]; [apply (skip_valid Hwf Hr Hv K)|apply (skip_valid Swf Sr Hv K)]. }
    assert (Hj : match loc_judge (han text) (skip text) with
                 | Some loc => hcut_loop fuel em han skip (skipn (fst loc) text) (result ++ [firstn (fst loc) text])
                 | None => Ok (result ++ [text])
                 end = Ok out -> Forall valid out).
    { intro K. destruct (loc_judge (han text) (skip text)) as [loc|] eqn:El.
      - destruct (Hstep loc (Hjudge loc eq_refl)) as (V1 & _ & V3 & _). eapply IH; [exact K|exact V3|]. apply Forall_app. split; [exact Hres|]. repeat constructor. exact V1.
      - injection K as <-. apply Forall_app. split; [exact Hres|]. repeat constructor. exact Hv. }
    assert (Hs : forall b, skip text = Some (0, b) -> slice text 0 b <> []).
    { intros b K L. apply (f_equal (@length _)) in L. pose proof (Swf K). pose proof (Sne K). rewrite slice_length in L by lia. cbn in L. lia. }
    assert (Hcut : forall b, skip text = Some (0, b) -> hcut_loop fuel em han skip (skipn b text) (result ++ [slice text 0 b]) = Ok out -> Forall valid out).
    { intros b K L. destruct (Hstep (0, b) (or_intror K)) as (_ & V2 & _ & V4). cbn [snd] in *. eapply IH; [exact L|exact V4|]. apply Forall_app. split; [exact Hres|]. rewrite slice0. repeat constructor. exact V2. }
    assert (Hafter : forall o, match skip text with
      | Some (0, b) => match slice text 0 b with
                       | [] => o
                       | _ :: _ => hcut_loop fuel em han skip (skipn b text) (result ++ [slice text 0 b])
                       end
      | Some (S _, _) => match loc_judge (han text) (skip text) with
                         | Some loc => hcut_loop fuel em han skip (skipn (fst loc) text) (result ++ [firstn (fst loc) text])
                         | None => Ok (result ++ [text])
                         end
      | None => if match text with [] => true | _ => false end then Ok result
                else match loc_judge (han text) (skip text) with
                     | Some loc => hcut_loop fuel em han skip (skipn (fst loc) text) (result ++ [firstn (fst loc) text])
                     | None => Ok (result ++ [text])
                     end
      end = Ok out -> Forall valid out).
    { intros o K. destruct (skip text) as [[[|a] b]|] eqn:Es; [|exact (Hj K)|].
      - destruct (slice text 0 b) eqn:El; [destruct (Hs b eq_refl El)|]. rewrite <- El in K. exact (Hcut b eq_refl K).
      - destruct (match text with [] => true | _ => false end); [injection K as <-; exact Hres|exact (Hj K)]. }
    destruct (han text) as [[[|a] b]|] eqn:Eh.
    - pose proof (Hwf Eh). pose proof (Hne Eh). assert (Hn : slice text 0 b <> []) by (intro L; apply (f_equal (@length _)) in L; rewrite slice_length in L by lia; cbn in L; lia).
      destruct (internal_ok em Hn) as (pr & path & V1 & V2 & V3). rewrite V3 in H. cbn [bind] in H. destruct (Hstep (0, b) (or_introl eq_refl)) as (_ & _ & _ & V4).
      eapply IH; [exact H|exact V4|]. apply Forall_app. split; [exact Hres|]. apply Forall_map. apply Forall_forall. intros w _. apply string_valid.
    - destruct (skip text) as [[[|sa] sb]|]; [eapply Hafter; exact H|exact (Hafter Hang H)|exact (Hafter Hang H)].
    - destruct text as [|x text]; [injection H as <-; exact Hres|]. destruct (skip (x :: text)) as [[[|sa] sb]|]; [eapply Hafter; exact H|exact (Hafter Hang H)|exact (Hafter Hang H)].
  Qed.
End HCutValid.

Lemma hmm_cut_valid : forall E (em : emits E) s out, valid s -> hmm_cut em s [] = Ok out -> Forall valid out.
Proof.
  intros E em s out Hv H. destruct (@picks_wf E [] ltac:(constructor)) as ((H1 & H2) & (H3 & H4)). destruct (@picks_rune E [] ltac:(constructor)) as [R1 R2].
  eapply (hcut_valid H1 R1 H2 H3 R2 H4); [exact H|exact Hv|constructor].
Qed.

Section Cuts.
  Variable E : env.
  Variables (c : cfg) (d : dict E) (em : emits E).
  Hypothesis Hr : reachable c d.

  Lemma seg_loop_words : forall ps segs out, Forall2 (piece d) ps (map (@sg_tok) segs) ->
    seg_loop (fun t => Ok [join (t_text t)]) d segs out = Ok (out ++ map (@concat byte) ps).
  Proof.
    intros ps segs. revert ps. induction segs as [|sg segs IH]; intros ps out H; cbn [map] in H.
    - inversion H; subst. cbn. rewrite app_nil_r. reflexivity.
    - inversion H as [|p r ps' rs' Hp HF']; subst. cbn [seg_loop map].
      assert (K : exists t, deref d (sg_tok sg) = Ok t /\ concat (t_text t) = concat p).
      { inversion Hp as [p' v Hpne Hv Hp1 Hr1|w Hv Hp1 Hr1]; subst.
        - rewrite dict_value_get in Hv. destruct (ok_entry (inv_ok (reachable_inv Hr)) Hv) as (t & T1 & T2 & T3 & T4). exists t. split; [apply get_Ok; exact T1|exact T3].
        - exists (fallback_token E w). split; [reflexivity|]. reflexivity. }
      destruct K as (t & K1 & K2). rewrite K1. cbn [bind]. rewrite (IH ps') by exact HF'. rewrite <- app_assoc, join_eq, K2. reflexivity.
  Qed.

  (** The characters of the text are those of the words. *)
  Lemma cut_units : forall hmm s, exists ws, cut d c em s hmm = Ok ws /\ concat ws = cut_text E c hmm s /\ Forall (fun w => w <> []) ws /\
    units (cut_text E c hmm s) = concat (map units ws).
  Proof.
    intros [[|]|] s; cbn [cut cut_text].
    - destruct (@c24 E c d em c s [] Hr ltac:(constructor) ltac:(cbn; auto)) as (ws & H1 & H2 & H3). exists ws. split; [exact H1|]. split; [exact H3|]. split; [exact H2|].
      rewrite <- H3. apply units_valid. destruct (hmm_dag_cut (reachable_inv Hr) em (reg := []) ltac:(constructor) c s) as (tl & ps & wss & K1 & K2 & K3 & K4 & K5).
      assert (ws = concat wss) as -> by congruence. apply Forall_concat. clear - K5. induction K5 as [|g ws gs wss Hg H IH]; constructor; [|exact IH].
      unfold group_words in Hg. set (t := string_of_runes (concat (snd g))) in *. assert (Ht : valid t) by apply string_valid.
      destruct (fst g && (2 <=? length (snd g))); [|subst ws; repeat constructor; exact Ht].
      assert (Hm : Forall valid (map string_of_runes (snd g))) by (apply Forall_map, Forall_forall; intros; apply string_valid).
      destruct (dict_find d t) as [[[v q] []]| |]; [destruct (eqb64 E v (lit64 E 0 0)); [|subst ws; exact Hm]| | |]; eapply hmm_cut_valid; eauto.
    - destruct (@c23 E c d c s Hr) as (ws & H1 & H2 & H3). exists ws. split; [exact H1|]. split; [exact H3|]. split; [exact H2|].
      rewrite <- H3. apply units_valid. destruct (nohmm_cut (reachable_inv Hr) c s) as (tl & ps & K1 & K2 & K3 & K4).
      assert (ws = map (fun g => string_of_runes (concat (snd g))) (runs eng ps)) as -> by congruence. apply Forall_map, Forall_forall. intros. apply string_valid.
    - destruct (@c05 E c d s Hr) as (ws & H1 & _ & H3 & _ & H4). exists ws. split; [exact H1|]. split; [exact H3|]. split; [exact H4|].
      destruct (@segment_inv E c d s false (reachable_inv Hr) ltac:(congruence)) as (segs & A & _ & (ps & B1 & B2) & _).
      unfold seg_slice in H1. rewrite A in H1. cbn [bind to_slice] in H1. rewrite (seg_loop_words [] B2) in H1. injection H1 as <-. symmetry. apply wsplit_units, B1.
  Qed.

  Lemma selects_concat : forall l out, selects (fun w : bytes => w <> []) l out -> concat out = concat l.
  Proof.
    intros l out H. induction H as [|a l out Ha H IH|a l out Ha H IH]; [reflexivity|cbn; rewrite IH; reflexivity|]. destruct a; [exact IH|]. exfalso. apply Ha. discriminate.
  Qed.
  Lemma trim_symbol_cut : forall hmm s, exists ws, cut d c em s hmm = Ok ws /\ concat (trim_symbol E ws) = symbol_free E (cut_text E c hmm s).
  Proof.
    intros hmm s. destruct (cut_units hmm s) as (ws & H1 & H2 & H3 & H4). exists ws. split; [exact H1|].
    rewrite (selects_concat (trim_symbol_eq E ws)). symmetry. apply symbol_units, H4.
  Qed.

  Lemma cut_trim_ok : forall ns m hmm s, exists ws out, cut d c em s hmm = Ok ws /\ cut_trim d c em ns m s hmm = Ok out /\
    selects (fun w => w <> [] /\ (ns = false -> is_stop m w = false)) (map (symbol_free E) ws) out /\
    (ns = true -> concat out = symbol_free E (cut_text E c hmm s)).
  Proof.
    intros ns m hmm s. destruct (cut_units hmm s) as (ws & H1 & H2 & H3 & H4). exists ws, (trim E ns m ws). unfold cut_trim. rewrite H1. split; [reflexivity|]. split; [reflexivity|].
    pose proof (trim_eq E ns m ws) as K. split; [exact K|]. intros ->.
    assert (K' : selects (fun w : bytes => w <> []) (map (symbol_free E) ws) (trim E true m ws)).
    { revert K. generalize (map (symbol_free E) ws) (trim E true m ws). intros l o K. induction K as [|a l o Ha K IH|a l o Ha K IH]; constructor; auto; [apply Ha|].
      intro Hx. apply Ha. split; [exact Hx|discriminate]. }
    rewrite (selects_concat K'). symmetry. apply symbol_units, H4.
  Qed.
  Lemma cut_stop_ok : forall m hmm s, exists ws out, cut d c em s hmm = Ok ws /\ cut_stop d c em m s hmm = Ok out /\ concat ws = cut_text E c hmm s /\
    selects (fun w => is_stop m w = false) ws out.
  Proof.
    intros m hmm s. destruct (cut_units hmm s) as (ws & H1 & H2 & H3 & H4). exists ws, (stop m ws). unfold cut_stop. rewrite H1. split; [reflexivity|]. split; [reflexivity|]. split; [exact H2|].
    pose proof (stop_eq m ws) as K. revert K H3. clear. generalize (stop m ws). intros o K. induction K as [|a l o Ha K IH|a l o Ha K IH]; intro H; constructor; inversion_clear H; auto; tauto.
  Qed.
  Lemma cut_html_ok : forall hmm s, exists ws out, cut d c em (filter_html s) hmm = Ok ws /\ cut_trim_html d c em s hmm = Ok out /\
    selects (fun w => w <> []) (map (symbol_free E) ws) out /\ concat out = symbol_free E (cut_text E c hmm (filter_html s)) /\
    Forall (fun w => w <> [] /\ symbol_free E w = w) out /\ exists r, cut_trim_htmls d c em s hmm = Ok r /\ joined [x20] out r.
  Proof.
    intros hmm s. destruct (trim_symbol_cut hmm (filter_html s)) as (ws & H1 & H2). exists ws, (trim_symbol E ws). unfold cut_trim_htmls, cut_trim_html. rewrite H1. cbn [bind].
    split; [reflexivity|]. split; [reflexivity|]. split; [apply trim_symbol_eq|]. split; [exact H2|]. split.
    - pose proof (trim_symbol_eq E ws) as K. clear - K. revert K. generalize (trim_symbol E ws). intros o K. remember (map (symbol_free E) ws) as l eqn:El. revert ws El. induction K as [|a l o Ha K IH|a l o Ha K IH]; intros ws El; [constructor| |].
      + destruct ws as [|w ws]; [discriminate|]. injection El as -> ->. constructor; [|eauto]. split; [exact Ha|]. apply symbol_free_idem.
      + destruct ws as [|w ws]; [discriminate|]. injection El as -> ->. eauto.
    - eexists. split; [reflexivity|]. apply (cut_str_joined _ (Some [x20])).
  Qed.

  (** SplitNums only inserts spaces, which the filter drops again. *)
  Lemma ascii_units : forall w x, Forall (fun b => (bz b < 128)%Z) w -> units (w ++ x) = units w ++ units x.
  Proof.
    induction w as [|b w IH]; intros x H; [reflexivity|]. inversion_clear H. cbn [app]. rewrite !units_ascii, IH by assumption. reflexivity.
  Qed.
  Lemma digits_ascii : forall w, digits_only w -> Forall (fun b => (bz b < 128)%Z) w.
  Proof. intros w [_ H]. eapply Forall_impl; [|exact H]. intro b. apply digit_ascii. Qed.
  Lemma alternate_units : forall l dg, alternate dg l -> units (concat l) = concat (map units l).
  Proof.
    induction l as [|w l IH]; intros dg H; [reflexivity|]. cbn [map concat]. destruct H as [H1 H2]. rewrite <- (IH _ H2). destruct dg.
    - apply ascii_units, digits_ascii, H1.
    - apply units_sync. destruct l as [|w2 l]; [exact I|]. destruct H2 as [H2 _]. cbn [negb] in H2. pose proof (digits_ascii H2) as K. destruct H2 as [H2 _]. destruct w2 as [|b w2]; [congruence|].
      inversion_clear K. apply ascii_sync. assumption.
  Qed.
  Lemma join_space_units : forall l f, (forall a b : list (rune * bytes), f (a ++ b) = f a ++ f b) -> f [(32, [x20])%Z] = [] ->
    f (units (strings_join l [x20])) = (f (concat (map units l)) : bytes).
  Proof.
    intros l f H1 H2. assert (H0 : f [] = []) by (pose proof (H1 [] []) as K; cbn in K; destruct (f []) as [|x y]; [reflexivity|]; apply (f_equal (@length _)) in K; rewrite app_length in K; cbn in K; lia).
    induction l as [|w [|w2 l] IH]; [reflexivity|cbn; rewrite app_nil_r; reflexivity|].
    assert (K : units (strings_join (w :: w2 :: l) [x20]) = units w ++ [(32%Z, [x20])] ++ units (strings_join (w2 :: l) [x20])).
    { change (strings_join (w :: w2 :: l) [x20]) with (w ++ x20 :: strings_join (w2 :: l) [x20]). rewrite units_sync by (apply ascii_sync; reflexivity). rewrite (@units_ascii x20) by reflexivity. reflexivity. }
    rewrite K, !H1, H2, IH. cbn [app]. rewrite <- H1. reflexivity.
  Qed.
  Lemma norm_units : forall s, units (norm E c s) = map (nunit E c) (units s).
  Proof. intro s. apply (@units_norm_part E c [] (units s) [] s). rewrite app_nil_r. reflexivity. Qed.
  Lemma split_nums_free : forall s, symbol_free E (norm E c (split_nums s)) = symbol_free E (norm E c s).
  Proof.
    intro s. unfold symbol_free, runes_of. rewrite !norm_units. unfold split_nums. change (str " ")%lit with [x20].
    rewrite (@join_space_units (split_num s) (fun us => concat (map enc (filter (wordy E) (map fst (map (nunit E c) us)))))).
    - destruct (proj1 (split_num_iff s (split_num s)) eq_refl) as [H1 H2]. rewrite <- H1 at 2. destruct H2 as [H2|H2]; rewrite (alternate_units H2); reflexivity.
    - intros a b. rewrite !map_app, filter_app, map_app, concat_app. reflexivity.
    - cbn [map]. assert (K : fst (nunit E c (32%Z, [x20])) = 32%Z) by (unfold nunit, norm_unit, alnum_unit; cbn; reflexivity). cbn [filter]. rewrite K. reflexivity.
  Qed.
  Lemma cut_url_ok : forall num s, exists t ws out, (if num : bool then t = s else exists runs, concat runs = s /\ (alternate true runs \/ alternate false runs) /\ joined [x20] runs t) /\
    cut d c em t None = Ok ws /\ cut_url d c em s num = Ok out /\ selects (fun w => w <> []) (map (symbol_free E) ws) out /\ concat out = symbol_free E (norm E c s) /\
    exists r, cut_urls d c em s num = Ok r /\ joined [x20] out r.
  Proof.
    intros num s. destruct (trim_symbol_cut None (if num then s else split_nums s)) as (ws & H1 & H2). exists (if num then s else split_nums s), ws, (trim_symbol E ws). unfold cut_urls, cut_url. rewrite H1. cbn [bind].
    split; [destruct num; [reflexivity|]; exists (split_num s); destruct (proj1 (split_num_iff s (split_num s)) eq_refl); repeat split; auto; apply joined_iff; reflexivity|].
    split; [reflexivity|]. split; [reflexivity|]. split; [apply trim_symbol_eq|]. split; [|eexists; split; [reflexivity|]; apply (cut_str_joined _ (Some [x20]))]. rewrite H2. cbn [cut_text]. destruct num; [reflexivity|apply split_nums_free].
  Qed.

  (** Part-of-speech output. *)
  Lemma pos_trim_ok : forall ns m s search pos, exists l, seg_pos c (Some d) s search = Ok l /\
    pos_trim d c ns m s search pos = Ok (trim_pos E ns m (trim_with_pos l pos)) /\
    pos_trim_arr d c ns m s search pos = Ok (map fst (trim_pos E ns m (trim_with_pos l pos))) /\
    exists r, pos_trim_str d c ns m s search pos = Ok r /\ joined [x20] (map fst (trim_pos E ns m (trim_with_pos l pos))) r.
  Proof.
    intros ns m s search pos. destruct (out_total s search Hr) as (_ & (l & H) & _). exists l. split; [exact H|]. unfold pos_trim_str, pos_trim_arr, pos_trim. rewrite H. cbn [bind].
    split; [reflexivity|]. split; [reflexivity|]. eexists. split; [reflexivity|]. apply (cut_str_joined _ None).
  Qed.
End Cuts.
