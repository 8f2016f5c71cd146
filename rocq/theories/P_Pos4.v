(** Package pos: Cut (C39-C41). *)
From Verif Require Import S_Pos P_Utf8 P_Utf8b P_Dict P_Seg P_Seg2 P_Hist P_Hmm P_Laws64 P_Dag P_Dag2 P_Pos P_Pos2 P_Pos3 P_PosTab Ieee.
Set Implicit Arguments. Unset Strict Implicit.
Local Open Scope lit_scope.

(** ** From states to words *)
Lemma state_tag : forall t, state_ok t = true -> tag_pos t = Ok (state_pos t) /\
  tag_position t = match state_hst t with HB => TB | HE => TE | HM => TM | HS => TS end.
Proof.
  intros t H. unfold state_ok in H. apply andb_prop in H as [H1 H2]. apply Nat.ltb_lt in H2. split.
  - unfold tag_pos, state_pos. apply get_Ok. apply nth_error_nth'. exact H2.
  - unfold tag_position, state_hst. assert (Hr : (100 <= t < 500)%Z) by lia. clear H1 H2.
    destruct (Z.ltb_spec t 200); [replace (t / 100)%Z with 1%Z by (apply Z.div_unique with (t - 100)%Z; lia); reflexivity|].
    destruct (Z.ltb_spec t 300); [replace (t / 100)%Z with 2%Z by (apply Z.div_unique with (t - 200)%Z; lia); reflexivity|].
    destruct (Z.ltb_spec t 400); [replace (t / 100)%Z with 3%Z by (apply Z.div_unique with (t - 300)%Z; lia); reflexivity|].
    replace (t / 100)%Z with 4%Z by (apply Z.div_unique with (t - 400)%Z; lia); reflexivity.
Qed.

Lemma combine_snoc : forall A B (l : list A) (l' : list B) a b, length l = length l' -> combine (l ++ [a]) (l' ++ [b]) = combine l l' ++ [(a, b)].
Proof. intros A B. induction l as [|x l IH]; intros [|y l'] a b H; try discriminate; [reflexivity|]. cbn. f_equal. apply IH. injection H as H. exact H. Qed.
Lemma combine_fst : forall A B (l : list A) (l' : list B), length l = length l' -> map fst (combine l l') = l.
Proof. intros A B. induction l as [|x l IH]; intros [|y l'] H; try discriminate; [reflexivity|]. cbn. f_equal. apply IH. injection H as H. exact H. Qed.
Lemma combine_snd : forall A B (l : list A) (l' : list B), length l = length l' -> map snd (combine l l') = l'.
Proof. intros A B. induction l as [|x l IH]; intros [|y l'] H; try discriminate; [reflexivity|]. cbn. f_equal. apply IH. injection H as H. exact H. Qed.

Definition finish (runes : list rune) (tags : list Z) (r : nat * list (bytes * bytes)) : res (list (bytes * bytes)) :=
  if fst r <? length runes
  then do t <- get tags (fst r) ; do p <- tag_pos t ; Ok (snd r ++ [(string_of_runes (skipn (fst r) runes), p)])
  else Ok (snd r).
Definition fword (w : list (rune * Z)) : bytes * bytes := (string_of_runes (map fst w), state_pos (hd 0%Z (map snd w))).

Lemma detail_loop_ok : forall rest trest pre tpre last begin next out,
  length pre = length tpre -> length rest = length trest -> Forall (fun t => state_ok t = true) (tpre ++ trest) -> linked next_state (last ++ trest) ->
  ((begin = next /\ next < length pre /\ exists l, last = [l] /\ (state_hst l = HB \/ state_hst l = HM) /\ state_pos l = state_pos (hd 0%Z (skipn next tpre))) \/
   (next = length pre /\ ((last = [] /\ begin = next) \/ exists l, last = [l] /\ (state_hst l = HE \/ state_hst l = HS)))) ->
  (do r <- detail_loop (pre ++ rest) (length pre) rest (tpre ++ trest) begin next out ; finish (pre ++ rest) (tpre ++ trest) r) =
  Ok (out ++ map fword (cut_after (map state_hst trest) (combine rest trest) (combine (skipn next pre) (skipn next tpre)))).
Proof.
  induction rest as [|a rest IH]; intros trest pre tpre last begin next out Hl Hr Hs Hc Hm; destruct trest as [|t trest]; try discriminate.
  - cbn [detail_loop bind map combine cut_after]. unfold finish. cbn [fst snd]. rewrite !app_nil_r in *. destruct Hm as [(Hb & Hn & _)|(Hn & _)].
    + destruct (Nat.ltb_spec next (length pre)); [|lia]. destruct (skipn next tpre) as [|t0 tq] eqn:Et; [apply (f_equal (@length _)) in Et; rewrite skipn_length in Et; cbn in Et; lia|].
      assert (Hg : nth_error tpre next = Some t0). { rewrite <- (firstn_skipn next tpre), Et, nth_error_app2, firstn_length, Nat.min_l, Nat.sub_diag by (rewrite ?firstn_length; lia). reflexivity. }
      assert (Hg' : get tpre next = Ok t0) by (apply get_Ok; exact Hg). rewrite Hg'. cbn [bind]. rewrite Forall_forall in Hs.
      destruct (state_tag (Hs t0 (nth_error_In _ _ Hg))) as [-> _]. cbn [bind].
      assert (Hlen : length (skipn next pre) = length (t0 :: tq)) by (rewrite <- Et, !skipn_length; lia).
      destruct (combine (skipn next pre) (t0 :: tq)) as [|p q] eqn:Ec.
      { apply (f_equal (@length _)) in Ec. rewrite combine_length, Hlen in Ec. cbn in Ec. lia. }
      rewrite <- Ec. cbn [map]. unfold fword. rewrite combine_fst, combine_snd by exact Hlen. reflexivity.
    + destruct (Nat.ltb_spec next (length pre)); [lia|]. rewrite (skipn_all2 pre) by lia. cbn. rewrite app_nil_r. reflexivity.
  - cbn [detail_loop map combine cut_after]. assert (Hg : get (tpre ++ t :: trest) (length pre) = Ok t) by (apply get_Ok; rewrite nth_error_app2, Hl, Nat.sub_diag by lia; reflexivity).
    rewrite Hg. cbn [bind]. assert (Hst : state_ok t = true) by (rewrite Forall_forall in Hs; apply Hs, in_or_app; right; left; reflexivity).
    destruct (state_tag Hst) as [Ht1 Ht2]. rewrite Ht2.
    injection Hr as Hr. assert (Hl2 : length (pre ++ [a]) = length (tpre ++ [t])) by (rewrite !app_length; cbn; lia).
    assert (Hpre : pre ++ a :: rest = (pre ++ [a]) ++ rest) by (rewrite <- app_assoc; reflexivity).
    assert (Htpre : tpre ++ t :: trest = (tpre ++ [t]) ++ trest) by (rewrite <- app_assoc; reflexivity).
    assert (Hlp : S (length pre) = length (pre ++ [a])) by (rewrite app_length; cbn; lia).
    assert (Hc2 : linked next_state ([t] ++ trest)) by (destruct last as [|x [|y last]]; cbn [app] in Hc; [exact Hc|apply Hc|]; destruct Hm as [(_ & _ & l & Hx & _)|(_ & [[Hx _]|(l & Hx & _)])]; discriminate).
    assert (Hsk : forall n, n <= length pre -> skipn n (pre ++ [a]) = skipn n pre ++ [a] /\ skipn n (tpre ++ [t]) = skipn n tpre ++ [t]) by (intros n Hn; split; apply skipn_snoc; lia).
    assert (Hcur : next <= length pre -> combine (skipn next (pre ++ [a])) (skipn next (tpre ++ [t])) = combine (skipn next pre) (skipn next tpre) ++ [(a, t)]).
    { intro Hn. destruct (Hsk next Hn) as [-> ->]. apply combine_snoc. rewrite !skipn_length. lia. }
    assert (Hnle : next <= length pre) by (destruct Hm as [(_ & ? & _)|[? _]]; lia).
    assert (Hnil : combine (skipn (length (pre ++ [a])) (pre ++ [a])) (skipn (length (pre ++ [a])) (tpre ++ [t])) = []) by (rewrite skipn_all; reflexivity).
    (* a word can only begin where the last one ended, and only go on where it has begun *)
    assert (Hbs : state_hst t = HB \/ state_hst t = HS -> next = length pre).
    { intro Hx. destruct Hm as [(_ & _ & l & -> & Hl' & _)|[Hn _]]; [|exact Hn]. cbn [app linked] in Hc. destruct Hc as [[Hc _] _].
      destruct Hl' as [Hl'|Hl']; rewrite Hl' in Hc; destruct Hx as [Hx|Hx]; rewrite Hx in Hc; destruct Hc. }
    assert (Hem : state_hst t = HE \/ state_hst t = HM -> begin = next /\ state_pos t = state_pos (hd 0%Z (skipn next tpre ++ [t]))).
    { intro Hx. destruct Hm as [(Hb & Hn & l & -> & Hl' & Hp)|[Hn [[-> Hb]|(l & -> & Hl')]]].
      - cbn [app linked] in Hc. destruct Hc as [[_ Hc] _]. split; [exact Hb|]. rewrite <- (Hc Hx), Hp. destruct (skipn next tpre) eqn:Et; [|reflexivity].
        apply (f_equal (@length _)) in Et. rewrite skipn_length in Et. cbn in Et. lia.
      - split; [exact Hb|]. rewrite (skipn_all2 tpre) by lia. reflexivity.
      - cbn [app linked] in Hc. destruct Hc as [[Hc _] _]. exfalso. destruct Hl' as [Hl'|Hl']; rewrite Hl' in Hc; destruct Hx as [Hx|Hx]; rewrite Hx in Hc; exact Hc. }
    assert (Hout : forall n w, (do r <- detail_loop ((pre ++ [a]) ++ rest) (length (pre ++ [a])) rest ((tpre ++ [t]) ++ trest) n (length (pre ++ [a])) (out ++ [w]) ; finish ((pre ++ [a]) ++ rest) ((tpre ++ [t]) ++ trest) r) =
              Ok (out ++ [w] ++ map fword (cut_after (map state_hst trest) (combine rest trest) [])) \/ ~ (state_hst t = HE \/ state_hst t = HS)).
    { intros n w. assert (Hd : {state_hst t = HE \/ state_hst t = HS} + {~ (state_hst t = HE \/ state_hst t = HS)}) by (destruct (state_hst t); auto; right; intros [|]; discriminate).
      destruct Hd as [Hd|Hd]; [left|right; exact Hd]. rewrite (IH trest (pre ++ [a]) (tpre ++ [t]) [t] n (length (pre ++ [a]))); [rewrite Hnil, <- app_assoc; reflexivity|exact Hl2|exact Hr|rewrite <- Htpre; exact Hs|exact Hc2|].
      right. split; [reflexivity|]. right. exists t. auto. }
    assert (Hopen : forall b, (state_hst t = HB \/ state_hst t = HM) -> b = next -> (state_hst t = HM -> state_pos t = state_pos (hd 0%Z (skipn next tpre ++ [t]))) ->
      (do r <- detail_loop ((pre ++ [a]) ++ rest) (length (pre ++ [a])) rest ((tpre ++ [t]) ++ trest) b next out ; finish ((pre ++ [a]) ++ rest) ((tpre ++ [t]) ++ trest) r) =
      Ok (out ++ map fword (cut_after (map state_hst trest) (combine rest trest) (combine (skipn next pre) (skipn next tpre) ++ [(a, t)])))).
    { intros b Hh Hb Hp. rewrite (IH trest (pre ++ [a]) (tpre ++ [t]) [t] b next); [rewrite (Hcur Hnle); reflexivity|exact Hl2|exact Hr|rewrite <- Htpre; exact Hs|exact Hc2|].
      left. split; [exact Hb|]. split; [lia|]. exists t. split; [reflexivity|]. split; [exact Hh|]. rewrite (proj2 (Hsk next Hnle)). destruct Hh as [Hh|Hh]; [|exact (Hp Hh)].
      rewrite (skipn_all2 tpre) by (rewrite (Hbs (or_introl Hh)); lia). reflexivity. }
    rewrite Hpre, Htpre, Hlp. destruct (state_hst t) eqn:Eh.
    + (* B *) rewrite (Hbs (or_introl eq_refl)) in *. apply Hopen; auto. discriminate.
    + (* M *) destruct (Hem (or_intror eq_refl)) as [Hb Hp]. apply Hopen; auto.
    + (* E *) destruct (Hem (or_introl eq_refl)) as [Hb Hp]. rewrite rslice_ok by (rewrite !app_length; cbn; lia). cbn [bind]. rewrite Ht1. cbn [bind].
      destruct (Hout begin (string_of_runes (slice ((pre ++ [a]) ++ rest) begin (length (pre ++ [a]))), state_pos t)) as [->|Hx]; [|destruct Hx; auto].
      cbn [map app]. f_equal. f_equal. f_equal. unfold fword. subst begin. rewrite slice_end, (proj1 (Hsk next Hnle)), map_app, combine_fst, map_app, combine_snd by (rewrite !skipn_length; lia).
      cbn [map fst snd]. rewrite <- Hp. reflexivity.
    + (* S *) rewrite Ht1. cbn [bind]. rewrite (Hbs (or_intror eq_refl)) in *.
      destruct (Hout begin (string_of_rune a, state_pos t)) as [->|Hx]; [|destruct Hx; auto]. cbn [map app]. f_equal. f_equal. f_equal.
      unfold fword. rewrite (skipn_all2 tpre) by lia. rewrite combine_nil. cbn. rewrite app_nil_r. reflexivity.
Qed.

Lemma path_words_concat : forall rs path, length path = length rs -> concat (map fst (path_words rs path)) = string_of_runes rs /\ Forall (fun w => fst w <> []) (path_words rs path).
Proof.
  intros rs path Hl. unfold path_words. rewrite map_map. cbn [fst]. split.
  - assert (G : forall ws : list (list (rune * Z)), concat (map (fun w => string_of_runes (map fst w)) ws) = string_of_runes (map fst (concat ws))).
    { induction ws as [|w ws IH]; [reflexivity|]. cbn [map concat]. rewrite IH, map_app, string_app. reflexivity. }
    rewrite G, cut_concat. cbn [app]. rewrite map_length, firstn_all2 by (rewrite combine_length; lia). rewrite combine_fst by lia. reflexivity.
  - apply Forall_map. eapply Forall_impl; [|apply cut_nonempty]. intros w Hw. cbn [fst]. apply string_nonempty. destruct w; [congruence|discriminate].
Qed.

Section Cut.
  Variable E : env.
  Hypothesis HE : ar E = ieee.
  Variable em : Z -> rune -> option (f64 E).
  Hypothesis Hem : emit_ok em.
  Let tb := builtin em.

  Lemma detail_internal_ok : forall od text, orders_ok od -> text <> [] ->
    exists path, pos_viterbi tb od (runes_of text) = Ok path /\ length path = length (runes_of text) /\
      detail_internal tb od text = Ok (path_words (runes_of text) path).
  Proof.
    intros od text Ho Hne. destruct (c36 HE Hem Ho (runes_ne Hne)) as (path & H1 & H2 & H3 & H4 & H5). exists path. split; [exact H1|]. split; [exact H2|].
    unfold detail_internal. fold tb in H1. rewrite H1. cbn [bind].
    pose proof (@detail_loop_ok (runes_of text) path [] [] [] 0 0 [] eq_refl (Logic.eq_sym H2)) as K. cbn [app length] in K. unfold finish in K. rewrite K; [reflexivity| |exact H5|right; auto].
    eapply Forall_impl; [|exact H3]. intros t [T1 T2]. unfold state_ok. apply Nat.ltb_lt in T2. rewrite T2. lia.
  Qed.

  Definition whole (s : bytes) (ws : list (bytes * bytes)) : Prop := concat (map fst ws) = s /\ Forall (fun w => fst w <> []) ws.
  Lemma whole_app : forall s t ws us, whole s ws -> whole t us -> whole (s ++ t) (ws ++ us).
  Proof. intros s t ws us [H1 H2] [H3 H4]. split; [rewrite map_app, concat_app; congruence|apply Forall_app; auto]. Qed.

  Lemma concat_blocks : forall (F : nat * bytes -> res (list (bytes * bytes))) blks k, (forall i blk, In blk blks -> exists ws, F (i, blk) = Ok ws /\ whole blk ws) ->
    exists ws, concat_res (map F (combine (seq k (length blks)) blks)) = Ok ws /\ whole (concat blks) ws.
  Proof.
    intros F. induction blks as [|b blks IH]; intros k H; [exists []; split; [reflexivity|split; [reflexivity|constructor]]|].
    cbn [length seq combine map concat_res concat]. destruct (H k b (or_introl eq_refl)) as (ws & W1 & W2). rewrite W1. cbn [bind].
    destruct (IH (S k)) as (us & U1 & U2); [intros i blk Hb; apply H; right; exact Hb|]. rewrite U1. cbn [bind]. exists (ws ++ us). split; [reflexivity|apply whole_app; assumption].
  Qed.

  Lemma other_whole : forall xs, whole (concat xs) (flat_map detail_other xs).
  Proof.
    induction xs as [|x xs IH]; [split; [reflexivity|constructor]|]. cbn [concat flat_map]. apply whole_app; [|exact IH].
    destruct x; [split; [reflexivity|constructor]|]. split; [cbn; rewrite app_nil_r; reflexivity|]. repeat constructor. discriminate.
  Qed.

  Lemma matches_ne : forall p s, matches (reg_run p) s = true -> s <> [].
  Proof. intros p s H ->. discriminate. Qed.

  Lemma cut_detail_ok : forall od text, (forall i, orders_ok (od i)) -> valid text -> exists ws, cut_detail tb od text = Ok ws /\ whole text ws.
  Proof.
    intros od text Ho Hv. unfold cut_detail. destruct (run_wf (is_han E)) as [R1 R2]. destruct (split_by_ok text R1 R2) as (blks & B1 & B2 & B3). rewrite B1. cbn [bind].
    specialize (B3 (run_rune (p := is_han E)) Hv). rewrite Forall_forall in B3. pose proof (@concat_blocks (fun ib : nat * bytes => let (i, blk) := ib in
      if matches (reg_run (is_han E)) blk then detail_internal tb (od i) blk else do xs <- split_by re_skip_detail blk ; Ok (flat_map detail_other xs)) blks 0) as K. rewrite B2 in K. apply K.
    intros i blk Hb. destruct (matches (reg_run (is_han E)) blk) eqn:Em.
    - destruct (detail_internal_ok (Ho i) (matches_ne Em)) as (path & _ & P2 & P3). eexists. split; [exact P3|].
      destruct (path_words_concat P2) as [C1 C2]. split; [|exact C2]. rewrite C1. apply roundtrip_iff. apply B3, Hb.
    - destruct skip_detail_wf as [W1 W2]. destruct (split_by_ok blk W1 W2) as (xs & X1 & X2 & _). unfold re_skip_detail. rewrite X1. cbn [bind]. eexists. split; [reflexivity|].
      rewrite <- X2. apply other_whole.
  Qed.

  (** Text of Han characters only. *)
  Lemma cut_detail_han : forall od text, (forall i, orders_ok (od i)) -> text <> [] -> Forall (fun r => is_han E r = true) (runes_of text) ->
    exists path, pos_viterbi tb (od 1) (runes_of text) = Ok path /\ cut_detail tb od text = Ok (path_words (runes_of text) path).
  Proof.
    intros od text Ho Hne H. destruct (detail_internal_ok (Ho 1) Hne) as (path & P1 & P2 & P3). exists path. split; [exact P1|].
    assert (Hm : reg_run (is_han E) text = Some (0, length text)).
    { unfold reg_run, runes_of in *. rewrite Forall_map in H.
      assert (H1 : take_while (fun u : rune * bytes => negb (is_han E (fst u))) (units text) = []) by (destruct (units text); [reflexivity|]; inversion_clear H; cbn; rewrite H0; reflexivity).
      rewrite H1. cbn [length skipn map concat].
      assert (H2 : take_while (fun u : rune * bytes => is_han E (fst u)) (units text) = units text) by (clear -H; induction H as [|u us Hu H IH]; [reflexivity|]; cbn; rewrite Hu, IH; reflexivity).
      rewrite H2, units_concat. rewrite (units_cons Hne). reflexivity. }
    unfold cut_detail. unfold split_by at 1. destruct (length text) as [|n] eqn:El; [destruct text; [congruence|discriminate]|].
    assert (Hf : find_all (S n) (reg_run (is_han E)) text 0 = [(0, length text)]).
    { cbn [find_all]. rewrite Hm, <- El, skipn_all. cbn [plus]. destruct n; reflexivity. }
    rewrite <- El in *. rewrite Hf. rewrite split_pieces; [|lia|cbn; lia|repeat constructor; cbn; lia]. cbn [pieces bind length seq combine map].
    rewrite slice_nil, slice0, firstn_all, skipn_all. cbn [concat_res]. assert (Em : matches (reg_run (is_han E)) text = true) by (unfold matches; rewrite Hm; reflexivity).
    rewrite Em, P3. change (matches (reg_run (is_han E)) []) with false. cbn iota. change (split_by re_skip_detail []) with (Ok [[]] : res (list bytes)). cbn [bind flat_map detail_other app].
    rewrite app_nil_r. reflexivity.
  Qed.
End Cut.

(** ** The dictionary *)
Section Dict.
  Variable E : env.
  Variable c0 : cfg.
  Variable d : dict E.
  Hypothesis Hi : dict_inv c0 d.

  Lemma pos_dict_ok : forall w, pos_dict_pos d w = Ok (match dict_value d w with
      | Some (S v) => match nth_error (d_tokens d) (S v) with Some t => (t_pos t, true) | None => ([], false) end
      | _ => ([], false) end).
  Proof.
    intro w. unfold pos_dict_pos. destruct (dict_value d w) as [[|v]|] eqn:Ev; [reflexivity| |reflexivity].
    rewrite dict_value_get in Ev. destruct (ok_entry (inv_ok Hi) Ev) as (t & T1 & _). assert (Hg : get (d_tokens d) (S v) = Ok t) by (apply get_Ok; exact T1).
    rewrite Hg, T1. reflexivity.
  Qed.
  Lemma tagged_ok : forall w, tagged d w = Ok (w, word_pos d w).
  Proof.
    intro w. unfold tagged, word_pos. rewrite pos_dict_ok. cbn [bind]. destruct (dict_value d w) as [[|v]|]; try reflexivity.
    destruct (nth_error (d_tokens d) (S v)); reflexivity.
  Qed.
  Lemma tagged_all_ok : forall rs, tagged_all d rs = Ok (map (fun r => (string_of_rune r, word_pos d (string_of_rune r))) rs).
  Proof. induction rs as [|r rs IH]; [reflexivity|]. cbn [tagged_all map]. rewrite tagged_ok, IH. reflexivity. Qed.

  (** *** cutDAGNoHMM *)
  Lemma eng_end_ok : forall p, eng_end (string_of_runes p) && (length p =? 1) = eng p.
  Proof.
    intros p. destruct p as [|r [|r2 p]]; [reflexivity| |cbn [length Nat.eqb]; rewrite andb_false_r; reflexivity].
    rewrite <- eng_ok. cbn [length Nat.eqb]. rewrite !andb_true_r. unfold string_of_runes. cbn [map concat]. rewrite app_nil_r.
    assert (G : Forall (fun b => is_alnum_b b = false) (string_of_rune r) \/ exists b, string_of_rune r = [b]).
    { unfold string_of_rune. set (q := if scalar r then r else RuneError). assert (Hq : scalar q = true) by (unfold q; destruct (scalar r) eqn:Es; [exact Es|reflexivity]).
      destruct (Z.ltb_spec q 128).
      - right. unfold enc. destruct (Z.ltb_spec q 128); [|lia]. eauto.
      - left. eapply Forall_impl; [|exact (enc_high Hq H)]. cbn beta. intros b Hb. unfold is_alnum_b, ascii_alnum, ascii_upper, ascii_lower, ascii_digit, in_range. lia. }
    unfold eng_end, re_eng. destruct G as [G|(b & ->)]; [|cbn; rewrite orb_false_r; reflexivity].
    assert (G2 : existsb is_alnum_b (string_of_rune r) = false) by (clear -G; induction G as [|b l Hb G IH]; [reflexivity|]; cbn; rewrite Hb; exact IH).
    rewrite G2. apply Forall_rev in G. destruct (rev (string_of_rune r)); [reflexivity|]. inversion_clear G. assumption.
  Qed.

  Definition flushP (buf : list rune) (result : list (bytes * bytes)) : list (bytes * bytes) := match buf with [] => result | _ => result ++ [(string_of_runes buf, str "eng")] end.
  Lemma flushP_runs : forall b result, Forall (fun p => eng p = true) b ->
    flushP (concat b) result = result ++ map (plain_group d) (match b with [] => [] | _ => [(true, b)] end).
  Proof.
    intros b result Hb. destruct b as [|x b]; [cbn; rewrite app_nil_r; reflexivity|]. unfold flushP.
    assert (Hc : concat (x :: b) <> []) by (apply concat_ne; [apply eng_ne; exact Hb|discriminate]).
    unfold plain_group. cbn [map fst snd]. destruct (concat (x :: b)); [congruence|reflexivity].
  Qed.

  Lemma pos_nohmm_ok : forall rs (tl : list (route E)) x ps, follows rs tl x ps -> forall fuel b result, length rs - x <= fuel -> Forall (fun p => eng p = true) b ->
    exists buf res, pos_nohmm_loop d fuel rs tl x (concat b) result = Ok (buf, res) /\ flushP buf res = result ++ map (plain_group d) (runs eng (b ++ ps)).
  Proof.
    intros rs tl x ps H. induction H as [|x ps H1 H2 H3 IH]; intros fuel b result Hf Hb.
    - exists (concat b), result. split; [destruct fuel; cbn [pos_nohmm_loop]; rewrite Nat.leb_refl; reflexivity|].
      rewrite app_nil_r, (flushP_runs result Hb). destruct b; [reflexivity|]. rewrite (@runs_all _ eng) by (auto; discriminate). reflexivity.
    - destruct fuel as [|fuel]; [lia|]. cbn [pos_nohmm_loop]. destruct (Nat.leb_spec (length rs) x); [lia|]. rewrite rslice_ok by lia. cbn [bind].
      rewrite eng_end_ok. set (p := slice rs x (S (route_index tl x))) in *. destruct (eng p) eqn:Ee.
      + destruct (IH fuel (b ++ [p]) result) as (buf & res & K1 & K2); [lia|apply Forall_app; auto|].
        exists buf, res. rewrite concat_app in K1. cbn [concat] in K1. rewrite app_nil_r in K1. split; [exact K1|]. rewrite K2, <- app_assoc. reflexivity.
      + rewrite tagged_ok. cbn [bind]. destruct (IH fuel [] (flushP (concat b) result ++ [(string_of_runes p, word_pos d (string_of_runes p))])) as (buf & res & K1 & K2); [lia|constructor|].
        exists buf, res. split; [exact K1|]. rewrite K2, (@runs_stop _ eng b p ps Hb Ee), (flushP_runs result Hb), map_app. cbn [map app].
        assert (Hg : plain_group d (false, [p]) = (string_of_runes p, word_pos d (string_of_runes p))) by (unfold plain_group; cbn [fst snd concat]; rewrite app_nil_r; reflexivity).
        rewrite Hg, <- !app_assoc. reflexivity.
  Qed.

  Lemma pos_nohmm_cut : forall s, exists tl ps, routes_ok d (lit64 E 0 0) (runes_of s) tl /\ follows (runes_of s) tl 0 ps /\
    pos_cut_nohmm d s = Ok (map (plain_group d) (runs eng ps)).
  Proof.
    intros s. set (rs := runes_of s). destruct (calc_ok Hi (lit64 E 0 0) rs) as (tl & H1 & H2). exists tl.
    destruct (@follows_ex _ d _ rs tl H2 (length rs) 0) as (ps & Hps); [lia|lia|]. exists ps. split; [exact H2|]. split; [exact Hps|].
    unfold pos_cut_nohmm. fold rs. unfold pos_calc. rewrite H1. cbn [bind]. destruct (@pos_nohmm_ok rs tl 0 ps Hps (length rs) [] []) as (buf & res & K1 & K2); [lia|constructor|].
    cbn [concat] in K1. rewrite K1. cbn [bind fst snd]. cbn [app] in K2. rewrite <- K2. unfold flushP. destruct buf; reflexivity.
  Qed.

  (** *** cutDAG *)
  Hypothesis HE : ar E = ieee.
  Variable em : Z -> rune -> option (f64 E).
  Hypothesis Hem : emit_ok em.
  Let tb := builtin em.

  Lemma pos_flush_ok : forall od b, (forall i, orders_ok (od i)) -> b <> [] -> Forall (fun p => single p = true) b ->
    exists ws, pos_flush d tb od (concat b) = Ok ws /\ hmm_group d tb (true, b) ws.
  Proof.
    intros od b Ho Hne Hb. destruct (single_concat Hb) as [Hl Hm]. unfold hmm_group. cbn [fst snd andb].
    destruct b as [|x [|y b]]; [congruence| |].
    - inversion_clear Hb. unfold single in H. destruct x as [|r [|]]; try discriminate. cbn [concat app length Nat.leb pos_flush]. rewrite tagged_ok. cbn [bind]. eauto.
    - cbn [length Nat.leb]. destruct (concat (x :: y :: b)) as [|a [|a2 l]] eqn:Ec; try discriminate.
      cbn [pos_flush]. set (t := string_of_runes (a :: a2 :: l)). destruct (find_total Hi t) as (f & p & ok & Hf). rewrite Hf. unfold seg_find in Hf. rewrite Hf. cbn [bind fst snd].
      destruct (cut_detail_ok HE Hem Ho (string_valid (a :: a2 :: l))) as (out & O1 & _). fold t tb in O1. rewrite O1. destruct ok; cbn [negb orb]; [|eauto].
      destruct (eqb64 E f (lit64 E 0 0)); [eauto|]. rewrite tagged_all_ok. eexists. split; [reflexivity|].
      rewrite <- (map_map string_of_rune (fun w => (w, word_pos d w))), Hm, map_map. reflexivity.
  Qed.

  Lemma pos_dag_ok : forall rs (tl : list (route E)) x ps, follows rs tl x ps -> forall fuel od k (b : list (list rune)) result, (forall i j, orders_ok (od i j)) ->
    2 * (length rs - x) + (if b then 0 else 1) <= fuel -> Forall (fun p => single p = true) b ->
    exists buf res, pos_dag_loop d fuel tb od k rs tl x (concat b) result = Ok (buf, res) /\
      forall od', (forall i, orders_ok (od' i)) -> exists o wss, pos_flush d tb od' buf = Ok o /\ res ++ o = result ++ concat wss /\ Forall2 (hmm_group d tb) (runs single (b ++ ps)) wss.
  Proof.
    intros rs tl x ps H. induction H as [|x ps H1 H2 H3 IH]; intros fuel od k b result Ho Hf Hb.
    - exists (concat b), result. split; [destruct fuel; cbn [pos_dag_loop]; rewrite Nat.leb_refl; reflexivity|]. intros od' Ho'. destruct b as [|x b].
      + exists [], []. cbn. auto.
      + destruct (@pos_flush_ok od' (x :: b) Ho') as (ws & F1 & F2); [discriminate|exact Hb|]. exists ws, [ws].
        split; [exact F1|]. split; [cbn [concat]; rewrite app_nil_r; reflexivity|]. rewrite app_nil_r, (@runs_all _ single) by (auto; discriminate). constructor; [exact F2|constructor].
    - assert (Hs : (S (route_index tl x) - x =? 1) = single (slice rs x (S (route_index tl x)))) by (unfold single; rewrite slice_length by lia; reflexivity).
      set (p := slice rs x (S (route_index tl x))) in *.
      (* the step that ends a run *)
      assert (Step : forall fuel k result, 2 * (length rs - x) <= S fuel -> single p = false -> forall b, Forall (fun p => single p = true) b -> length b <> 1 ->
        exists buf res, pos_dag_loop d (S fuel) tb od k rs tl x (concat b) result = Ok (buf, res) /\
          forall od', (forall i, orders_ok (od' i)) -> exists o wss, pos_flush d tb od' buf = Ok o /\ res ++ o = result ++ concat wss /\ Forall2 (hmm_group d tb) (runs single (b ++ p :: ps)) wss).
      { clear fuel k b result Hf Hb. intros fuel k result Hf Ee b Hb Hb1. cbn [pos_dag_loop]. destruct (Nat.leb_spec (length rs) x); [lia|]. rewrite rslice_ok by lia. cbn [bind]. fold p. rewrite Hs, Ee.
        assert (exists ws, pos_flush d tb (od k) (concat b) = Ok ws /\ match b with [] => ws = [] | _ => hmm_group d tb (true, b) ws end) as (ws & F1 & F2).
        { destruct b as [|y b]; [exists []; split; reflexivity|]. apply pos_flush_ok; [apply Ho|discriminate|exact Hb]. }
        assert (Hne1 : match concat b with [_] => False | _ => True end). { pose proof (proj1 (single_concat Hb)) as Hl. destruct (concat b) as [|a1 [|a2 l]]; cbn in Hl; auto. }
        assert (Hfr : 2 * (length rs - S (route_index tl x)) + (if (nil : list (list rune)) then 0 else 1) <= fuel) by (cbn; lia).
        destruct (IH fuel od (S k) [] (result ++ ws ++ [(string_of_runes p, word_pos d (string_of_runes p))]) Ho Hfr) as (buf & res & K1 & K2); [constructor|].
        exists buf, res. split.
        { rewrite F1, tagged_ok. cbn [bind concat] in *. destruct (concat b) as [|a1 [|a2 l]]; [exact K1|destruct Hne1|exact K1]. }
        intros od' Ho'. destruct (K2 od' Ho') as (o & wss & K3 & K4 & K5). exists o, (match b with [] => [] | _ => [ws] end ++ [(string_of_runes p, word_pos d (string_of_runes p))] :: wss). split; [exact K3|]. split.
        * rewrite K4. destruct b; [subst ws|]; cbn [concat app]; rewrite <- !app_assoc; reflexivity.
        * rewrite (@runs_stop _ single b p ps Hb Ee). cbn [app] in K5.
          assert (Hg : hmm_group d tb (false, [p]) [(string_of_runes p, word_pos d (string_of_runes p))]) by (unfold hmm_group; cbn [fst snd andb concat]; rewrite app_nil_r; reflexivity).
          destruct b; cbn [app]; repeat constructor; auto. }
      destruct fuel as [|fuel]; [lia|]. destruct (single p) eqn:Ee.
      + cbn [pos_dag_loop]. destruct (Nat.leb_spec (length rs) x); [lia|]. rewrite rslice_ok by lia. cbn [bind]. fold p. rewrite Hs.
        destruct (IH fuel od k (b ++ [p]) result Ho) as (buf & res & K1 & K2); [destruct (b ++ [p]); lia|apply Forall_app; auto|].
        exists buf, res. rewrite concat_app in K1. cbn [concat] in K1. rewrite app_nil_r in K1. split; [exact K1|]. rewrite <- app_assoc in K2. exact K2.
      + destruct (Nat.eq_dec (length b) 1) as [Hb1|Hb1]; [|apply (Step fuel k result); auto; destruct b; lia].
        destruct b as [|q [|]]; try discriminate. inversion_clear Hb. unfold single in H. destruct q as [|r [|]]; try discriminate.
        destruct (@pos_flush_ok (od k) [[r]] (Ho k)) as (ws & F1 & F2); [discriminate|repeat constructor|].
        destruct fuel as [|fuel]; [lia|]. destruct (Step fuel (S k) (result ++ ws) ltac:(lia) eq_refl [] ltac:(constructor) ltac:(cbn; lia)) as (buf & res & K1 & K2).
        exists buf, res. split.
        { cbn [pos_dag_loop] in *. cbn [concat app] in *. destruct (Nat.leb_spec (length rs) x); [lia|]. rewrite rslice_ok in * by lia. cbn [bind] in *. fold p in K1 |- *. rewrite Hs in *. rewrite F1. cbn [bind].
          destruct fuel; exact K1. }
        intros od' Ho'. destruct (K2 od' Ho') as (o & wss & K3 & K4 & K5). exists o, (ws :: wss). split; [exact K3|]. split; [rewrite K4; cbn [concat]; rewrite <- app_assoc; reflexivity|].
        cbn [app] in *. assert (Hr : runs single ([r] :: p :: ps) = (true, [[r]]) :: runs single (p :: ps)) by (cbn [runs]; rewrite Ee; reflexivity). rewrite Hr. constructor; assumption.
  Qed.

  Lemma pos_hmm_cut : forall od s, (forall i j, orders_ok (od i j)) -> exists tl ps wss, routes_ok d (lit64 E 0 0) (runes_of s) tl /\ follows (runes_of s) tl 0 ps /\
    pos_cut_dag d tb od s = Ok (concat wss) /\ Forall2 (hmm_group d tb) (runs single ps) wss.
  Proof.
    intros od s Ho. set (rs := runes_of s). destruct (calc_ok Hi (lit64 E 0 0) rs) as (tl & H1 & H2). exists tl.
    destruct (@follows_ex _ d _ rs tl H2 (length rs) 0) as (ps & Hps); [lia|lia|]. exists ps.
    destruct (@pos_dag_ok rs tl 0 ps Hps (2 * length rs) od 1 [] [] Ho) as (buf & res & K1 & K2); [lia|constructor|]. destruct (K2 (od 0) (Ho 0)) as (o & wss & K3 & K4 & K5). exists wss.
    split; [exact H2|]. split; [exact Hps|]. split; [|exact K5].
    unfold pos_cut_dag. fold rs. unfold pos_calc. rewrite H1. cbn [bind]. cbn [concat] in K1. rewrite K1. cbn [bind fst snd]. rewrite K3. cbn [bind]. rewrite K4. reflexivity.
  Qed.
End Dict.
