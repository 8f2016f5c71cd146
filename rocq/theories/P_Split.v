(** Proofs about SplitTextToWords. *)
From Verif Require Import S_Split P_Utf8.
From Coq Require Import ZifyBool ZifyNat.
Set Implicit Arguments. Unset Strict Implicit.

(** Functional form of the specification. *)
Section Fun.
  Variable E : env.
  Variable c : cfg.

  Definition flush (acc : bytes) : list bytes := match acc with [] => [] | _ => [to_low c acc] end.
  Fixpoint group (acc : bytes) (us : list (rune * bytes)) : list bytes :=
    match us with
    | [] => flush acc
    | u :: t =>
      if alnum_unit E c u then
        if c_alphanum c then to_low c (snd u) :: group [] t
        else group (acc ++ snd u) t
      else flush acc ++ [snd u] ++ group [] t
    end.
  Definition wsplit (s : bytes) : list bytes := group [] (units s).
End Fun.

Lemma bind_ok_r : forall A B (a : A) (f : A -> res B), bind (Ok a) f = f a.
Proof. reflexivity. Qed.

Lemma alnum_decode : forall E c s, s <> [] ->
  alnum_unit E c (fst (decode_rune s), firstn (snd (decode_rune s)) s) =
  (snd (decode_rune s) <=? 2) &&
  ((is_letter E (fst (decode_rune s)) && negb (c_alpha c)) || (is_number E (fst (decode_rune s)) && negb (c_num c))).
Proof.
  intros E c s Hs. unfold alnum_unit. cbn [fst snd].
  pose proof (decode_size Hs). rewrite firstn_length, Nat.min_l by lia. reflexivity.
Qed.

Lemma split_loop_correct : forall E c text fuel current astart inA out,
  length text - current <= fuel -> astart <= current -> current <= length text ->
  (inA = true -> c_alphanum c = false -> current = 0 \/ astart < current) ->
  split_loop E c fuel text current astart inA out =
  Ok (out ++ group E c (if inA && negb (c_alphanum c) then slice text astart current else [])
                   (units (skipn current text))).
Proof.
  intros E c text. induction fuel as [|f IH]; intros current astart inA out Hf Ha Hc Hin.
  - cbn [split_loop]. destruct (Nat.ltb_spec current (length text)); [lia|].
    rewrite skipn_all2 by lia. cbn [units units_fuel length group].
    destruct inA; cbn [andb]; [|rewrite app_nil_r; reflexivity].
    destruct (c_alphanum c) eqn:Ean; cbn [negb]; [rewrite app_nil_r; reflexivity|].
    destruct (Nat.eqb_spec current 0) as [Hz|Hz]; cbn [negb].
    + subst. replace (slice text astart 0) with (@nil byte) by (unfold slice; destruct astart; reflexivity).
      cbn. rewrite app_nil_r; reflexivity.
    + rewrite gslice_ok by lia. cbn [bind]. unfold flush.
      destruct (slice text astart current) eqn:Es; [|reflexivity].
      apply (f_equal (@length _)) in Es. rewrite slice_length in Es by lia. cbn in Es.
      specialize (Hin eq_refl eq_refl). lia.
  - cbn [split_loop]. destruct (Nat.ltb_spec current (length text)) as [Hlt|Hge].
    + assert (Hs : skipn current text <> []).
      { intro Hx. apply (f_equal (@length _)) in Hx. rewrite skipn_length in Hx. cbn in Hx. lia. }
      rewrite (units_cons Hs). pose proof (decode_size Hs) as [[Hp _] Hl]. rewrite skipn_length in Hl.
      cbv zeta. cbn [group]. rewrite alnum_decode by exact Hs.
      set (r := fst (decode_rune (skipn current text))) in *.
      set (n := snd (decode_rune (skipn current text))) in *.
      rewrite skipn_skipn, (Nat.add_comm n current). cbn [snd].
      rewrite <- slice_skipn.
      destruct ((n <=? 2) && (is_letter E r && negb (c_alpha c) || is_number E r && negb (c_num c))) eqn:Ecls.
      * destruct (c_alphanum c) eqn:Ean.
        -- rewrite gslice_ok by lia. cbn [bind].
           rewrite IH; [|lia|destruct inA; lia|lia|intros; congruence].
           cbn [negb andb]. rewrite <- app_assoc. reflexivity.
        -- cbn [bind]. rewrite IH; [|lia|destruct inA; lia|lia|intros; destruct inA; lia].
           cbn [negb andb]. rewrite andb_true_r. f_equal. f_equal. f_equal.
           destruct inA; [rewrite slice_app by lia; reflexivity|reflexivity].
      * assert (Hout : (if inA then if negb (current =? 0) && negb (c_alphanum c)
                     then do w <- gslice text astart current; Ok (out ++ [to_low c w]) else Ok out else Ok out)
                = Ok (out ++ flush c (if inA && negb (c_alphanum c) then slice text astart current else []))).
        { destruct inA; cbn [andb]; [|cbn; rewrite app_nil_r; reflexivity].
          destruct (c_alphanum c) eqn:Ean; cbn [negb].
          - rewrite andb_false_r. cbn. rewrite app_nil_r; reflexivity.
          - rewrite andb_true_r. destruct (Nat.eqb_spec current 0) as [Hz|Hz]; cbn [negb].
            + replace (slice text astart current) with (@nil byte)
                by (unfold slice; replace (current - astart) with 0 by lia; reflexivity).
              cbn. rewrite app_nil_r; reflexivity.
            + rewrite gslice_ok by lia. cbn [bind]. unfold flush.
              destruct (slice text astart current) eqn:Es; [|reflexivity].
              apply (f_equal (@length _)) in Es. rewrite slice_length in Es by lia. cbn in Es.
              specialize (Hin eq_refl eq_refl). lia. }
        rewrite Hout. cbn [bind]. rewrite gslice_ok by lia. cbn [bind].
        rewrite IH; [|lia|lia|lia|intros; congruence]. cbn [andb].
        rewrite <- !app_assoc. reflexivity.
    + rewrite skipn_all2 by lia. cbn [units units_fuel length group].
      destruct inA; cbn [andb]; [|rewrite app_nil_r; reflexivity].
      destruct (c_alphanum c) eqn:Ean; cbn [negb]; [rewrite app_nil_r; reflexivity|].
      destruct (Nat.eqb_spec current 0) as [Hz|Hz]; cbn [negb].
      * subst. replace (slice text astart 0) with (@nil byte) by (unfold slice; destruct astart; reflexivity).
        cbn. rewrite app_nil_r; reflexivity.
      * rewrite gslice_ok by lia. cbn [bind]. unfold flush.
        destruct (slice text astart current) eqn:Es; [|reflexivity].
        apply (f_equal (@length _)) in Es. rewrite slice_length in Es by lia. cbn in Es.
        specialize (Hin eq_refl eq_refl). lia.
Qed.

Theorem split_words_eq : forall E c s, split_words E c s = Ok (wsplit E c s).
Proof.
  intros E c s. unfold split_words. rewrite split_loop_correct; [|lia|lia|lia|lia].
  unfold wsplit. cbn [skipn List.app]. rewrite slice_nil. destruct (true && negb (c_alphanum c)); reflexivity.
Qed.

(* ---- lower-casing ---- *)

Lemma to_lower_length : forall s, length (to_lower s) = length s.
Proof. intro; unfold to_lower; apply map_length. Qed.
Lemma small_eq : forall b, small b = lower_byte b.
Proof. intro b. destruct b; reflexivity. Qed.
Lemma norm_unit_eq : forall E c u, norm_unit E c u = if alnum_unit E c u then to_low c (snd u) else snd u.
Proof.
  intros E c u. unfold norm_unit, to_low, to_lower. destruct (alnum_unit E c u), (c_lower c); try reflexivity. apply map_ext, small_eq.
Qed.
Lemma to_low_length : forall c s, length (to_low c s) = length s.
Proof. intros c s; unfold to_low; destruct (c_lower c); [apply to_lower_length|reflexivity]. Qed.
Lemma to_low_app : forall c s t, to_low c (s ++ t) = to_low c s ++ to_low c t.
Proof. intros c s t; unfold to_low, to_lower; destruct (c_lower c); [apply map_app|reflexivity]. Qed.
Lemma to_low_nil : forall c, to_low c [] = [].
Proof. intro c; unfold to_low; destruct (c_lower c); reflexivity. Qed.

Lemma lower_byte_idem : forall b, lower_byte (lower_byte b) = lower_byte b.
Proof.
  intro b. pose proof (bz_range b). unfold lower_byte at 2 3. unfold in_range.
  destruct ((65 <=? bz b)%Z && (bz b <=? 90)%Z) eqn:Eb.
  - unfold lower_byte, in_range. rewrite bz_zb by lia.
    destruct ((65 <=? bz b - 65 + 97)%Z && (bz b - 65 + 97 <=? 90)%Z) eqn:E2; [lia|reflexivity].
  - unfold lower_byte, in_range. rewrite Eb. reflexivity.
Qed.
Lemma to_low_idem : forall c s, to_low c (to_low c s) = to_low c s.
Proof.
  intros c s; unfold to_low; destruct (c_lower c); [|reflexivity].
  unfold to_lower. rewrite map_map. apply map_ext. apply lower_byte_idem.
Qed.
Lemma to_low_concat : forall c l, to_low c (concat l) = concat (map (to_low c) l).
Proof.
  induction l as [|a l IH]; [apply to_low_nil|]. cbn. rewrite to_low_app, IH. reflexivity.
Qed.

(* ---- C10 ---- *)

Lemma group_concat : forall E c us acc, (c_alphanum c = true -> acc = []) ->
  concat (group E c acc us) = to_low c acc ++ concat (map (norm_unit E c) us).
Proof.
  intros E c; induction us as [|u us IH]; intros acc Hacc; cbn [group map concat].
  - rewrite app_nil_r. destruct acc; cbn; [rewrite to_low_nil; reflexivity|rewrite app_nil_r; reflexivity].
  - rewrite norm_unit_eq. destruct (alnum_unit E c u).
    + destruct (c_alphanum c) eqn:Ean.
      * rewrite (Hacc eq_refl), to_low_nil. cbn [concat List.app]. rewrite IH, to_low_nil by auto. reflexivity.
      * rewrite IH by congruence. rewrite to_low_app, app_assoc. reflexivity.
    + rewrite concat_app. cbn [List.app concat]. rewrite IH, to_low_nil by auto. cbn [List.app].
      f_equal. destruct acc; cbn; [rewrite to_low_nil; reflexivity|rewrite app_nil_r; reflexivity].
Qed.

Lemma split_concat : forall E c s, concat (wsplit E c s) = norm E c s.
Proof. intros. unfold wsplit. rewrite group_concat by auto. rewrite to_low_nil. reflexivity. Qed.

Lemma group_nonempty : forall E c us acc, Forall (fun u => snd u <> []) us ->
  Forall (fun w => w <> []) (group E c acc us).
Proof.
  intros E c; induction us as [|u us IH]; intros acc Hu; cbn [group].
  - destruct acc as [|b acc]; constructor; [|constructor].
    intro Hx. apply (f_equal (@length _)) in Hx. rewrite to_low_length in Hx. discriminate.
  - inversion Hu; subst. destruct (alnum_unit E c u).
    + destruct (c_alphanum c); [|auto]. constructor; [|auto].
      intro Hx. apply (f_equal (@length _)) in Hx. rewrite to_low_length in Hx.
      apply length_zero_iff_nil in Hx. contradiction.
    + apply Forall_app. split.
      * destruct acc as [|b acc]; constructor; [|constructor].
        intro Hx. apply (f_equal (@length _)) in Hx. rewrite to_low_length in Hx. discriminate.
      * constructor; auto.
Qed.

Lemma split_nonempty : forall E c s, Forall (fun w => w <> []) (wsplit E c s).
Proof. intros. apply group_nonempty, units_nonempty. Qed.

Lemma norm_length : forall E c s, length (norm E c s) = length s.
Proof.
  intros E c s. unfold norm. transitivity (length (concat (map snd (units s)))).
  - induction (units s) as [|u us IH]; [reflexivity|]. cbn. rewrite !app_length, IH. f_equal.
    rewrite norm_unit_eq. destruct (alnum_unit E c u); [apply to_low_length|reflexivity].
  - rewrite units_concat. reflexivity.
Qed.

Lemma norm_off : forall E c s, c_lower c = false -> norm E c s = s.
Proof.
  intros E c s H. unfold norm. transitivity (concat (map snd (units s))); [|apply units_concat].
  f_equal. apply map_ext. intro u. rewrite norm_unit_eq. unfold to_low. rewrite H. destruct (alnum_unit E c u); reflexivity.
Qed.

(** Every byte is itself or its ASCII lower-case. *)
Lemma norm_bytes : forall E c s, Forall2 (fun b b' => b' = b \/ b' = small b) s (norm E c s).
Proof.
  intros E c s. rewrite <- (units_concat s) at 1. unfold norm.
  induction (units s) as [|u us IH]; cbn; [constructor|]. apply Forall2_app; [|exact IH].
  rewrite norm_unit_eq. unfold to_low. destruct (alnum_unit E c u), (c_lower c).
  - unfold to_lower. induction (snd u); cbn; constructor; rewrite ?small_eq; auto.
  - induction (snd u); constructor; auto.
  - induction (snd u); constructor; auto.
  - induction (snd u); constructor; auto.
Qed.

(* ---- C11 ---- *)

Lemma norm_group_alnum : forall E c us, Forall (fun u => alnum_unit E c u = true) us ->
  concat (map (norm_unit E c) us) = to_low c (concat (map snd us)).
Proof.
  intros E c us H. rewrite to_low_concat, map_map. f_equal.
  induction H as [|u us Hu H IH]; [reflexivity|]. cbn. rewrite IH. rewrite norm_unit_eq. rewrite Hu. reflexivity.
Qed.

Lemma flush_run : forall E c us, us <> [] -> Forall (fun u => snd u <> []) us ->
  Forall (fun u => alnum_unit E c u = true) us ->
  flush c (concat (map snd us)) = [concat (map (norm_unit E c) us)].
Proof.
  intros E c us H1 H2 H3. rewrite (@norm_group_alnum E c _ H3). unfold flush.
  destruct us as [|u us]; [congruence|]. inversion H2; subst.
  cbn [map concat]. destruct (snd u) eqn:Eu; [congruence|reflexivity].
Qed.

Lemma group_is_split : forall E c us acc,
  (c_alphanum c = true -> acc = []) -> Forall (fun u => snd u <> []) (acc ++ us) ->
  Forall (fun u => alnum_unit E c u = true) acc ->
  exists gs a, groups E c gs a /\ concat gs = acc ++ us /\
    group E c (concat (map snd acc)) us = map (fun g => concat (map (norm_unit E c) g)) gs /\
    (acc <> [] -> a = true).
Proof.
  intros E c; induction us as [|u us IH]; intros acc Han Hne Hal.
  - destruct acc as [|v acc].
    + exists [], false. repeat apply conj; [constructor|reflexivity|reflexivity|congruence].
    + destruct (c_alphanum c) eqn:Ean; [discriminate (Han eq_refl)|].
      exists [v :: acc], true. repeat apply conj.
      * eapply gs_cons; [apply wg_run; [exact Ean|congruence|exact Hal]|apply gs_nil|congruence].
      * cbn [concat]. reflexivity.
      * cbn [group]. rewrite app_nil_r in Hne. apply flush_run; [congruence|assumption|assumption].
      * auto.
  - cbn [group]. destruct (alnum_unit E c u) eqn:Eu.
    + destruct (c_alphanum c) eqn:Ean.
      * rewrite (Han eq_refl) in *. cbn [List.app] in *.
        destruct (IH [] ltac:(auto) ltac:(inversion Hne; auto) ltac:(constructor)) as (gs & a & H1 & H2 & H3 & _).
        exists ([u] :: gs), true. repeat apply conj.
        -- eapply gs_cons; [apply wg_single; auto|exact H1|congruence].
        -- cbn. cbn in H2. rewrite H2. reflexivity.
        -- cbn [map]. cbn [map concat] in H3. rewrite H3. f_equal. cbn [concat].
           rewrite app_nil_r. rewrite norm_unit_eq. rewrite Eu. reflexivity.
        -- auto.
      * destruct (IH (acc ++ [u])) as (gs & a & H1 & H2 & H3 & H4).
        -- congruence.
        -- rewrite <- app_assoc. exact Hne.
        -- apply Forall_app; auto.
        -- exists gs, a. rewrite <- app_assoc in H2. cbn in H2. repeat apply conj; auto.
           ++ rewrite <- H3. rewrite map_app, concat_app. cbn. rewrite app_nil_r. reflexivity.
           ++ intros _. apply H4. destruct acc; cbn; congruence.
    + destruct (IH [] ltac:(auto) ltac:(cbn; apply Forall_app in Hne as [_ Hne]; inversion Hne; auto) ltac:(constructor))
        as (gs & a & H1 & H2 & H3 & _). cbn [List.app] in H2. cbn [map concat] in H3.
      assert (Hg : groups E c ([u] :: gs) false).
      { eapply gs_cons; [apply wg_other; exact Eu|exact H1|congruence]. }
      assert (Hr : snd u :: group E c [] us = map (fun g => concat (map (norm_unit E c) g)) ([u] :: gs)).
      { cbn [map concat]. rewrite H3. f_equal. rewrite norm_unit_eq. rewrite Eu, app_nil_r. reflexivity. }
      destruct acc as [|v acc].
      * exists ([u] :: gs), false. repeat apply conj; [exact Hg|cbn; rewrite H2; reflexivity| |congruence].
        cbn [map concat flush List.app]. exact Hr.
      * destruct (c_alphanum c) eqn:Ean; [discriminate (Han eq_refl)|].
        exists ((v :: acc) :: [u] :: gs), true. repeat apply conj.
        -- eapply gs_cons; [apply wg_run; [exact Ean|congruence|exact Hal]|exact Hg|congruence].
        -- cbn [concat]. rewrite H2. reflexivity.
        -- set (va := v :: acc) in *. cbn [map] in *.
           change (map snd va) with (map snd va).
           assert (Hfl : flush c (concat (map snd va)) = [concat (map (norm_unit E c) va)]).
           { apply flush_run; [unfold va; congruence| |exact Hal]. apply Forall_app in Hne as [Hne _]. exact Hne. }
           rewrite Hfl. cbn [List.app]. f_equal. exact Hr.
        -- auto.
Qed.

Lemma split_is_split : forall E c s, is_split E c s (wsplit E c s).
Proof.
  intros E c s.
  destruct (@group_is_split E c (units s) [] ltac:(auto) (units_nonempty s) ltac:(constructor))
    as (gs & a & H1 & H2 & H3 & _).
  exists gs, a. auto.
Qed.

(** The specification determines the words. *)
Lemma groups_unique : forall E c gs1 a1, groups E c gs1 a1 -> forall gs2 a2, groups E c gs2 a2 ->
  concat gs1 = concat gs2 -> gs1 = gs2.
Proof.
  assert (Hne : forall E c g a, word_group E c g a -> g <> []).
  { intros E c g a H; inversion H; congruence. }
  assert (Hhd : forall E c u g a, word_group E c (u :: g) a -> alnum_unit E c u = a).
  { intros E c u g a H; inversion H; subst; auto. inversion H2; auto. }
  assert (Hgs : forall E c gs a, groups E c gs a -> forall u t, concat gs = u :: t -> alnum_unit E c u = a).
  { intros E c gs a H u t Hc. inversion H; subst; [discriminate|].
    destruct g as [|v g]; [apply Hne in H0; congruence|]. inversion Hc; subst. eapply Hhd; eassumption. }
  intros E c gs1 a1 H. induction H as [|g1 a1 gs1 b1 Hw1 Hg1 IH Hadj1]; intros gs2 a2 H2 Hc.
  - inversion H2; subst; [reflexivity|]. exfalso. destruct g; [exact (Hne _ _ _ _ H eq_refl)|discriminate Hc].
  - inversion H2; subst; [exfalso; destruct g1; [exact (Hne _ _ _ _ Hw1 eq_refl)|discriminate Hc]|].
    rename g into g2, gs into gs2, H into Hw2, H0 into Hg2, H1 into Hadj2.
    cbn in Hc.
    assert (Hlen : length g1 = length g2).
    { assert (Hpre : forall g a g' a' r r', word_group E c g a -> word_group E c g' a' ->
                 g ++ r = g' ++ r' -> length g < length g' ->
                 (forall u t, r = u :: t -> a = true -> c_alphanum c = false -> alnum_unit E c u = false) -> False).
      { intros g a g' a' r r' Hg Hg' He Hl Hr.
        inversion Hg'; subst; cbn in Hl.
        - destruct g; [exact (Hne _ _ _ _ Hg eq_refl)|cbn in Hl; lia].
        - destruct g; [exact (Hne _ _ _ _ Hg eq_refl)|cbn in Hl; lia].
        - assert (Hin : exists u t, r = u :: t /\ In u g').
          { assert (Hsk : r = skipn (length g) g' ++ r').
            { apply (f_equal (skipn (length g))) in He. rewrite !skipn_app, Nat.sub_diag, skipn_all in He.
              cbn in He. replace (length g - length g') with 0 in He by lia. exact He. }
            destruct (skipn (length g) g') as [|u t] eqn:Es.
            { apply (f_equal (@length _)) in Es. rewrite skipn_length in Es. cbn in Es. lia. }
            exists u, (t ++ r'). split; [rewrite Hsk; reflexivity|].
            rewrite <- (firstn_skipn (length g) g'), Es. apply in_or_app; right; left; reflexivity. }
          destruct Hin as (u & t & -> & Hin).
          assert (Hu : alnum_unit E c u = true) by (rewrite Forall_forall in H1; apply H1; exact Hin).
          destruct a.
          + rewrite (Hr u t eq_refl eq_refl H) in Hu. discriminate.
          + inversion Hg; subst. destruct g' as [|v g']; [congruence|]. cbn in He. inversion He; subst.
            inversion H1; subst. congruence. }
      destruct (Nat.lt_trichotomy (length g1) (length g2)) as [Hl|[Hl|Hl]]; [exfalso| exact Hl|exfalso].
      - eapply (@Hpre g1 a1 g2 a2); eauto. intros u t Hr Ha Han. subst a1.
        pose proof (Hgs _ _ _ _ Hg1 _ _ Hr) as Hb. destruct b1; [exfalso; auto|exact Hb].
      - eapply (@Hpre g2 a2 g1 a1); eauto. intros u t Hr Ha Han. subst a2.
        pose proof (Hgs _ _ _ _ Hg2 _ _ Hr) as Hb. destruct b; [exfalso; auto|exact Hb]. }
    assert (Hg : g1 = g2).
    { apply (f_equal (firstn (length g1))) in Hc. rewrite firstn_app, Nat.sub_diag, firstn_all, firstn_O, app_nil_r in Hc.
      rewrite Hlen, firstn_app, Nat.sub_diag, firstn_all, firstn_O, app_nil_r in Hc. exact Hc. }
    subst g2. apply app_inv_head in Hc. f_equal. eapply IH; eauto.
Qed.

Lemma is_split_unique : forall E c s ws ws', is_split E c s ws -> is_split E c s ws' -> ws = ws'.
Proof.
  intros E c s ws ws' (g & a & H1 & H2 & ->) (g' & a' & H1' & H2' & ->).
  f_equal. eapply groups_unique; [exact H1|exact H1'|congruence].
Qed.

(* ---- C12: stability ---- *)

(** Bytes related by changing one ASCII byte to another. *)
Definition brel (b b' : byte) : Prop := b = b' \/ ((bz b < 128)%Z /\ (bz b' < 128)%Z).

Lemma brel_refl : forall s, Forall2 brel s s.
Proof. induction s; constructor; [left; reflexivity|auto]. Qed.

Lemma brel_range : forall lo hi b b', brel b b' -> (128 <= lo)%Z -> in_range lo hi (bz b) = in_range lo hi (bz b').
Proof. intros lo hi b b' [->|[H1 H2]] Hlo; [reflexivity|]. unfold in_range. lia. Qed.

Lemma brel_cont : forall b b', brel b b' -> cont b = cont b'.
Proof. intros. unfold cont. apply brel_range; [assumption|lia]. Qed.

Lemma brel_eq : forall b b', brel b b' -> cont b = true -> b = b'.
Proof. intros b b' [->|[H1 H2]] Hc; [reflexivity|]. unfold cont, in_range in Hc. lia. Qed.

Lemma brel_eq_r : forall lo hi b b', brel b b' -> (128 <= lo)%Z -> in_range lo hi (bz b) = true -> b = b'.
Proof. intros lo hi b b' [->|[H1 H2]] Hlo Hc; [reflexivity|]. unfold in_range in Hc. lia. Qed.

Lemma decode_rel : forall s s', Forall2 brel s s' ->
  snd (decode_rune s) = snd (decode_rune s') /\
  (fst (decode_rune s) = fst (decode_rune s') \/
   exists b b' t t', s = b :: t /\ s' = b' :: t' /\ (bz b < 128)%Z /\ (bz b' < 128)%Z).
Proof.
  intros s s' H. destruct H as [|b b' t t' Hb Ht]; [cbn; auto|].
  destruct Hb as [->|[Hb1 Hb2]].
  - unfold decode_rune. cbv zeta.
    destruct (Z.ltb_spec (bz b') 128); [cbn; auto|].
    destruct (bz b' <? 194)%Z; [cbn; auto|].
    destruct (bz b' <? 224)%Z.
    { destruct Ht as [|c1 c1' t t' Hc1 Ht]; [cbn; auto|].
      rewrite <- (brel_cont Hc1). destruct (cont c1) eqn:Ec; [|cbn; auto].
      rewrite (brel_eq Hc1 Ec). cbn; auto. }
    destruct (bz b' <? 240)%Z.
    { destruct Ht as [|c1 c1' t t' Hc1 Ht]; [cbn; auto|].
      destruct Ht as [|c2 c2' t t' Hc2 Ht]; [cbn; auto|].
      assert (Hlo : (128 <= (if (bz b' =? 224)%Z then 160 else 128))%Z) by (destruct (bz b' =? 224)%Z; lia).
      rewrite <- (brel_cont Hc2), <- (@brel_range _ (if (bz b' =? 237)%Z then 159 else 191)%Z _ _ Hc1 Hlo).
      match goal with |- context [if ?x then _ else _] => destruct x eqn:Ex end; [|cbn; auto].
      apply andb_prop in Ex as [Ex1 Ex2].
      rewrite (brel_eq_r Hc1 Hlo Ex1), (brel_eq Hc2 Ex2). cbn; auto. }
    destruct (bz b' <? 245)%Z; [|cbn; auto].
    destruct Ht as [|c1 c1' t t' Hc1 Ht]; [cbn; auto|].
    destruct Ht as [|c2 c2' t t' Hc2 Ht]; [cbn; auto|].
    destruct Ht as [|c3 c3' t t' Hc3 Ht]; [cbn; auto|].
    assert (Hlo : (128 <= (if (bz b' =? 240)%Z then 144 else 128))%Z) by (destruct (bz b' =? 240)%Z; lia).
    rewrite <- (brel_cont Hc2), <- (brel_cont Hc3), <- (@brel_range _ (if (bz b' =? 244)%Z then 143 else 191)%Z _ _ Hc1 Hlo).
    match goal with |- context [if ?x then _ else _] => destruct x eqn:Ex end; [|cbn; auto].
    apply andb_prop in Ex as [Ex Ex3]. apply andb_prop in Ex as [Ex1 Ex2].
    rewrite (brel_eq_r Hc1 Hlo Ex1), (brel_eq Hc2 Ex2), (brel_eq Hc3 Ex3). cbn; auto.
  - unfold decode_rune. cbv zeta.
    destruct (Z.ltb_spec (bz b) 128); [|lia]. destruct (Z.ltb_spec (bz b') 128); [|lia].
    cbn. split; [reflexivity|]. right. exists b, b', t, t'. auto.
Qed.

(** Rewriting ASCII units of a string to other ASCII units keeps the unit structure. *)
Definition urel (u v : rune * bytes) : Prop :=
  u = v \/ exists b b', u = (bz b, [b]) /\ v = (bz b', [b']) /\ (bz b < 128)%Z /\ (bz b' < 128)%Z.

Lemma urel_brel : forall us vs, Forall2 urel us vs -> Forall2 brel (concat (map snd us)) (concat (map snd vs)).
Proof.
  intros us vs H; induction H as [|u v us vs Hu H IH]; [constructor|].
  cbn. apply Forall2_app; [|exact IH]. destruct Hu as [->|(b & b' & -> & -> & H1 & H2)]; [apply brel_refl|].
  cbn. constructor; [right; auto|constructor].
Qed.

Lemma units_urel : forall us vs s, Forall2 urel us vs -> units s = us -> units (concat (map snd vs)) = vs.
Proof.
  intros us vs s H; revert s; induction H as [|u v us vs Hu H IH]; intros s Hs; [reflexivity|].
  pose proof (urel_brel (Forall2_cons _ _ Hu H)) as Hb.
  assert (Hsc : concat (map snd (u :: us)) = s) by (rewrite <- Hs; apply units_concat).
  rewrite Hsc in Hb.
  assert (Hne : s <> []) by (intro Hx; rewrite Hx in Hs; discriminate).
  rewrite (units_cons Hne) in Hs.
  assert (Hu1 : u = (fst (decode_rune s), firstn (snd (decode_rune s)) s)) by congruence.
  assert (Hus : units (skipn (snd (decode_rune s)) s) = us) by congruence.
  destruct (decode_rel Hb) as [Hsz Hr].
  set (s' := concat (map snd (v :: vs))) in *.
  assert (Hne' : s' <> []).
  { intro Hx. rewrite Hx in Hb. inversion Hb. subst; congruence. }
  pose proof (decode_size Hne) as [[Hp _] Hl].
  rewrite (units_cons Hne'). rewrite <- Hsz.
  assert (Hlv : length (snd v) = snd (decode_rune s)).
  { transitivity (length (snd u)).
    - destruct Hu as [->|(b & b' & -> & -> & _)]; reflexivity.
    - rewrite Hu1. cbn [snd]. rewrite firstn_length. lia. }
  assert (Hs' : s' = snd v ++ concat (map snd vs)) by reflexivity.
  assert (Hv1 : firstn (snd (decode_rune s)) s' = snd v).
  { rewrite Hs', <- Hlv, firstn_app, Nat.sub_diag, firstn_O, app_nil_r, firstn_all. reflexivity. }
  assert (Hv2 : skipn (snd (decode_rune s)) s' = concat (map snd vs)).
  { rewrite Hs', <- Hlv, skipn_app, Nat.sub_diag, skipn_all. reflexivity. }
  rewrite Hv1, Hv2, (IH _ Hus). f_equal.
  rewrite (surjective_pairing v) at 2. f_equal.
  destruct Hu as [->|(b & b' & Hub & Hvb & Hb1 & Hb2)].
  - destruct Hr as [Hr|(b & b' & t & t' & Hs1 & Hs2 & Hb1 & Hb2)].
    + rewrite <- Hr. rewrite Hu1. reflexivity.
    + (* same first byte since units are equal *)
      rewrite Hs2. cbn [decode_rune]. destruct (Z.ltb_spec (bz b') 128); [|lia]. cbn [fst].
      assert (Hsz1 : snd (decode_rune s) = 1).
      { rewrite Hs1. cbn [decode_rune]. destruct (Z.ltb_spec (bz b) 128); [reflexivity|lia]. }
      assert (b = b').
      { assert (Hq : snd v = [b]) by (rewrite Hu1; cbn [snd]; rewrite Hsz1, Hs1; reflexivity).
        rewrite Hq in Hs'. rewrite Hs2 in Hs'. cbn in Hs'. congruence. }
      subst b'. rewrite Hu1. cbn [fst]. rewrite Hs1. cbn [decode_rune].
      destruct (Z.ltb_spec (bz b) 128); [reflexivity|lia].
  - rewrite Hs', Hvb. cbn [snd List.app decode_rune fst].
    destruct (Z.ltb_spec (bz b') 128); [reflexivity|lia].
Qed.

Lemma lower_byte_ascii : forall b, (bz b < 128)%Z -> (bz (lower_byte b) < 128)%Z.
Proof.
  intros b H. pose proof (bz_range b). unfold lower_byte, in_range.
  destruct ((65 <=? bz b)%Z && (bz b <=? 90)%Z) eqn:Eb; [|exact H]. rewrite bz_zb by lia. lia.
Qed.

Lemma lower_byte_high : forall b, (128 <= bz b)%Z -> lower_byte b = b.
Proof.
  intros b H. unfold lower_byte, in_range.
  destruct ((65 <=? bz b)%Z && (bz b <=? 90)%Z) eqn:Eb; [lia|reflexivity].
Qed.

(** The bytes of an encoded rune other than ASCII are all >= 128. *)
Lemma decode_unit_high : forall s, s <> [] -> decode_rune s = (fst (decode_rune s), length s) ->
  (exists b, s = [b] /\ fst (decode_rune s) = bz b /\ (bz b < 128)%Z) \/ Forall (fun b => (128 <= bz b)%Z) s.
Proof.
  intros s Hs Hd. destruct (decode_cases Hs Hd) as [[Hsc Henc]|(Hr & Hn & b & t & Hbt & Hb)].
  - rewrite firstn_all in Henc. set (r := fst (decode_rune s)) in *. unfold scalar, in_range in Hsc.
    unfold enc in Henc.
    destruct (Z.ltb_spec r 128).
    + left. exists (zb r). rewrite bz_zb by lia. auto.
    + right. rewrite Henc.
      assert (HH : forall x, (0 <= x < 64)%Z -> (128 <= bz (zb (128 + x)))%Z) by (intros; rewrite bz_zb; lia).
      assert (Hmod : forall x, (128 <= bz (zb (128 + x mod 64)))%Z) by (intro x; apply HH; apply Z.mod_pos_bound; lia).
      destruct (Z.ltb_spec r 2048); [|destruct (Z.ltb_spec r 65536)].
      * repeat constructor; auto. rewrite bz_zb; [lia|]. split; [Z.div_mod_to_equations; lia|].
        Z.div_mod_to_equations; lia.
      * repeat constructor; auto. rewrite bz_zb; Z.div_mod_to_equations; lia.
      * repeat constructor; auto. rewrite bz_zb; Z.div_mod_to_equations; lia.
  - right. subst s. cbn [length] in Hn. destruct t; [|discriminate]. constructor; [exact Hb|constructor].
Qed.

(** The normalised unit. *)
Definition nunit (E : env) (c : cfg) (u : rune * bytes) : rune * bytes :=
  let s := norm_unit E c u in (fst (decode_rune s), s).

Lemma norm_unit_urel : forall E c u, snd u <> [] -> decode_rune (snd u) = (fst u, length (snd u)) ->
  urel u (nunit E c u).
Proof.
  intros E c [r s] Hne Hd. cbn [fst snd] in *. unfold nunit. rewrite !norm_unit_eq. cbn [snd].
  destruct (alnum_unit E c (r, s)).
  - unfold to_low. destruct (c_lower c).
    + destruct (@decode_unit_high s Hne) as [(b & -> & Hb & Hlt)|Hhi].
      * rewrite Hd. reflexivity.
      * right. exists b, (lower_byte b). pose proof (lower_byte_ascii Hlt) as Hl.
        rewrite Hd in Hb. cbn in Hb. subst r. cbn [to_lower map]. cbn [decode_rune].
        destruct (Z.ltb_spec (bz (lower_byte b)) 128); [|lia]. cbn. auto.
      * left. assert (Hs : to_lower s = s).
        { unfold to_lower. clear -Hhi. induction Hhi; [reflexivity|]. cbn. rewrite lower_byte_high, IHHhi by auto. reflexivity. }
        rewrite Hs, Hd. reflexivity.
    + left. rewrite Hd. reflexivity.
  - left. rewrite Hd. reflexivity.
Qed.

Lemma lower_class : forall E b, (bz b < 128)%Z ->
  is_letter E (bz (lower_byte b)) = is_letter E (bz b) /\ is_number E (bz (lower_byte b)) = is_number E (bz b).
Proof.
  intros E b H. pose proof (bz_range b). pose proof (lower_byte_ascii H).
  unfold is_letter, is_number.
  destruct (Z.ltb_spec (bz b) 128); [|lia]. destruct (Z.ltb_spec (bz (lower_byte b)) 128); [|lia].
  unfold lower_byte, ascii_upper, ascii_lower, ascii_digit, in_range in *.
  destruct ((65 <=? bz b)%Z && (bz b <=? 90)%Z) eqn:Eb; [|rewrite ?Eb; auto].
  rewrite bz_zb by lia. split; lia.
Qed.

Lemma alnum_nunit : forall E c u, snd u <> [] -> decode_rune (snd u) = (fst u, length (snd u)) ->
  alnum_unit E c (nunit E c u) = alnum_unit E c u.
Proof.
  intros E c [r s] Hne Hd. cbn [fst snd] in *. unfold nunit. rewrite !norm_unit_eq. cbn [snd].
  destruct (alnum_unit E c (r, s)) eqn:Ea; [|rewrite Hd; exact Ea].
  unfold to_low. destruct (c_lower c); [|rewrite Hd; exact Ea].
  destruct (@decode_unit_high s Hne) as [(b & -> & Hb & Hlt)|Hhi].
  - rewrite Hd. reflexivity.
  - rewrite Hd in Hb. cbn in Hb. subst r. cbn [to_lower map]. cbn [decode_rune].
    pose proof (lower_byte_ascii Hlt). destruct (Z.ltb_spec (bz (lower_byte b)) 128); [|lia].
    unfold alnum_unit in *. cbn [fst snd length] in *.
    destruct (lower_class E Hlt) as [-> ->]. exact Ea.
  - assert (Hs : to_lower s = s).
    { unfold to_lower. clear -Hhi. induction Hhi; [reflexivity|]. cbn. rewrite lower_byte_high, IHHhi by auto. reflexivity. }
    rewrite Hs, Hd. exact Ea.
Qed.

Lemma norm_nunit : forall E c u, snd u <> [] -> decode_rune (snd u) = (fst u, length (snd u)) ->
  norm_unit E c (nunit E c u) = norm_unit E c u.
Proof.
  intros E c u Hne Hd. rewrite norm_unit_eq. rewrite alnum_nunit by assumption.
  unfold nunit. rewrite !norm_unit_eq. cbn [snd]. destruct (alnum_unit E c u); [apply to_low_idem|reflexivity].
Qed.

(** The units of the normalised text are the normalised units. *)
Lemma units_norm_part : forall E c us vs ws s, units s = us ++ vs ++ ws ->
  units (concat (map (norm_unit E c) vs)) = map (nunit E c) vs.
Proof.
  intros E c us vs ws s H.
  destruct (@units_app _ _ _ H) as [_ H1]. destruct (@units_app _ _ _ H1) as [H2 _].
  replace (map (norm_unit E c) vs) with (map snd (map (nunit E c) vs)).
  - eapply units_urel; [|exact H2].
    pose proof (units_nonempty (concat (map snd vs))) as Hn. pose proof (units_decode (concat (map snd vs))) as Hd.
    rewrite H2 in Hn, Hd. clear -Hn Hd. induction vs as [|v vs IH]; [constructor|].
    inversion Hn; inversion Hd; subst. cbn. constructor; [apply norm_unit_urel; assumption|auto].
  - rewrite map_map. reflexivity.
Qed.

Lemma groups_map : forall E c gs a, groups E c gs a ->
  Forall (fun u => snd u <> [] /\ decode_rune (snd u) = (fst u, length (snd u))) (concat gs) ->
  groups E c (map (map (nunit E c)) gs) a.
Proof.
  intros E c gs a H; induction H as [|g a gs b Hw Hg IH Hadj]; intros HF; cbn in *; [constructor|].
  apply Forall_app in HF as [HF1 HF2].
  apply gs_cons with b; [|auto|exact Hadj].
  inversion Hw; subst.
  - apply wg_other. inversion HF1; subst. destruct H2. rewrite alnum_nunit; auto.
  - apply wg_single; [auto|]. inversion HF1; subst. destruct H3. rewrite alnum_nunit; auto.
  - apply wg_run; [auto|destruct g; cbn; congruence|].
    clear -H1 HF1. induction g as [|u g IHg]; cbn; constructor; inversion H1; inversion HF1; subst; auto.
    destruct H6. rewrite alnum_nunit; auto.
Qed.

Lemma groups_suffix : forall E c gs1 gs2 a, groups E c (gs1 ++ gs2) a -> exists b, groups E c gs2 b.
Proof.
  induction gs1 as [|g gs1 IH]; intros gs2 a H; cbn in H; [eauto|]. inversion H; subst. eapply IH; eauto.
Qed.

Lemma groups_prefix : forall E c gs1 gs2 a, groups E c (gs1 ++ gs2) a -> gs1 <> [] -> groups E c gs1 a.
Proof.
  intros E c; induction gs1 as [|g gs1 IH]; intros gs2 a H Hne; [congruence|]. cbn in H.
  inversion H; subst. destruct gs1 as [|g1 gs1].
  - eapply gs_cons; [eassumption|apply gs_nil|congruence].
  - eapply gs_cons; [eassumption|eapply IH; [eassumption|congruence]|assumption].
Qed.

(** Any contiguous range of the words is stable under splitting. *)
Lemma split_stable : forall E c s ws1 ws2 ws3, wsplit E c s = ws1 ++ ws2 ++ ws3 ->
  wsplit E c (concat ws2) = ws2.
Proof.
  intros E c s ws1 ws2 ws3 H.
  destruct (split_is_split E c s) as (gs & a & Hg & Hc & Hw). rewrite H in Hw.
  symmetry in Hw. apply map_eq_app in Hw as (g1 & g' & -> & Hw1 & Hw').
  apply map_eq_app in Hw' as (g2 & g3 & -> & Hw2 & Hw3).
  destruct g2 as [|g0 g2].
  { cbn in Hw2. subst ws2. reflexivity. }
  rewrite !concat_app in Hc.
  destruct (groups_suffix Hg) as (b & Hg'). 
  pose proof (@groups_prefix E c (g0 :: g2) g3 b Hg' ltac:(congruence)) as Hg2.
  apply (@is_split_unique E c (concat ws2)); [apply split_is_split|].
  assert (HF : Forall (fun u => snd u <> [] /\ decode_rune (snd u) = (fst u, length (snd u))) (concat (g0 :: g2))).
  { pose proof (units_nonempty s) as Hn. pose proof (units_decode s) as Hd. rewrite <- Hc in Hn, Hd.
    apply Forall_app in Hn as [_ Hn]. apply Forall_app in Hn as [Hn _].
    apply Forall_app in Hd as [_ Hd]. apply Forall_app in Hd as [Hd _].
    revert Hn Hd. generalize (concat (g0 :: g2)). induction l; intros Hn Hd; constructor; inversion Hn; inversion Hd; subst; auto. }
  exists (map (map (nunit E c)) (g0 :: g2)), b. split; [|split].
  - apply groups_map; assumption.
  - rewrite <- concat_map, <- Hw2, <- (@units_norm_part E c (concat g1) (concat (g0 :: g2)) (concat g3) s).
    + f_equal. rewrite concat_map. generalize (g0 :: g2). induction l; [reflexivity|]. cbn. rewrite !concat_app, IHl. reflexivity.
    + rewrite <- Hc. reflexivity.
  - rewrite <- Hw2, map_map. apply map_ext_in. intros g Hin.
    rewrite map_map. f_equal. apply map_ext_in. intros u Hu.
    rewrite Forall_forall in HF. destruct (HF u) as [Hu1 Hu2].
    + apply in_concat. exists g. auto.
    + symmetry. apply norm_nunit; assumption.
Qed.

Lemma split_concat_split : forall E c s, wsplit E c (concat (wsplit E c s)) = wsplit E c s.
Proof. intros E c s. apply (@split_stable E c s [] (wsplit E c s) []). rewrite app_nil_r. reflexivity. Qed.

Lemma split_nil : forall E c, wsplit E c [] = [].
Proof. reflexivity. Qed.

(* ---- statements used by T_Split ---- *)

Lemma c10 : forall E c s, exists ws, split_words E c s = Ok ws /\
  concat ws = norm E c s /\ length (concat ws) = length s /\ Forall (fun w => w <> []) ws /\
  Forall2 (fun b b' => b' = b \/ b' = small b) s (concat ws) /\
  (c_lower c = false -> concat ws = s).
Proof.
  intros E c s. exists (wsplit E c s). rewrite split_words_eq, split_concat.
  repeat apply conj; [reflexivity|reflexivity|apply norm_length|apply split_nonempty|apply norm_bytes|apply norm_off].
Qed.

Lemma c11 : forall E c s ws, split_words E c s = Ok ws <-> is_split E c s ws.
Proof.
  intros E c s ws. rewrite split_words_eq. split; intro H.
  - assert (Hs : wsplit E c s = ws) by congruence. subst ws. apply split_is_split.
  - f_equal. eapply is_split_unique; [apply split_is_split|exact H].
Qed.

Lemma c12 : forall E c s ws1 ws2 ws3, split_words E c s = Ok (ws1 ++ ws2 ++ ws3) ->
  split_words E c (concat ws2) = Ok ws2.
Proof.
  intros E c s ws1 ws2 ws3 H. rewrite split_words_eq in *.
  assert (Hs : wsplit E c s = ws1 ++ ws2 ++ ws3) by congruence. f_equal. eapply split_stable; exact Hs.
Qed.
