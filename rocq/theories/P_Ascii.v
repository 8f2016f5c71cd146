(** ASCII text. *)
From Verif Require Import S_Ascii P_Utf8 P_Utf8b P_Split P_Str P_Trim P_Trim2.
Set Implicit Arguments. Unset Strict Implicit.

Section Ascii.
  Variable E : env.
  Implicit Types s : bytes.
  Ltac bytes_cases b := intros b H; destruct b; first [discriminate H|reflexivity].

  Lemma letter_byte : forall b, (bz b <? 128)%Z = true -> is_letter E (bz b) = one_of letters b.
  Proof. bytes_cases b. Qed.
  Lemma number_byte : forall b, (bz b <? 128)%Z = true -> is_number E (bz b) = one_of digits b.
  Proof. bytes_cases b. Qed.
  Lemma space_byte : forall b, (bz b <? 128)%Z = true -> is_space E (bz b) = one_of blanks b.
  Proof. bytes_cases b. Qed.
  Lemma punct_byte : forall b, (bz b <? 128)%Z = true -> is_punct E (bz b) = one_of puncts b.
  Proof. bytes_cases b. Qed.
  Lemma symbol_byte : forall b, (bz b <? 128)%Z = true -> is_symbol E (bz b) = one_of symbols b.
  Proof. bytes_cases b. Qed.
  Lemma lower_enc : forall b, (bz b <? 128)%Z = true -> string_of_rune (rune_lower E (bz b)) = [small b].
  Proof. bytes_cases b. Qed.
  Lemma enc_byte : forall b, (bz b <? 128)%Z = true -> enc (bz b) = [b].
  Proof. bytes_cases b. Qed.

  Lemma ascii_units_eq : forall s, ascii s -> units s = map (fun b => (bz b, [b])) s.
  Proof. induction 1 as [|b s Hb _ IH]; [reflexivity|]. rewrite units_ascii by exact Hb. cbn [map]. rewrite IH. reflexivity. Qed.
  Lemma ascii_runes : forall s, ascii s -> runes_of s = map bz s.
  Proof. intros s H. unfold runes_of. rewrite (ascii_units_eq H), map_map. apply map_ext. reflexivity. Qed.
  Lemma ascii_app_units : forall w x, ascii w -> units (w ++ x) = units w ++ units x.
  Proof. induction 1 as [|b w Hb Hw IH]; [reflexivity|]. cbn [app]. rewrite !units_ascii by exact Hb. cbn [app]. rewrite IH. reflexivity. Qed.
  Lemma lt_b : forall b, (bz b < 128)%Z -> (bz b <? 128)%Z = true.
  Proof. intros. apply Z.ltb_lt. assumption. Qed.

  (** ** Filters *)
  Lemma ascii_wordy : forall b, (bz b < 128)%Z -> wordy E (bz b) = negb (one_of symbols b || one_of blanks b || one_of puncts b).
  Proof. intros b H. apply lt_b in H. unfold wordy. rewrite symbol_byte, space_byte, punct_byte by exact H. reflexivity. Qed.
  Lemma ascii_symbol_free : forall s, ascii s -> symbol_free E s = filter (fun b => negb (one_of symbols b || one_of blanks b || one_of puncts b)) s.
  Proof.
    intros s H. unfold symbol_free. rewrite (ascii_runes H). induction H as [|b s Hb H IH]; [reflexivity|]. cbn [map filter]. rewrite (ascii_wordy Hb). destruct (negb _); [|exact IH]. cbn [map concat]. rewrite IH, enc_byte by (apply lt_b, Hb). reflexivity.
  Qed.
  Lemma ascii_solid : forall s, ascii s -> (Exists (solid E) (runes_of s) <-> Exists (fun b => one_of blanks b || one_of puncts b = false) s).
  Proof.
    intros s H. rewrite (ascii_runes H). induction H as [|b s Hb H IH]; cbn [map]; [split; intro K; inversion K|]. rewrite !Exists_cons, IH. apply lt_b in Hb. unfold solid. rewrite space_byte, punct_byte, orb_false_iff by exact Hb. reflexivity.
  Qed.
  Lemma ascii_lower : forall s, ascii s -> to_lower_str E s = map small s.
  Proof.
    intros s H. unfold to_lower_str. rewrite (ascii_runes H). induction H as [|b s Hb H IH]; [reflexivity|]. cbn [map]. change (string_of_runes ?x) with (concat (map string_of_rune x)) in *. cbn [map concat]. rewrite IH, lower_enc by (apply lt_b, Hb). reflexivity.
  Qed.
  Lemma ascii_trim : forall s, ascii s -> exists a b, s = a ++ trim_space E s ++ b /\ Forall (fun x => one_of blanks x = true) (a ++ b) /\
    (trim_space E s = [] \/ exists x m y n, trim_space E s = x :: m /\ trim_space E s = n ++ [y] /\ one_of blanks x = false /\ one_of blanks y = false).
  Proof.
    intros s H. destruct (proj2 (trimmed_iff E s (trim_space E s)) eq_refl) as (a & m & b & H1 & H2 & H3 & H4 & H5). rewrite (ascii_units_eq H) in H1.
    assert (Hall : Forall (fun u => exists b, u = (bz b, [b]) /\ (bz b <? 128)%Z = true) (a ++ m ++ b)).
    { rewrite <- H1. apply Forall_map. eapply Forall_impl; [|exact H]. cbv beta. intros x Hx. apply lt_b in Hx. eauto. }
    assert (Hs : concat (map snd (a ++ m ++ b)) = s) by (rewrite <- H1, map_map; cbn [snd]; clear; induction s; cbn; congruence).
    apply Forall_app in Hall as [A1 A2]. apply Forall_app in A2 as [A2 A3]. rewrite !map_app, !concat_app, <- H4 in Hs.
    assert (Sp : forall l, Forall (fun u => exists b, u = (bz b, [b]) /\ (bz b <? 128)%Z = true) l -> Forall (fun u => is_space E (fst u) = true) l -> Forall (fun x => one_of blanks x = true) (concat (map snd l))).
    { clear. induction 1 as [|u l (x & -> & Hx) Hl IH]; intro K; [constructor|]. inversion K as [|? ? K1 K2]; subst. cbn [map concat snd app fst] in *. rewrite space_byte in K1 by exact Hx. constructor; auto. }
    exists (concat (map snd a)), (concat (map snd b)). split; [symmetry; exact Hs|]. split; [apply Forall_app; split; apply Sp; assumption|].
    destruct H5 as [->|(x & m1 & m2 & y & E1 & N1 & E2 & N2)]; [left; exact H4|]. right.
    assert (X : In x m) by (rewrite E1; left; reflexivity). assert (Y : In y m) by (rewrite E2; apply in_or_app; right; left; reflexivity).
    rewrite Forall_forall in A2. destruct (A2 _ X) as (bx & Ex & Bx). destruct (A2 _ Y) as (b2 & Ey & By). subst x y. cbn [fst] in *. rewrite space_byte in N1, N2 by assumption.
    exists bx, (concat (map snd m1)), b2, (concat (map snd m2)). rewrite H4. split; [rewrite E1; reflexivity|]. split; [rewrite E2, map_app, concat_app; cbn; reflexivity|]. auto.
  Qed.

  (** ** Splitting *)
  Notation unit_of := (fun b => (bz b, [b])).
  Lemma ascii_alnum_unit : forall c b, (bz b < 128)%Z -> alnum_unit E c (bz b, [b]) = word_byte c b.
  Proof. intros c b H. apply lt_b in H. unfold alnum_unit, word_byte. cbn [fst snd length Nat.leb andb]. rewrite letter_byte, number_byte by exact H. reflexivity. Qed.
  Lemma ascii_norm : forall c b, (bz b < 128)%Z -> norm_unit E c (bz b, [b]) = [low_byte c b].
  Proof. intros c b H. unfold norm_unit, low_byte. rewrite (ascii_alnum_unit c H). cbn [snd]. destruct (_ && _); reflexivity. Qed.
  Lemma norms : forall c r, ascii r -> concat (map (norm_unit E c) (map unit_of r)) = map (low_byte c) r.
  Proof. intros c r. induction 1 as [|b r Hb H IH]; [reflexivity|]. cbn [map concat]. rewrite IH, (ascii_norm c Hb). reflexivity. Qed.
  Lemma words_split : forall c s ws, ascii_words c s ws -> ascii s -> exists gs a, groups E c gs a /\ concat gs = map unit_of s /\
    ws = map (fun g => concat (map (norm_unit E c) g)) gs /\ (a = true -> match s with b :: _ => word_byte c b = true | [] => False end).
  Proof.
    intros c. induction 1 as [|b s ws Hc Hw IH|r s ws Hc Hr Hf Hn Hw IH]; intro Ha.
    - exists [], false. repeat split; [constructor|discriminate].
    - inversion Ha as [|? ? A1 A2]; subst. destruct (IH A2) as (gs & a & G1 & G2 & G3 & G4). exists ([(bz b, [b])] :: gs), (word_byte c b). split.
      + econstructor; [|exact G1|].
        * destruct (word_byte c b) eqn:Eb; [apply wg_single; [destruct Hc; [assumption|congruence]|]|apply wg_other]; rewrite (ascii_alnum_unit c A1); exact Eb.
        * intros C1 C2 _. destruct Hc; congruence.
      + split; [cbn [concat map app]; rewrite G2; reflexivity|]. split; [cbn [map concat]; rewrite (ascii_norm c A1), G3; reflexivity|]. auto.
    - apply Forall_app in Ha as [A1 A2]. destruct (IH A2) as (gs & a & G1 & G2 & G3 & G4). exists (map unit_of r :: gs), true. split.
      + econstructor; [apply wg_run; [exact Hc| |]|exact G1|].
        * destruct r; [congruence|discriminate].
        * apply Forall_map. clear - A1 Hf. induction A1 as [|b r Hb A1 IH]; [constructor|]. inversion Hf; subst. constructor; [rewrite (ascii_alnum_unit c Hb); assumption|auto].
        * intros _ _ ->. specialize (G4 eq_refl). destruct s; [exact G4|]. congruence.
      + split; [cbn [concat]; rewrite G2, map_app; reflexivity|]. split; [cbn [map]; rewrite (norms c A1), G3; reflexivity|]. intros _. destruct r; [congruence|]. inversion Hf; subst. assumption.
  Qed.
  Lemma split_words_ascii : forall c gs a, groups E c gs a -> forall s, ascii s -> concat gs = map unit_of s ->
    ascii_words c s (map (fun g => concat (map (norm_unit E c) g)) gs) /\ (a = false -> match s with b :: _ => word_byte c b = false | [] => True end).
  Proof.
    intros c. induction 1 as [|g a gs b Hg Hgs IH Hadj]; intros s Ha He; cbn [concat map] in *.
    - destruct s; [|discriminate]. split; [constructor|auto].
    - assert (exists r t, s = r ++ t /\ g = map unit_of r /\ concat gs = map unit_of t) as (r & t & -> & -> & Ht).
      { clear - He. revert s He. induction g as [|u g IH]; intros s He; [exists [], s; auto|]. destruct s as [|x s]; [discriminate|]. cbn [app map] in He. injection He as -> He. destruct (IH _ He) as (r & t & -> & -> & K). exists (x :: r), t. auto. }
      apply Forall_app in Ha as [A1 A2]. destruct (IH _ A2 Ht) as [I1 I2]. rewrite (norms c A1). inversion Hg as [u Hu Eg|u Hc Hu Eg|us Hc Hn Hf Eg]; subst.
      + destruct r as [|b0 [|? ?]]; try discriminate. cbn [map] in Eg. injection Eg as ->. inversion A1 as [|? ? Hb _]; subst. rewrite (ascii_alnum_unit c Hb) in Hu. split; [cbn [app map]; constructor; auto|]. intros _. exact Hu.
      + destruct r as [|b0 [|? ?]]; try discriminate. cbn [map] in Eg. injection Eg as ->. split; [cbn [app map]; constructor; auto|discriminate].
      + split; [|discriminate]. apply aw_run; [exact Hc|intros ->; apply Hn; reflexivity| |destruct b; [destruct (Hadj Hc eq_refl eq_refl)|apply I2; reflexivity]|exact I1].
        rewrite Forall_map in Hf. clear - A1 Hf. induction A1 as [|b r Hb A1 IH]; [constructor|]. inversion Hf as [|? ? F1 F2]; subst. cbv beta in F1. rewrite (ascii_alnum_unit c Hb) in F1. constructor; auto.
  Qed.
  Lemma c81_split : forall c s ws, ascii s -> (split_words E c s = Ok ws <-> ascii_words c s ws).
  Proof.
    intros c s ws Ha. rewrite c11. unfold is_split. rewrite (ascii_units_eq Ha). split.
    - intros (gs & a & G1 & G2 & ->). apply (split_words_ascii G1 Ha G2).
    - intro H. destruct (words_split H Ha) as (gs & a & G1 & G2 & G3 & _). exists gs, a. auto.
  Qed.

  (** ** Stray bytes *)
  Lemma stray_units : forall a b s, ascii a -> (128 <= bz b)%Z -> ascii s -> units (a ++ b :: s) = units a ++ (RuneError, [b]) :: units s.
  Proof.
    intros a b s Ha Hb Hs. assert (U : units [b] = [(RuneError, [b])]).
    { destruct b; try reflexivity; exfalso; vm_compute in Hb; apply Hb; reflexivity. }
    rewrite ascii_app_units by exact Ha. f_equal. destruct Hs as [|c s Hc Hs]; [rewrite U; reflexivity|].
    change (b :: c :: s) with ([b] ++ c :: s). rewrite (units_sync [b] (ascii_sync s Hc)), U. reflexivity.
  Qed.
  Lemma stray_alnum : forall c b, alnum_unit E c (RuneError, [b]) = false.
  Proof. intros c b. unfold alnum_unit. cbn [fst snd length Nat.leb andb]. change (is_letter E RuneError) with false. change (is_number E RuneError) with false. reflexivity. Qed.
  Lemma groups_join : forall c u gs1 a gs2 b, groups E c gs1 a -> alnum_unit E c u = false -> groups E c gs2 b -> groups E c (gs1 ++ [u] :: gs2) a.
  Proof.
    intros c u gs1 a gs2 b H Hu H2. assert (M : groups E c ([u] :: gs2) false) by (econstructor; [apply wg_other, Hu|exact H2|discriminate]).
    induction H as [|g a gs b1 Hg Hgs IH Hadj]; [exact M|]. cbn [app]. econstructor; [exact Hg|exact IH|exact Hadj].
  Qed.
  Lemma stray_split : forall c a b s wa ws, ascii a -> (128 <= bz b)%Z -> ascii s -> ascii_words c a wa -> ascii_words c s ws ->
    split_words E c (a ++ b :: s) = Ok (wa ++ [b] :: ws).
  Proof.
    intros c a b s wa ws Ha Hb Hs Wa Ws. apply (c81_split c wa Ha) in Wa. apply (c81_split c ws Hs) in Ws. apply c11 in Wa as (g1 & a1 & A1 & A2 & A3). apply c11 in Ws as (g2 & a2 & B1 & B2 & B3). apply c11.
    exists (g1 ++ [(RuneError, [b])] :: g2), a1. split; [eapply groups_join; [exact A1|apply stray_alnum|exact B1]|]. split; [rewrite concat_app; cbn [concat app]; rewrite A2, B2; symmetry; apply stray_units; assumption|].
    rewrite map_app. cbn [map concat app]. rewrite <- A3, <- B3. unfold norm_unit at 1. rewrite stray_alnum. reflexivity.
  Qed.
  Lemma stray_runes : forall a b s, ascii a -> (128 <= bz b)%Z -> ascii s -> runes_of (a ++ b :: s) = runes_of a ++ RuneError :: runes_of s.
  Proof. intros a b s Ha Hb Hs. unfold runes_of. rewrite (stray_units Ha Hb Hs), map_app. reflexivity. Qed.
  Lemma stray_symbol : forall a b s, ascii a -> (128 <= bz b)%Z -> ascii s -> symbol_free E (a ++ b :: s) = symbol_free E a ++ symbol_free E s.
  Proof. intros a b s Ha Hb Hs. unfold symbol_free. rewrite (stray_runes Ha Hb Hs), filter_app, map_app, concat_app. cbn [filter]. change (wordy E RuneError) with false. reflexivity. Qed.
  Lemma stray_solid : forall a b s, ascii a -> (128 <= bz b)%Z -> ascii s -> Exists (solid E) (runes_of (a ++ b :: s)).
  Proof. intros a b s Ha Hb Hs. rewrite (stray_runes Ha Hb Hs). apply Exists_app. right. left. split; reflexivity. Qed.
  Lemma stray_trim : forall b, (128 <= bz b)%Z -> trim_space E [b] = [b].
  Proof.
    intros b Hb. unfold trim_space. pose proof (@stray_units [] b [] (Forall_nil _) Hb (Forall_nil _)) as U. cbn [app] in U. rewrite U. change (units []) with (@nil (rune * bytes)). unfold trim_by. cbn [app drop_while fst rev]. change (is_space E RuneError) with false. reflexivity.
  Qed.
End Ascii.
