(** Proofs: letter case. *)
From Verif Require Import S_Case M_Load P_Utf8 P_Split.
From Coq Require Import ZifyBool.
Set Implicit Arguments. Unset Strict Implicit.
Local Open Scope Z_scope.

Definition rl (r : rune) : rune := if in_range 65 90 r then r + 32 else r.
Lemma lower_cases : forall b, (128 <= bz b /\ lower_byte b = b) \/ (bz b < 128 /\ bz (lower_byte b) < 128 /\ bz (lower_byte b) = rl (bz b)).
Proof. intros b. destruct b; first [left; split; [vm_compute; discriminate|reflexivity]|right; split; [reflexivity|]; split; reflexivity]. Qed.
Lemma rl_high : forall r, 128 <= r -> rl r = r.
Proof. intros r H. unfold rl, in_range. destruct (_ && _) eqn:K; [|reflexivity]. apply andb_prop in K as [_ K]. apply Z.leb_le in K. lia. Qed.
Lemma in_range_low : forall a b x, 128 <= a -> x < 128 -> in_range a b x = false.
Proof. intros a b x H1 H2. unfold in_range. destruct (Z.leb_spec a x); [lia|reflexivity]. Qed.
Lemma lower_range : forall a b x, 128 <= a -> in_range a b (bz (lower_byte x)) = in_range a b (bz x).
Proof. intros a b x Ha. destruct (lower_cases x) as [[_ ->]|(H1 & H2 & _)]; [reflexivity|]. rewrite !in_range_low by assumption. reflexivity. Qed.
Lemma in_range_ge : forall a b x, in_range a b x = true -> a <= x <= b.
Proof. intros a b x H. unfold in_range in H. apply andb_prop in H as [H1 H2]. apply Z.leb_le in H1, H2. lia. Qed.
Lemma lower_high : forall a b x, 128 <= a -> in_range a b (bz x) = true -> bz (lower_byte x) = bz x.
Proof. intros a b x Ha H. apply in_range_ge in H. destruct (lower_cases x) as [[_ ->]|(H1 & _)]; [reflexivity|lia]. Qed.

Lemma decode_lower : forall s, decode_rune (map lower_byte s) = (rl (fst (decode_rune s)), snd (decode_rune s)).
Proof.
  intros [|b0 t]; [reflexivity|]. cbn [map]. unfold decode_rune. destruct (lower_cases b0) as [[H0 ->]|(H0 & H1 & H2)].
  2:{ cbv zeta. destruct (Z.ltb_spec (bz (lower_byte b0)) 128); [|lia]. destruct (Z.ltb_spec (bz b0) 128); [|lia]. cbn. rewrite H2. reflexivity. }
  cbv zeta. destruct (Z.ltb_spec (bz b0) 128); [lia|]. destruct (Z.ltb_spec (bz b0) 194) as [|H194]; [reflexivity|]. destruct (Z.ltb_spec (bz b0) 224) as [|H224].
  { destruct t as [|b1 t]; [reflexivity|]. cbn [map]. unfold cont. rewrite lower_range by lia. destruct (in_range 128 191 (bz b1)) eqn:R1; [|reflexivity]. cbn [fst snd].
    rewrite (@lower_high 128 191 b1) by (try lia; exact R1). apply in_range_ge in R1. rewrite rl_high by lia. reflexivity. }
  destruct (Z.ltb_spec (bz b0) 240) as [|H240].
  { destruct t as [|b1 [|b2 t]]; [reflexivity|reflexivity|]. cbn [map]. unfold cont.
    set (a := if bz b0 =? 224 then 160 else 128). set (z := if bz b0 =? 237 then 159 else 191). assert (Ha : 128 <= a) by (unfold a; destruct (_ =? _); lia).
    rewrite !lower_range by lia. destruct (in_range a z (bz b1) && in_range 128 191 (bz b2)) eqn:R; [|reflexivity]. apply andb_prop in R as [R1 R2]. cbn [fst snd].
    rewrite (@lower_high a z b1) by (try lia; exact R1). rewrite (@lower_high 128 191 b2) by (try lia; exact R2). apply in_range_ge in R1, R2. rewrite rl_high; [reflexivity|].
    destruct (Z.eqb_spec (bz b0) 224); unfold a in *; nia. }
  destruct (Z.ltb_spec (bz b0) 245) as [|H245]; [|reflexivity].
  destruct t as [|b1 [|b2 [|b3 t]]]; [reflexivity|reflexivity|reflexivity|]. cbn [map]. unfold cont.
  set (a := if bz b0 =? 240 then 144 else 128). set (z := if bz b0 =? 244 then 143 else 191). assert (Ha : 128 <= a) by (unfold a; destruct (_ =? _); lia).
  rewrite !lower_range by lia. destruct (in_range a z (bz b1) && in_range 128 191 (bz b2) && in_range 128 191 (bz b3)) eqn:R; [|reflexivity].
  apply andb_prop in R as [R R3]. apply andb_prop in R as [R1 R2]. cbn [fst snd].
  rewrite (@lower_high a z b1) by (try lia; exact R1). rewrite (@lower_high 128 191 b2) by (try lia; exact R2). rewrite (@lower_high 128 191 b3) by (try lia; exact R3). apply in_range_ge in R1, R2, R3. rewrite rl_high; [reflexivity|].
  destruct (Z.eqb_spec (bz b0) 240); unfold a in *; nia.
Qed.
Lemma units_lower : forall s, units (map lower_byte s) = map (fun u => (rl (fst u), map lower_byte (snd u))) (units s).
Proof.
  apply units_ind; [reflexivity|]. intros s Hs IH. rewrite (units_cons Hs). assert (Hl : map lower_byte s <> []) by (destruct s; cbn; congruence). rewrite (units_cons Hl), decode_lower. cbn [map fst snd].
  rewrite <- firstn_map, <- IH, <- skipn_map. reflexivity.
Qed.

Section Case.
  Variable E : env.
  Lemma rl_letter : forall r, is_letter E (rl r) = is_letter E r.
  Proof.
    intro r. unfold rl. destruct (in_range 65 90 r) eqn:H; [|reflexivity]. apply in_range_ge in H.
    unfold is_letter. destruct (Z.ltb_spec (r + 32) 128); [|lia]. destruct (Z.ltb_spec r 128); [|lia]. unfold ascii_upper, ascii_lower, in_range. lia.
  Qed.
  Lemma rl_number : forall r, is_number E (rl r) = is_number E r.
  Proof.
    intro r. unfold rl. destruct (in_range 65 90 r) eqn:H; [|reflexivity]. apply in_range_ge in H.
    unfold is_number. destruct (Z.ltb_spec (r + 32) 128); [|lia]. destruct (Z.ltb_spec r 128); [|lia]. unfold ascii_digit, in_range. lia.
  Qed.
  Lemma rl_lower : forall r, rune_lower E (rl r) = rune_lower E r.
  Proof.
    intro r. unfold rl. destruct (in_range 65 90 r) eqn:H; [|reflexivity]. pose proof (in_range_ge H).
    unfold rune_lower. destruct (Z.ltb_spec (r + 32) 128); [|lia]. destruct (Z.ltb_spec r 128); [|lia]. unfold ascii_upper. rewrite H. unfold in_range. destruct (_ && _) eqn:K; [|reflexivity]. apply andb_prop in K as [_ K]. apply Z.leb_le in K. lia.
  Qed.
  Lemma str_lower : forall s, to_lower_str E (map lower_byte s) = to_lower_str E s.
  Proof. intro s. unfold to_lower_str, runes_of. rewrite units_lower, !map_map. f_equal. apply map_ext. intro u. cbn [fst]. apply rl_lower. Qed.

  Variable c : cfg.
  Hypothesis Hlow : c_lower c = true.
  Hypothesis Halpha : c_alpha c = false.
  Lemma alnum_lower : forall u, alnum_unit E c (rl (fst u), map lower_byte (snd u)) = alnum_unit E c u.
  Proof. intros [r bs]. unfold alnum_unit. cbn [fst snd]. rewrite map_length, rl_letter, rl_number. reflexivity. Qed.
  Lemma lower_idem : forall s, map lower_byte (map lower_byte s) = map lower_byte s.
  Proof. intro s. rewrite map_map. apply map_ext, lower_byte_idem. Qed.
  Definition unit_good (u : rune * bytes) : Prop := alnum_unit E c u = false -> map lower_byte (snd u) = snd u.
  Lemma flush_lower : forall acc, flush c (map lower_byte acc) = flush c acc.
  Proof. intros [|b acc]; [reflexivity|]. unfold flush. cbn [map]. f_equal. unfold to_low. rewrite Hlow. exact (lower_idem (b :: acc)). Qed.
  Lemma group_lower : forall us acc, Forall unit_good us ->
    group E c (map lower_byte acc) (map (fun u => (rl (fst u), map lower_byte (snd u))) us) = group E c acc us.
  Proof.
    induction us as [|u us IH]; intros acc Hg; cbn [map group].
    - apply flush_lower.
    - inversion Hg as [|? ? H1 H2]; subst. rewrite alnum_lower. cbn [snd]. destruct (alnum_unit E c u) eqn:Ea.
      + destruct (c_alphanum c); [f_equal; [unfold to_low; rewrite Hlow; apply lower_idem|exact (IH [] H2)]|]. rewrite <- map_app. apply IH. exact H2.
      + rewrite (H1 Ea). rewrite flush_lower. cbn [app]. f_equal. f_equal. exact (IH [] H2).
  Qed.
  Lemma units_good : forall s, Forall unit_good (units s).
  Proof.
    apply units_ind; [constructor|]. intros s Hs IH. rewrite (units_cons Hs). constructor; [|exact IH]. unfold unit_good. cbn [snd]. rewrite (alnum_decode E c Hs). intro H.
    destruct s as [|b0 t]; [congruence|]. clear Hs IH. unfold decode_rune in *. destruct (lower_cases b0) as [[H0 L0]|(H0 & _ & L0)].
    2:{ cbv zeta in *. destruct (Z.ltb_spec (bz b0) 128); [|lia]. cbn [fst snd Nat.leb andb] in H. cbn [snd firstn map]. f_equal. unfold lower_byte. destruct (in_range 65 90 (bz b0)) eqn:R; [|reflexivity].
        exfalso. rewrite Halpha in H. cbn [negb] in H. apply orb_false_iff in H as [H _]. rewrite andb_true_r in H. unfold is_letter in H. destruct (Z.ltb_spec (bz b0) 128); [|lia]. unfold ascii_upper in H. rewrite R in H. destruct (ascii_lower (bz b0)); cbn in H; discriminate. }
    clear H. assert (K1 : forall x, in_range 128 191 (bz x) = true -> lower_byte x = x) by (intros x Hx; apply in_range_ge in Hx; destruct (lower_cases x) as [[_ K]|(K & _)]; [exact K|lia]).
    assert (K2 : forall a z x, 128 <= a -> in_range a z (bz x) = true -> lower_byte x = x) by (intros a z x Hz Hx; apply in_range_ge in Hx; destruct (lower_cases x) as [[_ K]|(K & _)]; [exact K|lia]).
    cbv zeta. destruct (bz b0 <? 128); [cbn; rewrite L0; reflexivity|]. destruct (bz b0 <? 194); [cbn; rewrite L0; reflexivity|]. destruct (bz b0 <? 224).
    { destruct t as [|b1 t]; [cbn; rewrite L0; reflexivity|]. unfold cont. destruct (in_range 128 191 (bz b1)) eqn:R; [|cbn; rewrite L0; reflexivity]. cbn. rewrite L0, K1 by exact R. reflexivity. }
    destruct (bz b0 <? 240).
    { destruct t as [|b1 [|b2 t]]; [cbn; rewrite L0; reflexivity|cbn; rewrite L0; reflexivity|]. unfold cont. destruct (_ && _) eqn:R; [|cbn; rewrite L0; reflexivity]. apply andb_prop in R as [R1 R2].
      cbn. rewrite L0, (K1 b2) by exact R2. rewrite (K2 _ _ b1) with (2 := R1); [reflexivity|]. destruct (_ =? _); lia. }
    destruct (bz b0 <? 245); [|cbn; rewrite L0; reflexivity].
    destruct t as [|b1 [|b2 [|b3 t]]]; [cbn; rewrite L0; reflexivity|cbn; rewrite L0; reflexivity|cbn; rewrite L0; reflexivity|]. unfold cont. destruct (_ && _) eqn:R; [|cbn; rewrite L0; reflexivity]. apply andb_prop in R as [R R3]. apply andb_prop in R as [R1 R2].
    cbn. rewrite L0, (K1 b2), (K1 b3) by assumption. rewrite (K2 _ _ b1) with (2 := R1); [reflexivity|]. destruct (_ =? _); lia.
  Qed.
  Lemma split_lower : forall s, split_words E c (map lower_byte s) = split_words E c s.
  Proof. intro s. rewrite !split_words_eq. f_equal. unfold wsplit. rewrite units_lower. exact (group_lower [] (units_good s)). Qed.
End Case.

Lemma same_map : forall a b, same_letters a b -> map lower_byte a = map lower_byte b.
Proof. intros a b H. induction H as [|x y a b H _ IH]; [reflexivity|]. cbn. rewrite IH, <- !small_eq, H. reflexivity. Qed.
Lemma same_length : forall a b, same_letters a b -> length a = length b.
Proof. intros a b H. induction H; cbn; congruence. Qed.
Lemma same_split : forall E c a b, c_lower c = true -> c_alpha c = false -> same_letters a b -> split_words E c a = split_words E c b.
Proof. intros E c a b H1 H2 H. rewrite <- (split_lower E H1 H2 a), <- (split_lower E H1 H2 b), (same_map H). reflexivity. Qed.
Lemma same_lower : forall E a b, same_letters a b -> to_lower_str E a = to_lower_str E b.
Proof. intros E a b H. rewrite <- (str_lower E a), <- (str_lower E b), (same_map H). reflexivity. Qed.
