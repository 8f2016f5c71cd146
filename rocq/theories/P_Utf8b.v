(** UTF-8: self-synchronisation and round trips. *)
From Verif Require Import M_Utf8 P_Utf8 S_Utf8.
From Coq Require Import ZifyBool ZifyNat ZifyN.
Ltac Zify.zify_post_hook ::= Z.div_mod_to_equations.
Local Open Scope Z_scope.
Set Implicit Arguments. Unset Strict Implicit.

(** A continuation byte does not follow. *)
Definition sync (q : bytes) : Prop := match q with [] => True | b :: _ => cont b = false end.

Lemma decode_sync : forall p q, p <> [] -> sync q -> decode_rune (p ++ q) = decode_rune p.
Proof.
  intros p q Hp Hq. destruct (@decode_app_invalid p q Hp) as [H|H].
  - symmetry. apply decode_app; auto.
  - rewrite H. destruct q as [|c0 q]; [rewrite app_nil_r; exact H|]. cbn in Hq.
    destruct p as [|b0 p]; [congruence|]. clear Hp. unfold decode_rune in *. cbv zeta in *.
    assert (Hc : forall lo hi, 128 <= lo -> hi <= 191 -> in_range lo hi (bz c0) = false).
    { intros lo hi H1 H2. unfold cont, in_range in *. lia. }
    assert (Hc1 : in_range (if bz b0 =? 224 then 160 else 128) (if bz b0 =? 237 then 159 else 191) (bz c0) = false).
    { apply Hc; destruct (bz b0 =? 224), (bz b0 =? 237); lia. }
    assert (Hc2 : in_range (if bz b0 =? 240 then 144 else 128) (if bz b0 =? 244 then 143 else 191) (bz c0) = false).
    { apply Hc; destruct (bz b0 =? 240), (bz b0 =? 244); lia. }
    destruct p as [|b1 [|b2 [|b3 p]]]; cbn [List.app] in *;
      [destruct q as [|c1 [|c2 q]]|destruct q as [|c1 q]| |];
      rewrite ?Hq, ?Hc1, ?Hc2, ?andb_false_r; cbn [andb];
      repeat match goal with |- context [if ?c then _ else _] => destruct c end;
      try reflexivity; try exact H; congruence.
Qed.

Lemma units_sync : forall q p, sync q -> units (p ++ q) = units p ++ units q.
Proof.
  intros q p Hq. revert p. apply units_ind; [reflexivity|]. intros p Hp IH.
  rewrite units_cons by (destruct p; [congruence|discriminate]). rewrite (units_cons Hp).
  rewrite (decode_sync Hp Hq). pose proof (@decode_size p Hp) as [[H1 _] H2].
  rewrite firstn_app, skipn_app. replace (snd (decode_rune p) - Datatypes.length p)%nat with 0%nat by lia.
  cbn [firstn skipn]. rewrite app_nil_r. cbn [List.app]. rewrite IH. reflexivity.
Qed.

Lemma ascii_sync : forall b q, bz b < 128 -> sync (b :: q).
Proof. intros b q H. cbn. unfold cont, in_range. lia. Qed.

Lemma units_ascii : forall b q, bz b < 128 -> units (b :: q) = (bz b, [b]) :: units q.
Proof.
  intros b q H. rewrite units_cons by discriminate.
  assert (Hd : decode_rune (b :: q) = (bz b, 1%nat)). { unfold decode_rune. cbv zeta. rewrite (proj2 (Z.ltb_lt _ _) H). reflexivity. }
  rewrite Hd. reflexivity.
Qed.

(** *** Round trip *)
Lemma enc_cons : forall r, scalar r = true -> exists b t, enc r = b :: t.
Proof.
  intros r H. pose proof (enc_length H) as He. destruct (enc r) as [|b t]; [destruct (r <? 128), (r <? 2048), (r <? 65536); discriminate He|eauto].
Qed.

Lemma units_enc : forall r s, scalar r = true -> units (enc r ++ s) = (r, enc r) :: units s.
Proof.
  intros r s H. rewrite units_cons by (destruct (enc_cons H) as (b & t & ->); discriminate).
  rewrite (decode_enc s H). cbn [fst snd]. rewrite firstn_app, firstn_all, Nat.sub_diag, skipn_app, skipn_all, Nat.sub_diag.
  cbn. rewrite app_nil_r. reflexivity.
Qed.

Lemma units_encs : forall rs, Forall (fun r => scalar r = true) rs ->
  units (concat (map enc rs)) = map (fun r => (r, enc r)) rs.
Proof.
  intros rs H; induction H as [|r rs Hr H IH]; [reflexivity|]. cbn [map concat]. rewrite units_enc by exact Hr. rewrite IH. reflexivity.
Qed.

Lemma runes_encs : forall rs, Forall (fun r => scalar r = true) rs -> runes_of (concat (map enc rs)) = rs.
Proof.
  intros rs H. unfold runes_of. rewrite units_encs by exact H. rewrite map_map. cbn. apply map_id.
Qed.

Lemma string_of_scalars : forall rs, Forall (fun r => scalar r = true) rs -> string_of_runes rs = concat (map enc rs).
Proof.
  intros rs H. unfold string_of_runes. f_equal. apply map_ext_in. intros r Hr.
  rewrite Forall_forall in H. unfold string_of_rune. rewrite (H r Hr). reflexivity.
Qed.

Lemma string_rune_scalar : forall r, exists r', scalar r' = true /\ string_of_rune r = enc r'.
Proof.
  intro r. unfold string_of_rune. destruct (scalar r) eqn:E; [exists r; auto|]. exists RuneError. split; reflexivity.
Qed.

Lemma string_runes_scalar : forall rs, exists rs', Forall (fun r => scalar r = true) rs' /\ length rs' = length rs /\
  string_of_runes rs = concat (map enc rs').
Proof.
  induction rs as [|r rs (rs' & H1 & H2 & H3)]; [exists []; auto|].
  destruct (string_rune_scalar r) as (r' & G1 & G2). exists (r' :: rs').
  unfold string_of_runes in *. cbn [map concat length]. rewrite H3, G2. repeat split; auto.
Qed.


(** All decoded runes are scalar values. *)
Lemma runes_scalar : forall s, Forall (fun r => scalar r = true) (runes_of s).
Proof.
  unfold runes_of. apply units_ind; [constructor|]. intros s Hs IH. rewrite (units_cons Hs). cbn [map fst]. constructor; [|exact IH].
  destruct (decode_rune s) as [r n] eqn:E. cbn [fst snd]. destruct (decode_cases Hs E) as [[H _]|(-> & _)]; [exact H|reflexivity].
Qed.

Lemma roundtrip_iff : forall s, string_of_runes (runes_of s) = s <-> valid s.
Proof.
  intro s. split.
  - intro H. exists (runes_of s). split; [apply runes_scalar|]. rewrite <- H at 1. apply string_of_scalars, runes_scalar.
  - intros (rs & H & ->). rewrite runes_encs by exact H. apply string_of_scalars; exact H.
Qed.

Lemma valid_app : forall a b, valid a -> valid b -> valid (a ++ b).
Proof.
  intros a b (ra & Ha & ->) (rb & Hb & ->). exists (ra ++ rb). split; [apply Forall_app; auto|]. rewrite map_app, concat_app. reflexivity.
Qed.

Lemma valid_nil : valid [].
Proof. exists []. auto. Qed.

Lemma valid_ascii : forall b, bz b < 128 -> valid [b].
Proof.
  intros b H. pose proof (bz_range b). exists [bz b]. split.
  - constructor; [|constructor]. unfold scalar, in_range. lia.
  - cbn. unfold enc. destruct (Z.ltb_spec (bz b) 128); [|lia]. rewrite zb_bz. reflexivity.
Qed.

Lemma enc_sync : forall r s, scalar r = true -> sync (enc r ++ s).
Proof.
  intros r s H. unfold scalar, in_range in H. unfold enc, sync, cont, in_range.
  destruct (Z.ltb_spec r 128); [|destruct (Z.ltb_spec r 2048); [|destruct (Z.ltb_spec r 65536)]]; cbn [List.app];
    rewrite bz_zb by lia; lia.
Qed.

Lemma valid_sync : forall s, valid s -> sync s.
Proof.
  intros s (rs & H & ->). destruct H as [|r rs Hr H]; [exact I|]. cbn [map concat]. apply enc_sync; exact Hr.
Qed.
