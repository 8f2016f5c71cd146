(** Order properties of IEEE addition, from Flocq. *)
From Coq Require Import ZArith Reals Lra Psatz.
From Flocq Require Import Core IEEE754.BinarySingleNaN.
Set Implicit Arguments. Unset Strict Implicit.

Section F.
  Variables prec emax : Z.
  Hypothesis Hp : FLX.Prec_gt_0 prec.
  Hypothesis Hm : Prec_lt_emax prec emax.
  Notation bf := (binary_float prec emax).
  Notation plus := (@Bplus prec emax Hp Hm mode_NE).
  Notation fexp := (SpecFloat.fexp prec emax).
  Let emx : R := bpow radix2 emax.

  Definition key (x : bf) : R :=
    match x with
    | B754_infinity true => (- emx)%R
    | B754_infinity false => emx
    | _ => B2R x
    end.

  Lemma emx_pos : (0 < emx)%R.
  Proof. apply bpow_gt_0. Qed.

  Lemma key_fin : forall x : bf, is_finite x = true -> key x = B2R x /\ (- emx < key x < emx)%R.
  Proof.
    intros x Hf. assert (Hk : key x = B2R x) by (destruct x as [s|[]| |]; try discriminate; reflexivity).
    rewrite Hk. split; [reflexivity|]. pose proof (abs_B2R_lt_emax _ _ x) as H. apply Rabs_lt_inv in H. exact H.
  Qed.

  Lemma is_fin_dec : forall x : bf, is_nan x = false -> is_finite x = true \/ x = B754_infinity true \/ x = B754_infinity false.
  Proof. intros [s|[]| |] H; try discriminate; auto. Qed.

  Lemma ltb_key : forall x y : bf, is_nan x = false -> is_nan y = false -> Bltb x y = Rlt_bool (key x) (key y).
  Proof.
    intros x y Hx Hy. pose proof emx_pos as He.
    destruct (is_fin_dec Hx) as [Fx|[->| ->]]; destruct (is_fin_dec Hy) as [Fy|[->| ->]];
      try (pose proof (proj2 (key_fin Fx))); try (pose proof (proj2 (key_fin Fy))).
    - rewrite (Bltb_correct _ _ x y Fx Fy), (proj1 (key_fin Fx)), (proj1 (key_fin Fy)). reflexivity.
    - symmetry. destruct x as [s|s| |s m e]; try discriminate; cbn [key] in *; (rewrite Rlt_bool_false; [|lra]); try reflexivity; destruct s; reflexivity.
    - symmetry. destruct x as [s|s| |s m e]; try discriminate; cbn [key] in *; (rewrite Rlt_bool_true; [|lra]); try reflexivity; destruct s; reflexivity.
    - symmetry. destruct y as [s|s| |s m e]; try discriminate; cbn [key] in *; (rewrite Rlt_bool_true; [|lra]); try reflexivity.
    - cbn. rewrite Rlt_bool_false; [reflexivity|lra].
    - cbn. rewrite Rlt_bool_true; [reflexivity|lra].
    - symmetry. destruct y as [s|s| |s m e]; try discriminate; cbn [key] in *; (rewrite Rlt_bool_false; [|lra]); try reflexivity.
    - cbn. rewrite Rlt_bool_false; [reflexivity|lra].
    - cbn. rewrite Rlt_bool_false; [reflexivity|lra].
  Qed.

  Lemma eqb_key : forall x y : bf, is_nan x = false -> is_nan y = false -> Beqb x y = Req_bool (key x) (key y).
  Proof.
    intros x y Hx Hy. pose proof emx_pos as He.
    destruct (is_fin_dec Hx) as [Fx|[->| ->]]; destruct (is_fin_dec Hy) as [Fy|[->| ->]];
      try (pose proof (proj2 (key_fin Fx))); try (pose proof (proj2 (key_fin Fy))).
    - rewrite (Beqb_correct _ _ x y Fx Fy), (proj1 (key_fin Fx)), (proj1 (key_fin Fy)). reflexivity.
    - symmetry. destruct x as [s|s| |s m e]; try discriminate; cbn [key] in *; (rewrite Req_bool_false; [|lra]); try reflexivity; destruct s; reflexivity.
    - symmetry. destruct x as [s|s| |s m e]; try discriminate; cbn [key] in *; (rewrite Req_bool_false; [|lra]); try reflexivity; destruct s; reflexivity.
    - symmetry. destruct y as [s|s| |s m e]; try discriminate; cbn [key] in *; (rewrite Req_bool_false; [|lra]); try reflexivity; destruct s; reflexivity.
    - cbn. rewrite Req_bool_true; [reflexivity|lra].
    - cbn. rewrite Req_bool_false; [reflexivity|lra].
    - symmetry. destruct y as [s|s| |s m e]; try discriminate; cbn [key] in *; (rewrite Req_bool_false; [|lra]); try reflexivity; destruct s; reflexivity.
    - cbn. rewrite Req_bool_false; [reflexivity|lra].
    - cbn. rewrite Req_bool_true; [reflexivity|lra].
  Qed.

  Definition rnd (x : R) : R := round radix2 fexp ZnearestE x.
  Definition clamp (x : R) : R := Rmax (- emx) (Rmin emx x).

  Lemma clamp_mono : forall x y, (x <= y)%R -> (clamp x <= clamp y)%R.
  Proof.
    intros x y H. unfold clamp. apply Rle_max_compat_l. apply Rle_min_compat_l. exact H.
  Qed.

  Lemma rnd_mono : forall x y, (x <= y)%R -> (rnd x <= rnd y)%R.
  Proof. intros x y H. unfold rnd. apply round_le; [apply fexp_correct; assumption|apply valid_rnd_N|exact H]. Qed.

  Lemma plus_fin : forall x y : bf, is_finite x = true -> is_finite y = true ->
    is_nan (plus x y) = false /\ key (plus x y) = clamp (rnd (B2R x + B2R y)).
  Proof.
    intros x y Fx Fy. pose proof emx_pos as He.
    pose proof (@Bplus_correct prec emax Hp Hm mode_NE x y Fx Fy) as H. cbv zeta in H.
    change (round radix2 fexp (round_mode mode_NE) (B2R x + B2R y)) with (rnd (B2R x + B2R y)) in H.
    destruct (Rlt_bool_spec (Rabs (rnd (B2R x + B2R y))) (bpow radix2 emax)) as [Hlt|Hge].
    - destruct H as (H1 & H2 & _). split; [destruct (plus x y); try discriminate; reflexivity|].
      rewrite (proj1 (key_fin H2)), H1. apply Rabs_lt_inv in Hlt. fold emx in Hlt. unfold clamp.
      rewrite Rmin_right by lra. rewrite Rmax_right by lra. reflexivity.
    - destruct H as (H1 & H2).
      assert (Hov : SpecFloat.S754_infinity (Bsign x) = B2SF (plus x y)) by (rewrite H1; reflexivity).
      assert (Hs : plus x y = B754_infinity (Bsign x)).
      { destruct (plus x y); try discriminate. cbn in Hov. injection Hov as ->. reflexivity. }
      rewrite Hs. split; [reflexivity|].
      assert (Hsx : if Bsign x then (B2R x <= 0)%R else (0 <= B2R x)%R).
      { destruct x as [s|s| |s m e B]; try discriminate; cbn [Bsign]; destruct s; cbn; try lra.
        - apply F2R_le_0. cbn. lia. - apply F2R_ge_0. cbn. lia. }
      assert (Hsy : if Bsign y then (B2R y <= 0)%R else (0 <= B2R y)%R).
      { destruct y as [s|s| |s m e B]; try discriminate; cbn [Bsign]; destruct s; cbn; try lra.
        - apply F2R_le_0. cbn. lia. - apply F2R_ge_0. cbn. lia. }
      rewrite <- H2 in Hsy.
      assert (R0 : rnd 0 = 0%R) by (unfold rnd; apply round_0; apply valid_rnd_N).
      fold emx in Hge. unfold clamp. destruct (Bsign x); cbn [key].
      + assert (rnd (B2R x + B2R y) <= 0)%R by (rewrite <- R0; apply rnd_mono; lra).
        rewrite Rabs_left1 in Hge by assumption. rewrite Rmin_right by lra. rewrite Rmax_left by lra. reflexivity.
      + assert (0 <= rnd (B2R x + B2R y))%R by (rewrite <- R0; apply rnd_mono; lra).
        rewrite Rabs_pos_eq in Hge by assumption. rewrite Rmin_left by lra. rewrite Rmax_right by lra. reflexivity.
  Qed.

  Lemma key_range : forall x : bf, is_nan x = false -> (- emx <= key x <= emx)%R.
  Proof.
    intros x H. pose proof emx_pos. destruct (is_fin_dec H) as [F|[->| ->]]; cbn [key]; [|lra|lra].
    pose proof (proj2 (key_fin F)). lra.
  Qed.

  Lemma plus_inf_l : forall s (y : bf), is_nan (plus (B754_infinity s) y) = false -> plus (B754_infinity s) y = B754_infinity s.
  Proof. intros s [s'|s'| |s' m e B] H; destruct s; try destruct s'; try discriminate; reflexivity. Qed.

  Lemma plus_inf_r : forall s (x : bf), is_nan (plus x (B754_infinity s)) = false -> plus x (B754_infinity s) = B754_infinity s.
  Proof. intros s [s'|s'| |s' m e B] H; destruct s; try destruct s'; try discriminate; reflexivity. Qed.

  Lemma plus_nan : forall x y : bf, is_nan (plus x y) = false -> is_nan x = false /\ is_nan y = false.
  Proof. intros [s|s| |s m e B] [s'|s'| |s' m' e' B'] H; try discriminate; split; reflexivity. Qed.

  (** Addition is monotone in its left argument wherever no NaN is involved. *)
  Lemma plus_mono_l : forall a b c : bf, is_nan (plus a c) = false -> is_nan (plus b c) = false ->
    (key a <= key b)%R -> (key (plus a c) <= key (plus b c))%R.
  Proof.
    intros a b c Na Nb Hle. pose proof emx_pos as He.
    destruct (plus_nan Na) as [Ha Hc]. destruct (plus_nan Nb) as [Hb _].
    pose proof (key_range Na) as Ra. pose proof (key_range Nb) as Rb.
    destruct (is_fin_dec Hb) as [Fb|[->| ->]].
    - destruct (is_fin_dec Ha) as [Fa|[->| ->]].
      + destruct (is_fin_dec Hc) as [Fc|[->| ->]].
        * rewrite (proj2 (plus_fin Fa Fc)), (proj2 (plus_fin Fb Fc)). apply clamp_mono, rnd_mono.
          rewrite (proj1 (key_fin Fa)), (proj1 (key_fin Fb)) in Hle. lra.
        * rewrite (plus_inf_r Na), (plus_inf_r Nb). lra.
        * rewrite (plus_inf_r Na), (plus_inf_r Nb). lra.
      + rewrite (plus_inf_l Na). cbn [key] in *. lra.
      + pose proof (proj2 (key_fin Fb)). cbn [key] in *. lra.
    - destruct (is_fin_dec Ha) as [Fa|[->| ->]].
      + pose proof (proj2 (key_fin Fa)). cbn [key] in *. lra.
      + lra.
      + cbn [key] in *. lra.
    - rewrite (plus_inf_l Nb). cbn [key]. lra.
  Qed.

  Lemma key_plus_comm : forall a b : bf, is_nan (plus a b) = is_nan (plus b a) /\ key (plus a b) = key (plus b a).
  Proof.
    intros a b. destruct (is_finite a) eqn:Fa; [destruct (is_finite b) eqn:Fb|].
    - destruct (plus_fin Fa Fb) as [-> ->]. destruct (plus_fin Fb Fa) as [-> ->]. rewrite Rplus_comm. auto.
    - destruct a as [s|s| |s m e B], b as [s'|s'| |s' m' e' B']; try discriminate; split; reflexivity.
    - destruct a as [s|s| |s m e B], b as [s'|s'| |s' m' e' B']; try discriminate; try (split; reflexivity).
      destruct s, s'; split; reflexivity.
  Qed.

  Lemma plus_mono_r : forall a b c : bf, is_nan (plus c a) = false -> is_nan (plus c b) = false ->
    (key a <= key b)%R -> (key (plus c a) <= key (plus c b))%R.
  Proof.
    intros a b c Ha Hb Hle. rewrite (proj2 (key_plus_comm c a)), (proj2 (key_plus_comm c b)).
    apply plus_mono_l; [rewrite (proj1 (key_plus_comm a c))|rewrite (proj1 (key_plus_comm b c))|]; assumption.
  Qed.

  Lemma le_key : forall a b : bf, is_nan a = false -> is_nan b = false -> (Bltb b a = false <-> (key a <= key b)%R).
  Proof.
    intros a b Ha Hb. rewrite ltb_key by assumption.
    destruct (Rlt_bool_spec (key b) (key a)); split; intros; try congruence; try lra.
  Qed.
  Lemma lt_key : forall a b : bf, is_nan a = false -> is_nan b = false -> (Bltb a b = true <-> (key a < key b)%R).
  Proof.
    intros a b Ha Hb. rewrite ltb_key by assumption.
    destruct (Rlt_bool_spec (key a) (key b)); split; intros; try congruence; try lra.
  Qed.
  Lemma ltb_not_nan : forall a b : bf, Bltb a b = true -> is_nan a = false /\ is_nan b = false.
  Proof. intros [s|s| |s m e B] [s'|s'| |s' m' e' B'] H; try discriminate; try (split; reflexivity); destruct s; discriminate. Qed.
  Lemma eqb_not_nan : forall a b : bf, Beqb a b = true -> is_nan a = false /\ is_nan b = false.
  Proof. intros [s|s| |s m e B] [s'|s'| |s' m' e' B'] H; try discriminate; try (split; reflexivity); destruct s; discriminate. Qed.
End F.
