(** Optimality of the segmentation (C02). *)
From Verif Require Import S_Split P_Utf8 P_Split S_Seg P_Dict P_Seg P_Seg2 Ieee P_Ieee.
From Coq Require Import Reals Lra.
From Flocq Require Import IEEE754.BinarySingleNaN.
Set Implicit Arguments. Unset Strict Implicit.

Definition pos32 (A : arith) (x : f32 A) : Prop := ltb32 A (lit32 A 0 0) x = true.
Definition nn32 (A : arith) (x : f32 A) : Prop := x = lit32 A 0 0 \/ pos32 x.

(** What the proof uses of float32. *)
Record laws32 (A : arith) : Prop := {
  l_add : forall x y : f32 A, nn32 x -> pos32 y -> pos32 (add32 A x y);
  l_nz : forall x : f32 A, pos32 x -> eqb32 A x (lit32 A 0 0) = false;
  l_mono : forall x x' y : f32 A, nn32 x -> nn32 x' -> pos32 y -> ltb32 A x' x = false ->
             ltb32 A (add32 A x' y) (add32 A x y) = false;
  l_trans : forall x y z : f32 A, nn32 x -> nn32 y -> nn32 z -> ltb32 A y x = false -> ltb32 A z y = false -> ltb32 A z x = false;
  l_asym : forall x y : f32 A, ltb32 A x y = true -> ltb32 A y x = false;
  l_irr : forall x : f32 A, ltb32 A x x = false;
  l_32 : pos32 (lit32 A 32 0)
}.

Lemma ieee_laws32 : laws32 ieee.
Proof.
  set (K := @key 24 128).
  assert (K0 : K (lit_32 0 0) = 0%R) by reflexivity.
  assert (N0 : is_nan (lit_32 0 0) = false) by reflexivity.
  assert (Hpos : forall x : b32, pos32 (A := ieee) x <-> is_nan x = false /\ (0 < K x)%R).
  { intro x. unfold pos32. cbn [ltb32 lit32 ieee]. split.
    - intro H. destruct (ltb_not_nan H) as [_ Hn]. split; [exact Hn|]. apply (lt_key N0 Hn) in H. fold K in H. lra.
    - intros [Hn Hk]. apply (lt_key N0 Hn). fold K. lra. }
  assert (Hnn : forall x : b32, nn32 (A := ieee) x -> is_nan x = false /\ (0 <= K x)%R).
  { intros x [->|H]; [split; [reflexivity|cbn [lit32 ieee]; lra]|]. apply Hpos in H as [H1 H2]. split; [exact H1|lra]. }
  assert (Hsum : forall x y : b32, is_nan x = false -> (0 <= K x)%R -> is_nan y = false -> (0 <= K y)%R ->
            is_nan (add32 ieee x y) = false).
  { intros x y Nx Kx Ny Ky. cbn [add32 ieee].
    pose proof (emx_pos 128) as He.
    destruct (is_finite x) eqn:Fx; [destruct (is_finite y) eqn:Fy|].
    - apply (proj1 (plus_fin _ _ Fx Fy)).
    - destruct x as [sx|sx| |sx mx ex Bx], y as [sy|sy| |sy my ey By]; try discriminate; reflexivity.
    - destruct x as [sx|sx| |sx mx ex Bx]; try discriminate. destruct sx; [exfalso; unfold K in Kx; cbn [key] in Kx; lra|].
      destruct y as [sy|sy| |sy my ey By]; try discriminate; try reflexivity.
      destruct sy; [exfalso; unfold K in Ky; cbn [key] in Ky; lra|]. reflexivity. }
  constructor.
  - intros x y Hx Hy. apply Hnn in Hx as [Nx Kx]. apply Hpos in Hy as [Ny Ky]. apply Hpos.
    assert (Ns := Hsum x y Nx Kx Ny ltac:(lra)). split; [exact Ns|].
    assert (Hm : (K (add32 ieee (lit_32 0 0) y) <= K (add32 ieee x y))%R).
    { apply plus_mono_l; [apply Hsum; auto; lra|exact Ns|]. fold K. lra. }
    assert (Hz : K (add32 ieee (lit_32 0 0) y) = K y).
    { destruct y as [s|s| |s m e B]; try reflexivity. cbn in Ky. lra. }
    lra.
  - intros x Hx. apply Hpos in Hx as [Nx Kx]. cbn [eqb32 lit32 ieee]. rewrite (eqb_key Nx N0). fold K.
    apply Flocq.Core.Raux.Req_bool_false. lra.
  - intros x x' y Hx Hx' Hy H. apply Hnn in Hx as [Nx Kx]. apply Hnn in Hx' as [Nx' Kx']. apply Hpos in Hy as [Ny Ky].
    assert (N1 := Hsum x y Nx Kx Ny ltac:(lra)). assert (N2 := Hsum x' y Nx' Kx' Ny ltac:(lra)).
    cbn [ltb32 ieee] in *. apply (le_key N1 N2). apply (le_key Nx Nx') in H.
    apply plus_mono_l; assumption.
  - intros x y z Hx Hy Hz H1 H2. apply Hnn in Hx as [Nx _]. apply Hnn in Hy as [Ny _]. apply Hnn in Hz as [Nz _].
    cbn [ltb32 ieee] in *. apply (le_key Nx Ny) in H1. apply (le_key Ny Nz) in H2. apply (le_key Nx Nz). lra.
  - intros x y H. cbn [ltb32 ieee] in *. destruct (ltb_not_nan H) as [Nx Ny]. apply (lt_key Nx Ny) in H.
    apply (le_key Nx Ny). lra.
  - intros x. cbn [ltb32 ieee]. destruct (is_nan x) eqn:Nx; [destruct x; try discriminate; reflexivity|].
    apply (le_key Nx Nx). lra.
  - reflexivity.
Qed.

Lemma nth_skipn : forall A (l : list A) i j, nth_error (skipn i l) j = nth_error l (i + j).
Proof. induction l as [|a l IH]; intros [|i] j; cbn; auto. destruct j; reflexivity. Qed.

Section Opt.
  Variable E : env.
  Variable c : cfg.
  Variable d : dict E.
  Variable search : bool.
  Variable ws : list bytes.
  Hypothesis L : laws32 E.
  Hypothesis Hd : dict_ok c d.
  Hypothesis Hst : stable E c ws.
  Hypothesis Hsearch : search = true -> length ws <> 1.
  Hypothesis Hpos : forall k v t, dict_value d k = Some v -> nth_error (d_tokens d) v = Some t -> pos32 (t_dist t).

  Let n := length ws.
  Notation cand := (cand d search ws).
  Notation base := (@base E).

  Lemma cand_pos : forall i j r, i < j -> j <= n -> cand i j = Some r -> pos32 (A := E) (dist_of d r).
  Proof.
    intros i j r Hij Hj Hc. destruct (@cand_spec E c d search ws Hd Hst Hsearch i j r Hij Hj Hc) as (t & H1 & H2 & _ & Hp & _).
    unfold dist_of. rewrite H1. inversion Hp as [p v Hne Hv E1 E2|w Hw E1 E2]; subst.
    - cbn [deref] in H1. apply get_Ok in H1. eapply Hpos; eassumption.
    - cbn [deref] in H1. injection H1 as <-. cbn. apply L.
  Qed.

  Variable js : list (jumper E).
  Hypothesis HI : Inv d search ws n js.

  Lemma jumper_pos : forall l, l <= n -> nn32 (A := E) (base js l) /\ (0 < l -> pos32 (A := E) (base js l)).
  Proof.
    induction l as [l IH] using (well_founded_induction lt_wf). intro Hl. destruct l as [|p].
    - split; [left; reflexivity|lia].
    - destruct (@final_jumper E d search ws Hsearch js p HI) as (r & i & x & H1 & H2 & H3 & H4); [unfold n in *; lia|].
      assert (Hp : pos32 (A := E) (base js (S p))).
      { cbn [P_Seg.base]. rewrite H1. cbn [fst]. rewrite H4. apply L; [apply IH; lia|]. eapply cand_pos; [| |exact H3]; lia. }
      split; [right; exact Hp|auto].
  Qed.

  Lemma nn_pos : forall x : f32 E, pos32 (A := E) x -> nn32 (A := E) x.
  Proof. intros; right; assumption. Qed.

  Lemma fold_min : forall l is, l < n -> (forall i, In i is -> i <= l) ->
    let j := fold_cands d search ws js l is in
    (snd j = None -> j = (lit32 E 0 0, None)) /\ (forall r, snd j = Some r -> pos32 (A := E) (fst j)) /\
    (forall i r, In i is -> cand i (S l) = Some r ->
       snd j <> None /\ ltb32 E (add32 E (base js i) (dist_of d r)) (fst j) = false).
  Proof.
    intros l is Hl. cbv zeta. unfold fold_cands. induction is as [|i is IH] using rev_ind; intro Hi.
    - cbn. repeat apply conj; try discriminate; try contradiction. reflexivity.
    - rewrite fold_left_app. cbn [fold_left]. set (j := fold_left _ is _) in *.
      destruct IH as (I1 & I2 & I3). { intros i' Hi'. apply Hi. apply in_or_app; auto. }
      assert (Hil : i <= l) by (apply Hi; apply in_or_app; right; left; reflexivity).
      unfold app_cand. destruct (cand i (S l)) as [r|] eqn:Ec.
      + set (nd := add32 E (base js i) (dist_of d r)).
        assert (Pnd : pos32 (A := E) nd).
        { apply L; [apply jumper_pos; lia|]. eapply cand_pos; [| |exact Ec]; unfold n in *; lia. }
        unfold update_jumper. fold nd.
        destruct (snd j) as [r0|] eqn:Es.
        * specialize (I2 _ eq_refl). rewrite (l_nz L I2). cbn [orb].
          destruct (ltb32 E nd (fst j)) eqn:Elt; cbn [fst snd].
          -- repeat apply conj; try discriminate; auto.
             intros i' r' Hi' Hc'. split; [discriminate|]. apply in_app_or in Hi' as [Hi'|[<-|[]]].
             ++ apply (@l_trans _ L nd (fst j)); auto using nn_pos, l_asym.
                ** assert (i' <= l) by (apply Hi; apply in_or_app; auto).
                   apply nn_pos. apply L; [apply jumper_pos; lia|]. eapply cand_pos; [| |exact Hc']; unfold n in *; lia.
                ** apply (I3 i' r' Hi' Hc').
             ++ assert (r' = r) by congruence. subst r'. apply (l_irr L).
          -- rewrite Es. repeat apply conj; try discriminate; auto.
             intros i' r' Hi' Hc'. split; [discriminate|]. apply in_app_or in Hi' as [Hi'|[<-|[]]].
             ++ apply (I3 i' r' Hi' Hc').
             ++ assert (r' = r) by congruence. subst r'. exact Elt.
        * rewrite (I1 eq_refl). cbn [fst]. rewrite zero32_refl. cbn [orb fst snd].
          repeat apply conj; try discriminate; auto.
          intros i' r' Hi' Hc'. split; [discriminate|]. apply in_app_or in Hi' as [Hi'|[<-|[]]].
          -- destruct (I3 i' r' Hi' Hc') as [Hx _]. congruence.
          -- assert (r' = r) by congruence. subst r'. apply (l_irr L).
      + repeat apply conj; auto. intros i' r' Hi' Hc'. apply in_app_or in Hi' as [Hi'|[<-|[]]]; [auto|congruence].
  Qed.

  Lemma piece_cand : forall i j r, i < j -> j <= n -> piece d (slice ws i j) r -> (search = true -> ~ (i = 0 /\ j = n)) ->
    cand i j = Some r.
  Proof.
    intros i j r Hij Hj Hp Hs. unfold P_Seg.cand. inversion Hp as [p v Hne Hv E1 E2|w Hw E1 E2].
    - subst p. rewrite dict_value_get in Hv. rewrite Hv.
      destruct (search && (i =? 0) && (j =? length ws)) eqn:Ex; [|reflexivity].
      exfalso. apply andb_prop in Ex as [Ex X3]. apply andb_prop in Ex as [X1 X2]. apply Nat.eqb_eq in X2, X3.
      apply (Hs X1). auto.
    - assert (Hl : length (slice ws i j) = 1) by (rewrite <- E1; reflexivity). rewrite slice_length in Hl by (unfold n in *; lia).
      assert (j = S i) by lia. subst j. cbn [concat]. rewrite app_nil_r. rewrite dict_value_get in Hw. rewrite Hw, Nat.eqb_refl.
      assert (Hn : nth_error ws i = Some w).
      { replace i with (i + 0) by lia. rewrite <- nth_skipn. unfold slice in E1.
        replace (S i - i) with 1 in E1 by lia. destruct (skipn i ws); cbn in E1; [discriminate|]. cbn. congruence. }
      rewrite Hn. reflexivity.
  Qed.

  Lemma tiling_min : forall rs ps k, Forall2 (piece d) ps rs -> concat ps = firstn k ws -> k <= n ->
    (search = true -> k = n -> length ps <> 1) ->
    nn32 (A := E) (cost d rs) /\ ltb32 E (cost d rs) (base js k) = false.
  Proof.
    induction rs as [|r rs IH] using rev_ind; intros ps k HF Hc Hk Hs.
    - inversion HF; subst. cbn in Hc. assert (k = 0).
      { apply (f_equal (@length _)) in Hc. rewrite firstn_length in Hc. cbn in Hc. unfold n in *. lia. }
      subst k. cbn. split; [left; reflexivity|apply (l_irr L)].
    - apply Forall2_app_inv_r in HF as (ps' & q & HF1 & HF2 & ->).
      inversion HF2 as [|p r' q' rs' Hp Hnil]; subst. inversion Hnil; subst. clear HF2 Hnil.
      rewrite concat_app in Hc. cbn [concat] in Hc. rewrite app_nil_r in Hc.
      set (i := length (concat ps')).
      assert (Hpne : p <> []) by (inversion Hp; subst; [assumption|discriminate]).
      assert (Hlen : i + length p = k).
      { apply (f_equal (@length _)) in Hc. rewrite app_length, firstn_length in Hc. unfold n in *. fold i in Hc. lia. }
      assert (Hp0 : 0 < length p) by (destruct p; [congruence|cbn; lia]).
      assert (H1 : concat ps' = firstn i ws).
      { apply (f_equal (firstn i)) in Hc. rewrite firstn_app, firstn_firstn in Hc.
        replace (Nat.min i k) with i in Hc by lia. unfold i in Hc at 1. rewrite firstn_all in Hc.
        unfold i in Hc at 1. rewrite Nat.sub_diag in Hc. cbn in Hc. rewrite app_nil_r in Hc. exact Hc. }
      assert (H2 : p = slice ws i k).
      { rewrite H1 in Hc. assert (Hf : firstn k ws = firstn i ws ++ slice ws i k).
        { unfold slice. rewrite <- (firstn_skipn i (firstn k ws)) at 1. rewrite firstn_firstn, skipn_firstn_comm.
          replace (Nat.min i k) with i by lia. reflexivity. }
        rewrite Hf in Hc. apply app_inv_head in Hc. exact Hc. }
      destruct (IH ps' i HF1 H1) as [J1 J2]; [lia|intros _ Hx; lia|].
      rewrite H2 in Hp.
      assert (Hcand : cand i k = Some r).
      { apply piece_cand; auto; [lia|]. intros Hse [Hi0 Hkn]. apply (Hs Hse Hkn). rewrite app_length. cbn [length].
        assert (ps' = []).
        { destruct ps' as [|p' ps'']; [reflexivity|]. exfalso. inversion HF1 as [|? ? ? ? Hp' ?]; subst.
          assert (p' <> []) by (inversion Hp'; subst; [assumption|discriminate]).
          unfold i in Hi0. cbn [concat] in Hi0. rewrite app_length in Hi0. destruct p'; [congruence|cbn in Hi0; lia]. }
        subst ps'. reflexivity. }
      assert (Pr : pos32 (A := E) (dist_of d r)) by (eapply cand_pos; [| |exact Hcand]; lia).
      unfold cost in *. rewrite fold_left_app. cbn [fold_left]. set (cr := fold_left _ rs _) in *.
      assert (Nsum : pos32 (A := E) (add32 E cr (dist_of d r))) by (apply L; assumption).
      split; [right; exact Nsum|].
      destruct k as [|l]; [lia|].
      assert (Hl : l < n) by lia.
      destruct (@fold_min l (seq 0 (S l)) Hl) as (_ & _ & F3). { intros i' Hi'. apply in_seq in Hi'. lia. }
      destruct (F3 i r) as [_ F4]; [apply in_seq; lia|exact Hcand|].
      assert (Hb : base js (S l) = fst (fold_cands d search ws js l (seq 0 (S l)))).
      { cbn [P_Seg.base]. destruct HI as [_ HI']. rewrite (HI' l Hl). replace (Nat.min n (S l)) with (S l) by lia. reflexivity. }
      rewrite Hb in *. eapply (@l_trans _ L) with (y := add32 E (base js i) (dist_of d r)).
      + rewrite <- Hb. apply jumper_pos. lia.
      + apply nn_pos. apply L; [apply jumper_pos; lia|exact Pr].
      + apply nn_pos. exact Nsum.
      + exact F4.
      + apply L; auto. apply jumper_pos. lia.
  Qed.
End Opt.

Lemma c02_laws : forall E c (d : dict E) s m ws segs, laws32 E -> reachable c d ->
  (forall w v t, dict_value d w = Some v -> nth_error (d_tokens d) v = Some t -> ltb32 E (lit32 E 0 0) (t_dist t) = true) ->
  split_words E c s = Ok ws -> internal_segment c (Some d) s m = Ok segs -> (m = true -> 2 <= length ws) ->
  tiling d ws (map sg_tok segs) /\
  forall rs, tiling d ws rs -> (m = true -> length rs <> 1) -> ltb32 E (cost d rs) (cost d (map sg_tok segs)) = false.
Proof.
  intros E c d s m ws segs L Hr Hp Hs Hseg Hm. rewrite split_words_eq in Hs. injection Hs as <-.
  apply reachable_inv in Hr.
  destruct (@segment_inv E c d s m Hr) as (segs' & A1 & _ & A2 & _ & js & ps & HI & Hch).
  { intros Hmt. specialize (Hm Hmt). lia. }
  rewrite A1 in Hseg. injection Hseg as <-. split; [exact A2|].
  intros rs (ps' & Hps & HF) Hlen.
  rewrite (chain_cost Hch).
  eapply (@tiling_min E c d m (wsplit E c s) L (inv_ok Hr)) with (k := length (wsplit E c s)) (ps := ps'); auto.
  - apply split_is_stable.
  - intros Hmt. specialize (Hm Hmt). lia.
  - rewrite Hps, firstn_all. reflexivity.
  - intros Hmt _. rewrite (Forall2_length' HF). auto.
Qed.
Lemma c02 : forall E c (d : dict E) s m ws segs, ar E = ieee -> reachable c d ->
  (forall w v t, dict_value d w = Some v -> nth_error (d_tokens d) v = Some t -> ltb32 E (lit32 E 0 0) (t_dist t) = true) ->
  split_words E c s = Ok ws -> internal_segment c (Some d) s m = Ok segs -> (m = true -> 2 <= length ws) ->
  tiling d ws (map sg_tok segs) /\
  forall rs, tiling d ws rs -> (m = true -> length rs <> 1) -> ltb32 E (cost d rs) (cost d (map sg_tok segs)) = false.
Proof. intros E c d s m ws segs HA. apply c02_laws. rewrite HA. exact ieee_laws32. Qed.
