(** Segment in exact arithmetic (C87). *)
From Verif Require Import S_Exact M_Out P_Split P_Dict P_Seg P_Seg2 P_Seg3 P_Out P_Hist P_Meta4 P_Exact.
From Coq Require Import Lra.
Set Implicit Arguments. Unset Strict Implicit.

Section Exact2.
  Variable E : env.
  Variable val : f64 E -> option R.
  Variable val32 : f32 E -> option R.
  Hypothesis X : exact32 val val32.

  Lemma val32_z : val32 (lit32 E 0 0) = Some 0%R.
  Proof. rewrite (x_lit X). f_equal. cbn. lra. Qed.
  Lemma val32_32 : val32 (lit32 E 32 0) = Some 32%R.
  Proof. rewrite (x_lit X). f_equal. cbn. lra. Qed.
  Lemma pos_val : forall x : f32 E, pos32 x <-> exists a, val32 x = Some a /\ (0 < a)%R.
  Proof.
    intro x. unfold pos32. rewrite (x_lt X), val32_z. destruct (val32 x) as [a|]; [|split; [tauto|intros (a & H & _); discriminate]].
    split; [eauto|]. intros (b & H & Hb). injection H as ->. exact Hb.
  Qed.
  Lemma nn_val : forall x : f32 E, nn32 x -> exists a, val32 x = Some a /\ (0 <= a)%R.
  Proof. intros x [->|H]; [rewrite val32_z; exists 0%R; split; [reflexivity|lra]|]. apply pos_val in H as (a & H & Ha). exists a. split; [exact H|lra]. Qed.
  Lemma lt_false : forall (x y : f32 E) a b, val32 x = Some a -> val32 y = Some b -> ltb32 E x y = false <-> (b <= a)%R.
  Proof.
    intros x y a b Hx Hy. pose proof (x_lt X x y) as H. rewrite Hx, Hy in H. destruct (ltb32 E x y).
    - split; [discriminate|]. intro K. assert (a < b)%R by (apply H; reflexivity). lra.
    - split; [|reflexivity]. intros _. apply Rnot_lt_le. intro K. apply H in K. discriminate.
  Qed.
  Lemma exact_laws32 : laws32 E.
  Proof.
    split.
    - intros x y Hx Hy. apply nn_val in Hx as (a & Ha & Ha'). apply pos_val in Hy as (b & Hb & Hb'). apply pos_val. exists (a + b)%R. rewrite (x_add X), Ha, Hb. split; [reflexivity|lra].
    - intros x Hx. apply pos_val in Hx as (a & Ha & Ha'). destruct (eqb32 E x (lit32 E 0 0)) eqn:He; [|reflexivity]. apply (x_eq X) in He. rewrite Ha, val32_z in He. injection He as ->. lra.
    - intros x x' y Hx Hx' Hy H. apply nn_val in Hx as (a & Ha & _). apply nn_val in Hx' as (a' & Ha' & _). apply pos_val in Hy as (b & Hb & _).
      apply (lt_false Ha' Ha) in H. apply (@lt_false _ _ (a' + b)%R (a + b)%R); [rewrite (x_add X), Ha', Hb; reflexivity|rewrite (x_add X), Ha, Hb; reflexivity|lra].
    - intros x y z Hx Hy Hz. apply nn_val in Hx as (a & Ha & _). apply nn_val in Hy as (b & Hb & _). apply nn_val in Hz as (c & Hc & _).
      rewrite (lt_false Hb Ha), (lt_false Hc Hb), (lt_false Hc Ha). lra.
    - intros x y H. pose proof (x_lt X x y) as H1. pose proof (x_lt X y x) as H2. destruct (ltb32 E y x); [|reflexivity]. exfalso.
      rewrite H in H1. destruct H1 as [H1 _]. specialize (H1 eq_refl). destruct H2 as [H2 _]. specialize (H2 eq_refl). destruct (val32 x), (val32 y); auto. lra.
    - intros x. pose proof (x_lt X x x) as H1. destruct (ltb32 E x x); [|reflexivity]. exfalso. destruct H1 as [H1 _]. specialize (H1 eq_refl). destruct (val32 x); [lra|exact H1].
    - apply pos_val. exists 32%R. split; [exact val32_32|lra].
  Qed.

  Section Best.
    Variables (c : cfg) (d0 d : dict E) (T : R).
    Hypothesis Hr0 : reachable c d0.
    Hypothesis Hc : calc_token d0 = Ok d.
    Hypothesis HT : val (d_total d) = Some T.
    Hypothesis Hs : forall w f, stored d w f -> exists a, val f = Some a /\ (0 < a < T)%R.

    Lemma calc_reachable : reachable c d.
    Proof. destruct Hr0 as (os & Ho). exists (os ++ [OpCalc]). rewrite run_ops_app, Ho. cbn [bind run_ops run_op]. rewrite Hc. reflexivity. Qed.
    Lemma ln2 : (0 < ln 2)%R.
    Proof. rewrite <- ln_1. apply ln_increasing; lra. Qed.
    Lemma dist_word : forall w v, dict_value d w = Some v -> exists f a, stored d w f /\ val f = Some a /\ (0 < a < T)%R /\ val32 (dist_of d (InDict v)) = Some (- ln (a / T) / ln 2)%R.
    Proof.
      intros w v Hv. pose proof (reachable_inv calc_reachable) as Hi. rewrite dict_value_get in Hv. destruct (ok_entry (inv_ok Hi) Hv) as (t & N & _).
      assert (St : stored d w (t_freq t)) by (exists v, t; rewrite dict_value_get; auto). destruct (Hs St) as (a & Ha & Hb). exists (t_freq t), a. split; [exact St|]. split; [exact Ha|]. split; [exact Hb|].
      rewrite (dist_of_dict N). destruct (calc_get (inv_ok (reachable_inv Hr0)) Hc N) as (t0 & segs & _ & _ & _ & _ & _ & _ & _ & ->).
      assert (L1 := x_log2 X HT ltac:(lra)). assert (L2 := x_log2 X Ha (proj1 Hb)). rewrite (x_sub X (x_to X L1) (x_to X L2)). f_equal.
      unfold Rdiv at 4. rewrite ln_mult, ln_Rinv by (try apply Rinv_0_lt_compat; lra). pose proof ln2. field. lra.
    Qed.
    Lemma positive : forall w v t, dict_value d w = Some v -> nth_error (d_tokens d) v = Some t -> ltb32 E (lit32 E 0 0) (t_dist t) = true.
    Proof.
      intros w v t Hv N. destruct (dist_word Hv) as (f & a & _ & _ & Ha & D). rewrite (dist_of_dict N) in D. apply pos_val. eexists. split; [exact D|].
      assert (L : (ln (a / T) < 0)%R).
      { rewrite <- ln_1. apply ln_increasing; [apply Rdiv_lt_0_compat; lra|]. apply (Rmult_lt_reg_r T); [lra|]. unfold Rdiv. rewrite Rmult_assoc, Rinv_l by lra. lra. }
      pose proof ln2. apply Rdiv_lt_0_compat; lra.
    Qed.
    Lemma dist_other : forall w, val32 (dist_of d (Fallback w)) = Some (- ln (/ 2 ^ 32) / ln 2)%R.
    Proof.
      intro w. change (dist_of d (Fallback w)) with (lit32 E 32 0). rewrite val32_32. f_equal. rewrite ln_Rinv by (apply pow_lt; lra). rewrite ln_pow by lra. pose proof ln2. cbn [INR]. field. lra.
    Qed.
    (** Every tiling is a reading and the other way round; the path length is minus the logarithm of the probability. *)
    Lemma read_pos : forall ws qs r, likely val d T ws qs r -> (0 < r)%R.
    Proof.
      intros ws qs r H. induction H as [|p rest qs r f a Hp Hst Hf H IH|w rest qs r Hw H IH].
      - lra.
      - destruct (Hs Hst) as (a' & Ha & Hb). assert (a' = a) by congruence. subst a'. apply Rmult_lt_0_compat; [apply Rdiv_lt_0_compat; lra|exact IH].
      - apply Rmult_lt_0_compat; [|exact IH]. apply Rinv_0_lt_compat. apply pow_lt. lra.
    Qed.
    Lemma not_stored : forall w, dict_value d w = None -> forall f, ~ stored d w f.
    Proof. intros w H f (v & t & H1 & _). congruence. Qed.
    Definition text_of (r : tref) : bytes := match deref d r with Ok t => concat (t_text t) | _ => [] end.
    Lemma text_word : forall w v, dict_value d w = Some v -> text_of (InDict v) = w.
    Proof.
      intros w v Hv. pose proof (reachable_inv calc_reachable) as Hi. rewrite dict_value_get in Hv. destruct (ok_entry (inv_ok Hi) Hv) as (t & N & _ & K & _).
      unfold text_of. cbn [deref]. unfold get. rewrite N. exact K.
    Qed.
    Lemma tiling_read : forall ps rs, Forall2 (piece d) ps rs -> exists r, likely val d T (concat ps) (map text_of rs) r /\
      forall x a, val32 x = Some a -> val32 (fold_left (fun a r => add32 E a (dist_of d r)) rs x) = Some (a - ln r / ln 2)%R.
    Proof.
      intros ps rs H. pose proof ln2. induction H as [|p t ps rs Hp H IH]; cbn [concat map fold_left].
      - exists 1%R. split; [constructor|]. intros x a Hx. rewrite Hx, ln_1. f_equal. field. lra.
      - destruct IH as (r & L & C). pose proof (read_pos L) as Hr. destruct Hp as [p v Hne Hv|w Hw].
        + destruct (dist_word Hv) as (f & a & F1 & F2 & F3 & F4). exists (a / T * r)%R. split; [rewrite (text_word Hv); econstructor; eassumption|].
          intros x b Hx. rewrite (C _ (b + - ln (a / T) / ln 2)%R); [|rewrite (x_add X), Hx, F4; reflexivity]. f_equal. rewrite ln_mult; [field; lra|apply Rdiv_lt_0_compat; lra|exact Hr].
        + exists (/ 2 ^ 32 * r)%R. split.
          * change (text_of (Fallback w)) with (w ++ []). rewrite app_nil_r. cbn [app]. apply lk_other; [apply not_stored; exact Hw|exact L].
          * intros x b Hx. rewrite (C _ (b + - ln (/ 2 ^ 32) / ln 2)%R); [|rewrite (x_add X), Hx, dist_other; reflexivity]. f_equal.
            rewrite (ln_mult (/ 2 ^ 32)); [field; lra|apply Rinv_0_lt_compat; apply pow_lt; lra|exact Hr].
    Qed.
    Lemma read_tiling : forall ws qs r, likely val d T ws qs r -> exists ps rs, concat ps = ws /\ Forall2 (piece d) ps rs /\
      forall x a, val32 x = Some a -> val32 (fold_left (fun a r => add32 E a (dist_of d r)) rs x) = Some (a - ln r / ln 2)%R.
    Proof.
      intros ws qs r H. pose proof ln2. induction H as [|p rest qs r f a Hp Hst Hf H IH|w rest qs r Hw H IH].
      - exists [], []. split; [reflexivity|]. split; [constructor|]. intros x a Hx. cbn [fold_left]. rewrite Hx, ln_1. f_equal. field. lra.
      - destruct IH as (ps & rs & I1 & I2 & I3). pose proof (read_pos H) as Hr. pose proof Hst as (v & t & V1 & V2 & V3). exists (p :: ps), (InDict v :: rs).
        split; [cbn [concat]; rewrite I1; reflexivity|]. split; [constructor; [apply piece_dict; assumption|exact I2]|].
        intros x b Hx. cbn [fold_left]. destruct (dist_word V1) as (f' & a' & F1 & F2 & F3 & F4). assert (f' = f) by (destruct F1 as (v' & t' & G1 & G2 & G3); congruence). subst f'. assert (a' = a) by congruence. subst a'.
        rewrite (I3 _ (b + - ln (a / T) / ln 2)%R); [|rewrite (x_add X), Hx, F4; reflexivity]. f_equal. rewrite ln_mult; [field; lra|apply Rdiv_lt_0_compat; lra|exact Hr].
      - destruct IH as (ps & rs & I1 & I2 & I3). pose proof (read_pos H) as Hr. exists ([w] :: ps), (Fallback w :: rs).
        split; [cbn [concat app]; rewrite I1; reflexivity|]. split; [constructor; [|exact I2]|].
        + apply piece_fallback. destruct (dict_value d w) as [v|] eqn:Hv; [|reflexivity]. exfalso. destruct (dist_word Hv) as (f & _ & F & _). exact (Hw f F).
        + intros x b Hx. cbn [fold_left]. rewrite (I3 _ (b + - ln (/ 2 ^ 32) / ln 2)%R); [|rewrite (x_add X), Hx, dist_other; reflexivity]. f_equal.
          rewrite (ln_mult (/ 2 ^ 32)); [field; lra|apply Rinv_0_lt_compat; apply pow_lt; lra|exact Hr].
    Qed.
    Lemma loop_texts : forall segs out, Forall (fun s => exists t, deref d (sg_tok s) = Ok t) segs ->
      seg_loop (fun t => Ok [join (t_text t)]) d segs out = Ok (out ++ map text_of (map sg_tok segs)).
    Proof.
      induction segs as [|s segs IH]; intros out H; cbn [seg_loop map]; [rewrite app_nil_r; reflexivity|]. inversion_clear H as [|? ? (t & Ht) H']. rewrite Ht. cbn [bind]. rewrite IH by exact H'.
      unfold text_of at 2. rewrite Ht, join_eq, <- app_assoc. reflexivity.
    Qed.
    Lemma most_probable : forall s ws, split_words E c s = Ok ws -> exists qs r, seg_slice c (Some d) s false = Ok qs /\ likely val d T ws qs r /\
      forall qs' r', likely val d T ws qs' r' -> (r' <= r)%R.
    Proof.
      intros s ws Hws. pose proof calc_reachable as Hr. destruct (c01 s false Hr) as (segs & H1 & [(Hf & _)|H2]); [discriminate|].
      destruct (@c02_laws E c d s false ws segs exact_laws32 Hr positive Hws H1 ltac:(discriminate)) as [(ps & P1 & P2) Hmin].
      destruct (tiling_read P2) as (r & L & C). exists (map text_of (map sg_tok segs)), r. split; [|split].
      - unfold seg_slice. rewrite H1. cbn [bind to_slice]. rewrite loop_texts; [reflexivity|]. apply (covers_deref H2).
      - rewrite <- P1. exact L.
      - intros qs' r' L'. destruct (read_tiling L') as (ps' & rs' & Q1 & Q2 & Q3).
        specialize (Hmin rs' (ex_intro _ ps' (conj Q1 Q2)) ltac:(discriminate)).
        apply (lt_false (Q3 _ _ val32_z) (C _ _ val32_z)) in Hmin.
        apply Rnot_lt_le. intro K. pose proof (read_pos L) as Hp. rewrite <- P1 in L'. apply (ln_increasing _ _ Hp) in K. pose proof ln2.
        apply (Rmult_lt_compat_r (/ ln 2)) in K; [|apply Rinv_0_lt_compat; lra]. unfold Rdiv in Hmin. lra.
    Qed.
  End Best.
End Exact2.
Lemma calc_trie : forall E c (d0 d : dict E), reachable c d0 -> calc_token d0 = Ok d -> d_trie d = d_trie d0.
Proof. intros E c d0 d Hr H. destruct (calc_token_spec (inv_ok (reachable_inv Hr))) as (d' & H1 & _ & H2 & _). congruence. Qed.
