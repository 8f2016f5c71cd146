(** SuggestFreq in exact arithmetic (C86). *)
From Verif Require Import S_Exact P_Dag P_Dag2 P_Dag3 P_Hist P_Seg2 P_Dict P_Hmm P_Utf8b P_Laws64 P_Split.
From Coq Require Import Lra.
Set Implicit Arguments. Unset Strict Implicit.

Section Exact.
  Variable E : env.
  Variable val : f64 E -> option R.
  Hypothesis X : exact val.

  Lemma val_z : val (lit64 E 0 0) = Some 0%R.
  Proof. rewrite (v_lit X). f_equal. cbn. lra. Qed.
  Lemma val_one : val (lit64 E 1 0) = Some 1%R.
  Proof. rewrite (v_lit X). f_equal. cbn. lra. Qed.
  Definition lev (x y : option R) : Prop := match x, y with Some a, Some b => (a <= b)%R | None, _ => True | Some _, None => False end.
  Lemma num_all : forall x : f64 E, num64 x.
  Proof. intro x. apply (v_eq X). reflexivity. Qed.
  Lemma le_val : forall x y : f64 E, le64 x y <-> lev (val x) (val y).
  Proof.
    intros x y. unfold le64, lev. split.
    - intros (_ & _ & H). destruct (val x) as [a|] eqn:Ex, (val y) as [b|] eqn:Ey; auto.
      + destruct (Rle_or_lt a b) as [K|K]; [exact K|]. assert (ltb64 E y x = true) by (apply (v_lt X); rewrite Ex, Ey; exact K). congruence.
      + assert (ltb64 E y x = true) by (apply (v_lt X); rewrite Ex, Ey; exact I). congruence.
    - intro H. split; [apply num_all|]. split; [apply num_all|]. destruct (ltb64 E y x) eqn:El; [|reflexivity]. exfalso. apply (v_lt X) in El.
      destruct (val x) as [a|], (val y) as [b|]; auto. lra.
  Qed.
  Lemma fin_val : forall x : f64 E, fin64 x <-> exists a, val x = Some a.
  Proof.
    intro x. unfold fin64. rewrite (v_eq X), val_z. split.
    - intro H. destruct (val x) as [a|] eqn:Ex; [eauto|]. rewrite (v_sub_inf X _ Ex) in H. discriminate.
    - intros (a & Ea). rewrite (v_sub X x Ea), Ea. f_equal. lra.
  Qed.
  Lemma exact_laws : laws64 E.
  Proof.
    split.
    - intros x _. apply le_val. unfold lev. destruct (val x); [lra|exact I].
    - intros x y z. rewrite !le_val. unfold lev. destruct (val x), (val y), (val z); auto; try lra; tauto.
    - intros x y H. apply (v_lt X) in H. apply le_val. unfold lev. destruct (val x), (val y); auto; lra.
    - intros x y H. apply (v_eq X) in H. rewrite !le_val, H. unfold lev. destruct (val y); split; auto; lra.
    - intros x y. rewrite !le_val. intros H1 H2. apply (v_eq X). unfold lev in *. destruct (val x), (val y); auto; try tauto. f_equal. lra.
    - intro x. destruct (ltb64 E x x) eqn:El; [|reflexivity]. exfalso. apply (v_lt X) in El. destruct (val x); [lra|exact El].
    - intros x y _. split; apply num_all.
    - intros x y w _ _. rewrite !le_val, !(v_add X). unfold lev. destruct (val x), (val y), (val w); auto; try lra; tauto.
    - intros x y w _ _. rewrite !le_val, !(v_add X). unfold lev. destruct (val x), (val y), (val w); auto; try lra; tauto.
    - intros. apply num_all.
    - intros. apply num_all.
    - intros x y. rewrite !le_val, !(v_add X), val_z. unfold lev. destruct (val x), (val y); auto; lra.
    - intros. apply num_all.
  Qed.

  (** What a word counts for. *)
  Definition phi (d : dict E) (w : bytes) : R :=
    match dict_find d w with Ok (f, _, true) => match val f with Some a => a | None => 0%R end | _ => 1%R end.
  Definition tot (d : dict E) : R := match val (d_total d) with Some t => t | None => 0%R end.
  Definition prod (d : dict E) (T : R) (ws : list bytes) : R := fold_right (fun w a => (phi d w / T * a)%R) 1%R ws.

  Section One.
    Variables (c0 : cfg) (d : dict E).
    Hypothesis Hi : dict_inv c0 d.
    Hypothesis Hs : sound_freqs val d.
    Lemma tot_val : val (d_total d) = Some (tot d) /\ (0 < tot d)%R.
    Proof. destruct Hs as [_ (t & Ht & Hp)]. unfold tot. rewrite Ht. auto. Qed.
    Lemma find_val : forall w f p, w <> [] -> dict_find d w = Ok (f, p, true) -> val f = Some (phi d w) /\ (0 <= phi d w)%R.
    Proof.
      intros w f p Hw H. pose proof (find_known Hi Hw H) as K. cbn in K. unfold phi. rewrite H.
      destruct K as [K|(_ & _ & ->)]; [|rewrite val_z; split; [reflexivity|lra]].
      destruct Hs as [H1 _]. destruct (H1 w f K) as (a & -> & Ha). auto.
    Qed.
    Lemma phi_nonneg : forall w, w <> [] -> (0 <= phi d w)%R.
    Proof.
      intros w Hw. destruct (find_total Hi w) as (f & p & b & Hf). unfold seg_find in Hf. destruct b; [apply (find_val Hw Hf)|]. unfold phi. rewrite Hf. lra.
    Qed.
    Lemma phi_stored : forall w f, w <> [] -> stored d w f -> val f = Some (phi d w).
    Proof.
      intros w f Hw H. destruct (find_total Hi w) as (g & p & b & Hf). pose proof (@find_reported E c0 d Hi w g p b Hw Hf (lit64 E 1 0) f (or_introl H)) as K.
      unfold seg_find in Hf. destruct b; [subst f; apply (find_val Hw Hf)|]. exfalso. pose proof (find_known Hi Hw Hf) as K2. cbn in K2. apply (K2 [] f). rewrite app_nil_r. exact H.
    Qed.
    Lemma prod_nonneg : forall ws T, (0 < T)%R -> Forall (fun w => w <> []) ws -> (0 <= prod d T ws)%R.
    Proof.
      intros ws T HT H. induction H as [|w ws Hw H IH]; cbn [prod fold_right]; [lra|]. apply Rmult_le_pos; [|exact IH].
      apply Rmult_le_pos; [apply phi_nonneg; exact Hw|]. left. apply Rinv_0_lt_compat. exact HT.
    Qed.
    Lemma edge_val : forall w, w <> [] -> val (edge d (m_log E (d_total d)) w) = if Rlt_dec 0 (phi d w) then Some (ln (phi d w) - ln (tot d))%R else None.
    Proof.
      intros w Hw. destruct tot_val as [T1 T2]. pose proof (v_log X T1 T2) as HT. destruct (find_total Hi w) as (f & p & b & Hf). unfold seg_find in Hf.
      unfold edge. rewrite Hf. destruct b.
      - destruct (find_val Hw Hf) as [F1 F2]. destruct (Rlt_dec 0 (phi d w)) as [K|K].
        + rewrite (v_sub X _ HT), (v_log X F1 K). reflexivity.
        + assert (K0 : phi d w = 0%R) by lra. rewrite K0 in F1. apply (v_sub_inf X). apply (v_log0 X F1).
      - unfold phi. rewrite Hf. destruct (Rlt_dec 0 1) as [K|K]; [|lra]. rewrite (v_sub X _ HT), (v_log X val_one) by lra. reflexivity.
    Qed.
    Lemma weight_val : forall ps, Forall (fun p => p <> []) ps ->
      val (weight d (m_log E (d_total d)) ps) = if Rlt_dec 0 (prod d (tot d) (map string_of_runes ps)) then Some (ln (prod d (tot d) (map string_of_runes ps))) else None.
    Proof.
      intros ps H. destruct tot_val as [T1 T2]. induction H as [|p ps Hp H IH]; cbn [weight fold_right map prod].
      - rewrite val_z. destruct (Rlt_dec 0 1) as [K|K]; [|lra]. rewrite ln_1. reflexivity.
      - pose proof (string_nonempty Hp) as Hw. rewrite (v_add X). fold (weight d (m_log E (d_total d)) ps). rewrite IH, edge_val by exact Hw.
        fold (prod d (tot d) (map string_of_runes ps)). set (q := prod _ _ _). set (f := phi d _).
        assert (Hq : (0 <= q)%R) by (apply prod_nonneg; [exact T2|]; apply Forall_map; eapply Forall_impl; [|exact H]; apply string_nonempty).
        assert (Hf : (0 <= f)%R) by (apply phi_nonneg; exact Hw).
        assert (Hi' : (0 < / tot d)%R) by (apply Rinv_0_lt_compat; exact T2).
        destruct (Rlt_dec 0 f) as [F|F], (Rlt_dec 0 q) as [Q|Q], (Rlt_dec 0 (f / tot d * q)) as [K|K]; try reflexivity.
        + f_equal. unfold Rdiv. rewrite !ln_mult, ln_Rinv by (try apply Rmult_lt_0_compat; assumption). lra.
        + exfalso. apply K. apply Rmult_lt_0_compat; [|exact Q]. apply Rmult_lt_0_compat; assumption.
        + exfalso. assert (q = 0%R) by lra. subst q. rewrite H0, Rmult_0_r in K. lra.
        + exfalso. assert (f = 0%R) by lra. rewrite H0 in K. unfold Rdiv in K. rewrite !Rmult_0_l in K. lra.
        + exfalso. assert (f = 0%R) by lra. rewrite H0 in K. unfold Rdiv in K. rewrite !Rmult_0_l in K. lra.
    Qed.
    Lemma weight_le : forall ps qs, Forall (fun p => p <> []) ps -> Forall (fun p => p <> []) qs ->
      le64 (weight d (m_log E (d_total d)) qs) (weight d (m_log E (d_total d)) ps) ->
      (prod d (tot d) (map string_of_runes qs) <= prod d (tot d) (map string_of_runes ps))%R.
    Proof.
      intros ps qs Hp Hq H. apply le_val in H. rewrite !weight_val in H by assumption. unfold lev in H.
      assert (P : (0 <= prod d (tot d) (map string_of_runes ps))%R).
      { apply prod_nonneg; [apply tot_val|]. apply Forall_map. eapply Forall_impl; [|exact Hp]. apply string_nonempty. }
      destruct (Rlt_dec 0 (prod d (tot d) (map string_of_runes qs))) as [K|K]; [|lra].
      destruct (Rlt_dec 0 (prod d (tot d) (map string_of_runes ps))) as [L|L]; [|tauto].
      apply Rnot_lt_le. intro M. apply (ln_increasing _ _ L) in M. lra.
    Qed.
    Lemma suggest_val : forall ws a r, Forall (fun w => w <> []) ws -> val a = Some r -> exists q, suggest_loop d (d_total d) ws a = Ok q /\ val q = Some (r * prod d (tot d) ws)%R.
    Proof.
      intros ws a r H. destruct tot_val as [T1 T2]. revert a r. induction H as [|w ws Hw H IH]; intros a r Ha; cbn [suggest_loop prod fold_right].
      { exists a. split; [reflexivity|]. rewrite Ha. f_equal. lra. }
      destruct (find_total Hi w) as (f & p & b & Hf). rewrite Hf. cbn [bind fst snd]. unfold seg_find in Hf.
      assert (V : val (div64 E (if b then mul64 E a f else a) (d_total d)) = Some (r * phi d w / tot d)%R).
      { destruct b.
        - destruct (find_val Hw Hf) as [F1 _]. rewrite (v_div X (v_mul X Ha F1) T1) by lra. reflexivity.
        - rewrite (v_div X Ha T1) by lra. unfold phi. rewrite Hf. f_equal. field. lra. }
      destruct (IH _ _ V) as (q & Q1 & Q2). exists q. split; [exact Q1|]. rewrite Q2. f_equal. fold (prod d (tot d) ws). field. lra.
    Qed.
  End One.

  Lemma tiles_ne : forall (d : dict E) rs ps, tiles d rs ps -> Forall (fun p => p <> []) ps.
  Proof. intros d rs ps H. induction H; constructor; auto; discriminate. Qed.
  Lemma tiles_concat : forall (d : dict E) rs ps, tiles d rs ps -> concat ps = rs.
  Proof. intros d rs ps H. induction H; cbn [concat]; auto; rewrite IHtiles; reflexivity. Qed.

  Lemma best : forall c0 (d : dict E) c s, dict_inv c0 d -> exists ps, best_cut d (m_log E (d_total d)) (dag_runes E c s) ps /\
    cut_dag_nohmm d c s = Ok (map (fun g => string_of_runes (concat (snd g))) (runs eng ps)).
  Proof.
    intros c0 d c s Hi. destruct (nohmm_cut Hi c s) as (tl & ps & H1 & H2 & H3 & H4). exists ps. split; [|exact H4].
    eapply follows_best; eauto; [exact exact_laws|]. intros. apply num_all.
  Qed.
  Lemma runs_none : forall ps, (forall l a b r, ps = l ++ a :: b :: r -> eng a && eng b = false) ->
    map (fun g : bool * list (list rune) => string_of_runes (concat (snd g))) (runs eng ps) = map string_of_runes ps.
  Proof.
    induction ps as [|p ps IH]; intro H; [reflexivity|]. assert (IH' := IH ltac:(intros l a b r K; apply (H (p :: l) a b r); rewrite K; reflexivity)). clear IH.
    cbn [runs map]. destruct (eng p) eqn:Ep.
    - destruct (runs eng ps) as [|[[] r] g] eqn:Er.
      + cbn [map snd concat] in *. rewrite app_nil_r, <- IH'. reflexivity.
      + exfalso. destruct ps as [|q ps]; [discriminate|]. cbn [runs] in Er. destruct (eng q) eqn:Eq; [|discriminate].
        specialize (H [] p q ps eq_refl). rewrite Ep, Eq in H. discriminate.
      + cbn [map snd concat] in *. rewrite app_nil_r, <- IH'. reflexivity.
    - cbn [map snd concat]. rewrite app_nil_r, IH'. reflexivity.
  Qed.

  (** The dictionary [d'] differs from [d] by the frequency [f] of [w], which is added to the total. *)
  Section Two.
    Variables (c : cfg) (d d' : dict E) (w : bytes) (f : f64 E).
    Hypothesis Hi : dict_inv c d.
    Hypothesis Hi' : dict_inv c d'.
    Hypothesis Hs : sound_freqs val d.
    Hypothesis Hw : own_spelling E c w.
    Hypothesis Hf : suggest_freq d c [w] = Ok f.
    Hypothesis Hpair : no_ascii_pair w.
    Hypothesis Hst : stored d' w f.
    Hypothesis Hother : forall x g, x <> w -> (stored d' x g <-> stored d x g).
    Hypothesis Htot : d_total d' = add64 E (d_total d) f.

    Lemma w_runes : dag_runes E c w = runes_of w /\ string_of_runes (runes_of w) = w.
    Proof.
      destruct Hw as (_ & _ & H). unfold dag_runes. split; [destruct (c_lower c); [rewrite H|]; reflexivity|]. apply roundtrip_iff. rewrite <- H. apply string_valid.
    Qed.
    Lemma suggested : exists ps a, best_cut d (m_log E (d_total d)) (runes_of w) ps /\ val f = Some a /\ (prod d (tot d) (map string_of_runes ps) * tot d < a)%R.
    Proof.
      destruct w_runes as [W1 W2]. destruct (best c w Hi) as (ps & B1 & B2). rewrite W1 in B1. exists ps.
      assert (Hne : Forall (fun p => p <> []) ps) by (eapply tiles_ne; apply B1).
      assert (Hne' : Forall (fun p => p <> []) (map string_of_runes ps)) by (apply Forall_map; eapply Forall_impl; [|exact Hne]; apply string_nonempty).
      rewrite runs_none in B2.
      2:{ intros l a b r K. destruct (eng a) eqn:Ea; [|reflexivity]. destruct (eng b) eqn:Eb; [|reflexivity]. exfalso.
          unfold eng in Ea, Eb. destruct a as [|x [|? ?]]; try discriminate. destruct b as [|y [|? ?]]; try discriminate.
          assert (C : runes_of w = concat l ++ x :: y :: concat r) by (rewrite <- (tiles_concat (proj1 B1)), K, concat_app; reflexivity).
          apply Hpair in C. rewrite Ea, Eb in C. discriminate. }
      pose proof Hf as F. unfold suggest_freq in F. rewrite B2 in F. cbn [bind] in F.
      destruct (suggest_val Hi Hs Hne' val_one) as (q & Q1 & Q2). rewrite Q1 in F. cbn [bind] in F.
      destruct (tot_val Hs) as [T1 T2]. set (P := prod d (tot d) (map string_of_runes ps)) in *. rewrite Rmult_1_l in Q2.
      assert (HP : (0 <= P)%R) by (apply (prod_nonneg Hi Hs); assumption).
      assert (HPT : (0 <= P * tot d)%R) by (apply Rmult_le_pos; lra).
      destruct (v_trunc X (v_mul X Q2 T1) HPT) as (n & N1 & N2).
      set (x := add64 E (trunc64 E (mul64 E q (d_total d))) (lit64 E 1 0)) in *.
      assert (Vx : val x = Some (IZR n + 1)%R) by (unfold x; rewrite (v_add X), N1, val_one; reflexivity).
      destruct (find_total Hi w) as (g & p & b & Hg). rewrite Hg in F. cbn [bind fst snd] in F. injection F as F. set (y := if b then g else lit64 E 1 0) in *.
      destruct (ltb64 E x y) eqn:El.
      - apply (v_lt X) in El. rewrite Vx in El. rewrite <- F. destruct (val y) as [a|]; [|tauto]. exists a. split; [exact B1|]. split; [reflexivity|]. lra.
      - exists (IZR n + 1)%R. split; [exact B1|]. split; [rewrite <- F; exact Vx|]. lra.
    Qed.
    Lemma sub_ne : forall (l q r : list rune), runes_of w = l ++ q ++ r -> l ++ r <> [] -> string_of_runes q <> w.
    Proof.
      intros l q r H Hn K. destruct w_runes as [_ W2]. rewrite H, !string_app in W2. rewrite K in W2.
      assert (L := f_equal (@length byte) W2). rewrite !app_length in L. destruct l as [|a l]; [destruct r as [|b r]; [apply Hn; reflexivity|]|].
      - assert (string_of_runes (b :: r) <> []) by (apply string_nonempty; discriminate). destruct (string_of_runes (b :: r)); [congruence|]. cbn in L. lia.
      - assert (string_of_runes (a :: l) <> []) by (apply string_nonempty; discriminate). destruct (string_of_runes (a :: l)); [congruence|]. cbn in L. lia.
    Qed.
    Lemma pos_other : forall x, x <> w -> (pos_word d' x <-> pos_word d x).
    Proof. intros x H. unfold pos_word. split; intros (g & G1 & G2); exists g; (split; [|exact G2]); apply (Hother g H); exact G1. Qed.
    Lemma tiles_back : forall rs ps, tiles d' rs ps -> forall l, runes_of w = l ++ rs -> l <> [] -> tiles d rs ps.
    Proof.
      intros rs ps H. induction H as [|p rest ps Hp Hq H IH|a rest ps Hn H IH]; intros l Hl Hne.
      - constructor.
      - apply tiles_word; [exact Hp| |].
        + apply pos_other; [|exact Hq]. apply (sub_ne Hl). destruct l; [congruence|discriminate].
        + apply (IH (l ++ p)); [rewrite <- app_assoc; exact Hl|]. destruct l; [congruence|discriminate].
      - apply tiles_char.
        + intros q t Hqt Hqn Hx. apply (Hn q t Hqt Hqn). apply pos_other; [|exact Hx]. rewrite Hqt in Hl. apply (sub_ne Hl). destruct l; [congruence|discriminate].
        + apply (IH (l ++ [a])); [rewrite <- app_assoc; exact Hl|]. destruct l; [congruence|discriminate].
    Qed.
    Lemma phi_less : forall x, x <> [] -> x <> w -> (phi d' x <= phi d x)%R.
    Proof.
      intros x Hx Hxw. destruct (find_total Hi' x) as (g & p & b & Hg). pose proof (find_known Hi' Hx Hg) as K. unfold seg_find in Hg.
      unfold phi at 1. rewrite Hg. destruct b.
      - destruct K as [K|(_ & _ & ->)].
        + apply (Hother g Hxw) in K. rewrite (phi_stored Hi Hs Hx K). lra.
        + rewrite val_z. apply (phi_nonneg Hi Hs Hx).
      - destruct (find_total Hi x) as (h & p2 & b2 & Hh). pose proof (find_known Hi Hx Hh) as K2. unfold seg_find in Hh. unfold phi. rewrite Hh.
        destruct b2; [|lra]. exfalso. assert (exists y h, stored d (x ++ y) h) as (y & h' & Hy).
        { destruct K2 as [K2|(_ & K2 & _)]; [exists [], h; rewrite app_nil_r; exact K2|exact K2]. }
        destruct (beqb (x ++ y) w) eqn:Eb.
        + apply beqb_eq in Eb. eapply K. rewrite Eb. exact Hst.
        + eapply K. apply Hother; [|exact Hy]. intro Ey. rewrite Ey, beqb_refl in Eb. discriminate.
    Qed.
    Lemma f_pos : exists a, val f = Some a /\ (0 < a)%R.
    Proof.
      destruct suggested as (ps & a & B1 & V & L). exists a. split; [exact V|]. destruct (tot_val Hs) as [_ T2].
      assert (Hne : Forall (fun p => p <> []) ps) by (eapply tiles_ne; apply B1).
      assert (0 <= prod d (tot d) (map string_of_runes ps))%R.
      { apply (prod_nonneg Hi Hs T2). apply Forall_map; eapply Forall_impl; [|exact Hne]; apply string_nonempty. }
      assert (0 <= prod d (tot d) (map string_of_runes ps) * tot d)%R by (apply Rmult_le_pos; lra). lra.
    Qed.
    Lemma sound' : sound_freqs val d'.
    Proof.
      destruct f_pos as (a & V & Ha). destruct (tot_val Hs) as [T1 T2]. split.
      - intros x g Hg. destruct (beqb x w) eqn:Eb.
        + apply beqb_eq in Eb. subst x. assert (g = f); [|subst g; exists a; split; [exact V|lra]].
          destruct Hg as (v & t & H1 & H2 & H3), Hst as (v' & t' & H1' & H2' & H3'). congruence.
        + apply Hother in Hg; [apply (proj1 Hs _ _ Hg)|]. intro K. rewrite K, beqb_refl in Eb. discriminate.
      - exists (tot d + a)%R. rewrite Htot, (v_add X), T1, V. split; [reflexivity|lra].
    Qed.
    Lemma prod_less : forall T T' xs, (0 < T)%R -> (T <= T')%R -> Forall (fun x => x <> [] /\ x <> w) xs -> (prod d' T' xs <= prod d T xs)%R /\ (0 <= prod d' T' xs)%R.
    Proof.
      intros T T' xs HT HT' H. induction H as [|x xs [Hx Hxw] H IH]; cbn [prod fold_right]; [lra|]. destruct IH as [I1 I2].
      fold (prod d' T' xs). fold (prod d T xs). pose proof (phi_less Hx Hxw) as P1. pose proof (phi_nonneg Hi' sound' Hx) as P2.
      assert (V : (0 < / T' <= / T)%R) by (split; [apply Rinv_0_lt_compat; lra|apply Rinv_le_contravar; lra]).
      assert (Q : (0 <= phi d' x / T' <= phi d x / T)%R).
      { split; [apply Rmult_le_pos; lra|]. unfold Rdiv. apply Rmult_le_compat; lra. }
      split; [apply Rmult_le_compat; lra|apply Rmult_le_pos; lra].
    Qed.
    Lemma joined_best : forall qs, best_cut d' (m_log E (d_total d')) (runes_of w) qs -> qs = [runes_of w].
    Proof.
      intros qs B1. destruct w_runes as [W1 W2].
      destruct suggested as (ps & a & G1 & V & L). destruct (tot_val Hs) as [T1 T2]. destruct f_pos as (a' & V' & Ha). assert (a' = a) by congruence. subst a'. clear V'.
      assert (Hwn : w <> []) by apply Hw. assert (Hrs : runes_of w <> []) by (intro K; rewrite K in W2; cbn in W2; congruence).
      destruct B1 as [B1 B2]. inversion B1 as [Hx Hy|p rest qs' Hp Hq Ht Hx Hy|b rest qs' Hn Ht Hx Hy].
        - congruence.
        - destruct rest as [|b rest].
          { inversion Ht. - rewrite app_nil_r. reflexivity. - destruct p0; [congruence|discriminate]. }
          exfalso. assert (Pw : string_of_runes p <> w) by (apply (@sub_ne [] p (b :: rest)); [symmetry; exact Hx|discriminate]).
          assert (Hr : tiles d (b :: rest) qs') by (eapply tiles_back; [exact Ht| |exact Hp]; symmetry; exact Hx).
          assert (Hd : tiles d (runes_of w) qs).
          { rewrite <- Hx, <- Hy. apply tiles_word; [exact Hp| |exact Hr]. apply pos_other; assumption. }
          assert (Hone : tiles d' (runes_of w) [runes_of w]).
          { rewrite <- (app_nil_r (runes_of w)) at 1. apply tiles_word; [exact Hrs| |constructor]. exists f. rewrite W2. split; [exact Hst|]. apply (v_lt X). rewrite val_z, V. exact Ha. }
          destruct (B2 _ Hone) as [L1 _]. apply (weight_le Hi' sound') in L1; [|eapply tiles_ne; exact Hd|repeat constructor; exact Hrs].
          destruct G1 as [G1 G2]. destruct (G2 _ Hd) as [L2 _]. apply (weight_le Hi Hs) in L2; [|eapply tiles_ne; exact G1|eapply tiles_ne; exact Hd].
          assert (Et : tot d' = (tot d + a)%R) by (unfold tot at 1; rewrite Htot, (v_add X), T1, V; reflexivity).
          cbn [map prod fold_right] in L1. rewrite W2, Rmult_1_r in L1.
          assert (Ef : phi d' w = a) by (pose proof (phi_stored Hi' sound' Hwn Hst); congruence). rewrite Ef in L1.
          rewrite <- Hy in L1, L2. cbn [map prod fold_right] in L1, L2. fold (prod d' (tot d') (map string_of_runes qs')) in L1. fold (prod d (tot d) (map string_of_runes qs')) in L2.
          assert (Hall : Forall (fun x => x <> [] /\ x <> w) (map string_of_runes qs')).
          { rewrite Forall_map. pose proof (tiles_ne Hr) as N1. pose proof (tiles_concat Hr) as N2. apply Forall_forall. intros y Hin.
            rewrite Forall_forall in N1. split; [apply string_nonempty; auto|]. apply in_split in Hin as (l1 & l2 & Hl). rewrite Hl, concat_app in N2. cbn [concat] in N2.
            apply (@sub_ne (p ++ concat l1) y (concat l2)); [rewrite <- app_assoc, N2; symmetry; exact Hx|]. destruct p; [congruence|discriminate]. }
          destruct (@prod_less (tot d) (tot d') (map string_of_runes qs') T2 ltac:(lra) Hall) as [L3 L4].
          pose proof (phi_less (string_nonempty Hp) Pw) as L5. pose proof (phi_nonneg Hi' sound' (string_nonempty Hp)) as L6.
          assert (L7 : (phi d' (string_of_runes p) * prod d' (tot d') (map string_of_runes qs') <= phi d (string_of_runes p) * prod d (tot d) (map string_of_runes qs'))%R) by (apply Rmult_le_compat; lra).
          assert (T3 : (0 < tot d')%R) by lra.
          assert (L8 : (a <= phi d' (string_of_runes p) * prod d' (tot d') (map string_of_runes qs'))%R).
          { apply (Rmult_le_compat_r (tot d')) in L1; [|lra]. unfold Rdiv in L1. rewrite Rmult_assoc, Rinv_l, Rmult_1_r in L1 by lra.
            replace (phi d' (string_of_runes p) * / tot d' * prod d' (tot d') (map string_of_runes qs') * tot d')%R with (phi d' (string_of_runes p) * prod d' (tot d') (map string_of_runes qs'))%R in L1 by (field; lra). exact L1. }
          assert (L9 : (phi d (string_of_runes p) * prod d (tot d) (map string_of_runes qs') <= prod d (tot d) (map string_of_runes ps) * tot d)%R).
          { apply (Rmult_le_compat_r (tot d)) in L2; [|lra].
            replace (phi d (string_of_runes p) / tot d * prod d (tot d) (map string_of_runes qs') * tot d)%R with (phi d (string_of_runes p) * prod d (tot d) (map string_of_runes qs'))%R in L2 by (field; lra). exact L2. }
          lra.
        - exfalso. apply (Hn (runes_of w) []); [rewrite app_nil_r; auto|exact Hrs|]. exists f. rewrite W2. split; [exact Hst|]. apply (v_lt X). rewrite val_z, V. exact Ha.
    Qed.
    Lemma joined : cut_dag_nohmm d' c w = Ok [w].
    Proof.
      destruct w_runes as [W1 W2]. destruct (best c w Hi') as (qs & B1 & B2). rewrite W1 in B1. rewrite B2, (joined_best B1).
      cbn [runs]. destruct (eng (runes_of w)); cbn [map snd concat]; rewrite app_nil_r, W2; reflexivity.
    Qed.
    Lemma joined_hmm : forall em reg, Forall (fun f => wf_matcher f /\ nonempty_matcher f) reg -> cut_dag d' c em w reg = Ok [w].
    Proof.
      intros em reg Hreg. destruct w_runes as [W1 W2]. destruct (hmm_dag_cut Hi' em Hreg c w) as (tl & ps & wss & H1 & H2 & H3 & H4 & H5).
      rewrite W1 in H2, H3. assert (B : best_cut d' (m_log E (d_total d')) (runes_of w) ps) by (eapply follows_best; eauto; [exact exact_laws|]; intros; apply num_all).
      apply joined_best in B. subst ps. rewrite H4. clear - H5 W2.
      assert (K : exists b, runs single [runes_of w] = [(b, [runes_of w])]) by (cbn [runs]; destruct (single (runes_of w)); eauto). destruct K as (b & K). rewrite K in H5. clear K.
      inversion H5 as [|g ws gs wss' Hg Hn]; subst. inversion Hn; subst. unfold group_words in Hg. cbn [fst snd length Nat.leb] in Hg. rewrite andb_false_r in Hg.
      cbn [concat] in *. rewrite app_nil_r in Hg. rewrite Hg, W2. reflexivity.
    Qed.
  End Two.
End Exact.

Section Change.
  Variables (E : env) (c : cfg) (d : dict E) (w : bytes) (f : f64 E) (pos : bytes).
  Hypothesis Hi : dict_inv c d.
  Hypothesis Hw : norm E c w = w.
  Definition changed (d' : dict E) : Prop := dict_inv c d' /\ stored d' w f /\ (forall x g, x <> w -> (stored d' x g <-> stored d x g)) /\ d_total d' = add64 E (d_total d) f.

  Lemma add_changed : forall d1, dict_inv c d1 -> t_get (d_trie d1) w = None -> d_tokens d1 = d_tokens d -> d_total d1 = d_total d ->
    (forall x, x <> w -> t_get (d_trie d1) x = t_get (d_trie d) x) ->
    changed (add_token d1 {| t_text := wsplit E c w; t_freq := f; t_pos := pos; t_dist := lit32 E 0 0; t_segs := [] |}).
  Proof.
    intros d1 H1 Hn Htk Htot Hget. set (t := {| t_text := _ |}).
    assert (H2 : dict_inv c (add_token d1 t)) by (eapply add_token_inv; [exact H1|reflexivity|reflexivity]).
    assert (Hadd : add_token d1 t = {| d_trie := t_insert (d_trie d1) w (length (d_tokens d1));
         d_tokens := d_tokens d1 ++ [t]; d_total := add64 E (d_total d1) f;
         d_max := if d_max d1 <? length (t_text t) then length (t_text t) else d_max d1 |}).
    { unfold add_token, text_bytes. cbn [t_text t t_freq]. rewrite wsplit_norm, Hw, Hn. reflexivity. }
    rewrite Hadd in *. split; [exact H2|]. split; [|split; [|cbn [d_total]; rewrite Htot; reflexivity]].
    - exists (length (d_tokens d1)), t. rewrite dict_value_get. cbn [d_trie d_tokens]. rewrite t_get_insert, beqb_refl, nth_error_app2, Nat.sub_diag by lia. auto.
    - intros x g Hx. assert (Hb : beqb w x = false) by (apply beqb_neq; congruence).
      assert (K : forall v, t_get (d_trie d) x = Some v -> nth_error (d_tokens d ++ [t]) v = nth_error (d_tokens d) v).
      { intros v Hv. destruct (ok_entry (inv_ok Hi) Hv) as (tv & U1 & _). apply nth_error_app1. apply nth_error_Some. congruence. }
      split; intros (v & tv & V1 & V2 & V3); exists v, tv; rewrite dict_value_get in *; cbn [d_trie d_tokens] in *; rewrite t_get_insert, Hb, Hget, ?Htk in * by exact Hx.
      + rewrite (K v V1) in V2. auto.
      + rewrite (K v V1). auto.
  Qed.
  Lemma added_changed : forall d', dict_value d w = None -> seg_add_token c d w f pos = Ok d' -> changed d'.
  Proof.
    intros d' Hn H. unfold seg_add_token, to_token in H. rewrite split_words_eq in H. cbn [bind] in H. injection H as <-.
    rewrite dict_value_get in Hn. apply add_changed; auto.
  Qed.
  Lemma readded_changed : forall d' e, reachable c d -> dict_value d w <> None -> seg_readd_token c d w f pos = Ok (d', e) -> changed d'.
  Proof.
    intros d' e Hr Hn H. destruct (dict_value d w) as [v|] eqn:Hv; [|congruence]. rewrite <- Hw in Hv. destruct (c18_remove Hr Hv) as (d1 & A1 & A2 & A3). rewrite Hw in A2, A3.
    unfold seg_readd_token, to_token in H. unfold seg_remove_token in A1. rewrite split_words_eq in *. cbn [bind t_text] in *.
    destruct (remove_token d (wsplit E c w)) as [d1'|] eqn:Er; [|discriminate]. injection A1 as ->. injection H as <- _.
    pose proof (remove_facts Er) as (R1 & R2 & _ & _). apply add_changed; auto.
    - eapply remove_token_inv; eassumption.
    - rewrite <- dict_value_get. exact A2.
    - intros x Hx. rewrite <- !dict_value_get. apply A3. exact Hx.
  Qed.
End Change.

Lemma suggests : forall E c0 (d : dict E) c w, reachable c0 d -> exists f, suggest_freq d c [w] = Ok f.
Proof.
  intros E c0 d c w Hr. pose proof (reachable_inv Hr) as Hi. destruct (c23 c w Hr) as (segs & S1 & _). unfold suggest_freq. rewrite S1. cbn [bind].
  destruct (suggest_loop_ok Hi (d_total d) segs (lit64 E 1 0)) as (q & Hq). rewrite Hq. cbn [bind]. destruct (find_total Hi w) as (g & p & b & Hg). rewrite Hg. cbn [bind]. eauto.
Qed.
Lemma adds : forall E c (d : dict E) w f pos, exists d', seg_add_token c d w f pos = Ok d'.
Proof. intros. unfold seg_add_token, to_token. rewrite split_words_eq. cbn [bind]. eauto. Qed.
