(** The DAG cutters, continued: optimality, the cutting loops. *)
From Verif Require Import S_Dag P_Utf8 P_Utf8b P_Dict P_Seg P_Seg2 P_Hist P_Hmm P_Laws64 Ieee P_Dag.
From Coq Require Import Sorting.Sorted.
Set Implicit Arguments. Unset Strict Implicit.

(** *** Optimality *)
Section Opt.
  Variable E : env.
  Variable L : laws64 E.

  Definition below (y r : route E) : Prop := le64 (fst y) (fst r) /\ (eqb64 E (fst y) (fst r) = true -> snd y <= snd r).

  Lemma eq_sym64 : forall x y : f64 E, eqb64 E x y = true -> eqb64 E y x = true.
  Proof. intros x y H. destruct (eq_le64 L H). apply (le_anti64 L); assumption. Qed.

  Lemma below_trans : forall a b c, below a b -> below b c -> below a c.
  Proof.
    intros a b c [H1 H2] [H3 H4]. split; [eapply (le_trans64 L); eassumption|]. intro He. destruct (eq_le64 L He) as [_ Hca].
    assert (eqb64 E (fst a) (fst b) = true) by (apply (le_anti64 L); [assumption|eapply (le_trans64 L); eassumption]).
    assert (eqb64 E (fst b) (fst c) = true) by (apply (le_anti64 L); [assumption|eapply (le_trans64 L); eassumption]).
    specialize (H2 H). specialize (H4 H0). lia.
  Qed.

  Lemma below_refl : forall a, num64 (fst a) -> below a a.
  Proof. intros a H. split; [apply (le_refl64 L); exact H|auto]. Qed.

  Lemma better_below : forall a b : route E, num64 (fst a) -> num64 (fst b) -> below a (better (Some a) b) /\ below b (better (Some a) b).
  Proof.
    intros a b Ha Hb. cbn [better]. destruct (ltb64 E (fst a) (fst b)) eqn:El; cbn [orb].
    - split; [|apply below_refl; exact Hb]. split; [apply (lt_le64 L); exact El|]. intro He. destruct (eq_le64 L He) as [_ (_ & _ & Hx)]. congruence.
    - destruct (eqb64 E (fst a) (fst b)) eqn:Ee; cbn [andb].
      + destruct (eq_le64 L Ee). destruct (Nat.ltb_spec (snd a) (snd b)).
        * split; [|apply below_refl; exact Hb]. split; [assumption|lia].
        * split; [apply below_refl; exact Ha|]. split; [assumption|lia].
      + split; [apply below_refl; exact Ha|]. split; [repeat split; assumption|]. intro He. apply eq_sym64 in He. congruence.
  Qed.

  Lemma best_below : forall (l : list (route E)) x, num64 (fst x) -> Forall (fun y => num64 (fst y)) l ->
    forall y, In y (x :: l) -> below y (fold_left (fun a b => better (Some a) b) l x).
  Proof.
    induction l as [|z l IH]; intros x Hx Hl y Hy; cbn [fold_left].
    - destruct Hy as [<-|[]]. apply below_refl; exact Hx.
    - inversion_clear Hl. destruct (better_below Hx H) as [B1 B2]. assert (Hn : num64 (fst (better (Some x) z))) by apply B1.
      destruct Hy as [<-|[<-|Hy]].
      + eapply below_trans; [exact B1|]. apply IH; auto. left; reflexivity.
      + eapply below_trans; [exact B2|]. apply IH; auto. left; reflexivity.
      + apply IH; auto. right; exact Hy.
  Qed.

  Variable c0 : cfg.
  Variable d : dict E.
  Hypothesis Hi : dict_inv c0 d.
  Variable T : f64 E.

  Lemma route_best : forall rs tl, routes_ok d T rs tl -> (forall k qs, tiles d (skipn k rs) qs -> num64 (weight d T qs)) ->
    forall n i, length rs - i <= n -> i <= length rs -> forall qs, tiles d (skipn i rs) qs ->
      le64 (weight d T qs) (fst (rt tl i)) /\
      (forall q t, qs = q :: t -> eqb64 E (weight d T qs) (fst (rt tl i)) = true -> length q <= S (route_index tl i) - i).
  Proof.
    intros rs tl Hr Hn. induction n as [|n IH]; intros i Hl Hle qs Ht.
    - replace i with (length rs) in * by lia. pose proof (Hn _ _ Ht) as Hnum. rewrite skipn_all in Ht. inversion Ht; subst.
      + rewrite (ro_end Hr). split; [apply (le_refl64 L); exact Hnum|discriminate].
      + destruct p; [congruence|discriminate].
    - destruct (Nat.eq_dec i (length rs)) as [->|Hne]; [apply IH; auto; lia|].
      assert (Hlt : i < length rs) by lia. destruct (ro_step Hr Hlt) as (row & R1 & R2).
      assert (Hnum : Forall (fun y => num64 (fst y)) (map (cand' d T rs tl i) row)).
      { apply Forall_map, Forall_forall. intros j Hj. pose proof (spec_range Hlt R1 Hj) as Hj'.
        destruct (@follows_ex _ d _ rs tl Hr (length rs) (S j)) as (ps & Hps); [lia|lia|]. destruct (follows_tiles Hr Hps) as [T1 T2].
        pose proof (Hn i _ (row_tile Hlt R1 Hj T1)) as Hw. unfold weight in Hw. cbn [fold_right] in Hw. fold (weight d T ps) in Hw. rewrite T2 in Hw. exact Hw. }
      assert (Hb : forall j, In j row -> below (cand' d T rs tl i j) (rt tl i)).
      { intros j Hj. rewrite R2. pose proof (in_map (cand' d T rs tl i) row j Hj) as Hin. destruct (map (cand' d T rs tl i) row) as [|x l]; [destruct Hin|].
        inversion_clear Hnum. apply best_below; auto. }
      destruct (tile_row Hlt R1 Ht) as (j & ps & -> & Hj & Hps). pose proof (spec_range Hlt R1 Hj) as Hj'.
      destruct (IH (S j) ltac:(lia) ltac:(lia) ps Hps) as [I1 _].
      pose proof (Hn i _ Ht) as Hw. unfold weight in Hw |- *. cbn [fold_right] in Hw |- *. fold (weight d T ps) in Hw |- *.
      destruct (Hb j Hj) as [B1 B2]. cbn [cand' fst snd] in B1, B2.
      assert (Hc : le64 (add64 E (edge d T (string_of_runes (slice rs i (S j)))) (weight d T ps)) (add64 E (edge d T (string_of_runes (slice rs i (S j)))) (fst (rt tl (S j))))).
      { apply (add_r64 L); [exact Hw| |exact I1]. rewrite Forall_map, Forall_forall in Hnum. exact (Hnum j Hj). }
      split; [eapply (le_trans64 L); eassumption|]. intros q t Hq He. injection Hq as <- <-. rewrite slice_length by lia.
      destruct (eq_le64 L He) as [_ He2].
      assert (Heq : eqb64 E (add64 E (edge d T (string_of_runes (slice rs i (S j)))) (fst (rt tl (S j)))) (fst (rt tl i)) = true).
      { apply (le_anti64 L); [exact B1|]. eapply (le_trans64 L); eassumption. }
      specialize (B2 Heq). unfold route_index. unfold rt in B2. lia.
  Qed.
End Opt.

(** *** Runs *)
Section Runs.
  Variable A : Type.
  Variable p : A -> bool.

  Lemma runs_all : forall b, b <> [] -> Forall (fun a => p a = true) b -> runs p b = [(true, b)].
  Proof.
    induction b as [|a b IH]; intros H Hf; [congruence|]. inversion_clear Hf. cbn [runs]. rewrite H0. destruct b as [|a' b]; [reflexivity|].
    rewrite IH; [reflexivity|discriminate|assumption].
  Qed.

  Lemma runs_stop : forall b a t, Forall (fun a => p a = true) b -> p a = false ->
    runs p (b ++ a :: t) = match b with [] => [] | _ => [(true, b)] end ++ (false, [a]) :: runs p t.
  Proof.
    induction b as [|x b IH]; intros a t Hf Ha; cbn [app runs]; [rewrite Ha; reflexivity|]. inversion_clear Hf. rewrite H, (IH a t H0 Ha).
    destruct b; reflexivity.
  Qed.

  Lemma runs_concat : forall l, concat (map snd (runs p l)) = l.
  Proof.
    induction l as [|a l IH]; [reflexivity|]. cbn [runs]. destruct (p a); [|cbn [map concat snd]; rewrite IH; reflexivity].
    destruct (runs p l) as [|[[] r] g]; cbn [map concat snd] in *; rewrite <- IH; reflexivity.
  Qed.

  Lemma runs_ne : forall l, Forall (fun g => snd g <> []) (runs p l).
  Proof.
    induction l as [|a l IH]; [constructor|]. cbn [runs]. destruct (p a); [|constructor; [discriminate|exact IH]].
    destruct (runs p l) as [|[[] r] g]; repeat constructor; try discriminate; inversion IH; auto.
  Qed.

  (** The groups: single elements that fail [p], or non-empty lists satisfying [p]. *)
  Lemma runs_kind : forall l, Forall (fun g : bool * list A => if fst g then Forall (fun a => p a = true) (snd g) else exists a, snd g = [a] /\ p a = false) (runs p l).
  Proof.
    induction l as [|a l IH]; [constructor|]. cbn [runs]. destruct (p a) eqn:Ep; [|constructor; [exists a; auto|exact IH]].
    destruct (runs p l) as [|[[] r] g]; constructor; cbn [fst snd] in *; auto.
    - inversion_clear IH. constructor; auto.
    - inversion_clear IH. auto.
  Qed.
End Runs.

(** *** cutDAGNoHMM *)
Lemma enc_high : forall r, scalar r = true -> (128 <= r)%Z -> Forall (fun b => (128 <= bz b)%Z) (enc r).
Proof.
  intros r H Hr. unfold scalar, in_range in H. unfold enc.
  destruct (Z.ltb_spec r 128); [lia|]. destruct (Z.ltb_spec r 2048); [|destruct (Z.ltb_spec r 65536)];
    repeat constructor; rewrite bz_zb; lia.
Qed.

Lemma eng_ok : forall p, re_eng (string_of_runes p) && (length p =? 1) = eng p.
Proof.
  intros [|r [|r2 p]]; [reflexivity| |cbn [length Nat.eqb]; rewrite andb_false_r; reflexivity].
  cbn [length Nat.eqb eng]. rewrite andb_true_r. unfold string_of_runes. cbn [map concat]. rewrite app_nil_r.
  unfold re_eng, string_of_rune. destruct (scalar r) eqn:Es.
  - destruct (Z.lt_ge_cases r 128).
    + unfold enc. destruct (Z.ltb_spec r 128); [|lia]. cbn. unfold is_alnum_b. unfold scalar, in_range in Es. rewrite bz_zb by lia. apply orb_false_r.
    + transitivity false.
      * pose proof (enc_high Es H) as Hh. induction Hh as [|b l Hb Hl IH]; [reflexivity|]. cbn. rewrite IH.
        unfold is_alnum_b, ascii_alnum, ascii_upper, ascii_lower, ascii_digit, in_range. lia.
      * unfold ascii_alnum, ascii_upper, ascii_lower, ascii_digit, in_range. lia.
  - transitivity false; [reflexivity|]. unfold scalar, in_range in Es. unfold ascii_alnum, ascii_upper, ascii_lower, ascii_digit, in_range. lia.
Qed.

Section Loops.
  Variable E : env.
  Variable c0 : cfg.
  Variable d : dict E.
  Hypothesis Hi : dict_inv c0 d.

  Lemma rslice_ok : forall (rs : list rune) x y, x <= y <= length rs -> rslice rs x y = Ok (slice rs x y).
  Proof.
    intros rs x y H. unfold rslice. destruct (Nat.leb_spec x y), (Nat.leb_spec y (length rs)); try lia. reflexivity.
  Qed.

  Definition flushN (buf : list rune) (result : list bytes) : list bytes := match buf with [] => result | _ => result ++ [string_of_runes buf] end.

  Lemma concat_ne : forall (b : list (list rune)), Forall (fun p => p <> []) b -> b <> [] -> concat b <> [].
  Proof. intros [|x b] H H1; [congruence|]. inversion_clear H. cbn. destruct x; [congruence|discriminate]. Qed.

  Lemma eng_ne : forall b, Forall (fun p => eng p = true) b -> Forall (fun p => p <> []) b.
  Proof. intros b H. eapply Forall_impl; [|exact H]. intros [|]; [discriminate|discriminate]. Qed.

  Lemma flushN_runs : forall b result, Forall (fun p => eng p = true) b ->
    flushN (concat b) result = result ++ map (fun g => string_of_runes (concat (snd g))) (match b with [] => [] | _ => [(true, b)] end).
  Proof.
    intros b result Hb. destruct b as [|x b]; [cbn; rewrite app_nil_r; reflexivity|]. unfold flushN.
    assert (Hc : concat (x :: b) <> []) by (apply concat_ne; [apply eng_ne; exact Hb|discriminate]).
    cbn [map snd]. destruct (concat (x :: b)); [congruence|reflexivity].
  Qed.

  Lemma nohmm_ok : forall rs (tl : list (route E)) x ps, follows rs tl x ps -> forall fuel b result, length rs - x <= fuel -> Forall (fun p => eng p = true) b ->
    exists buf res, nohmm_loop fuel rs tl x (concat b) result = Ok (buf, res) /\
      flushN buf res = result ++ map (fun g => string_of_runes (concat (snd g))) (runs eng (b ++ ps)).
  Proof.
    intros rs tl x ps H. induction H as [|x ps H1 H2 H3 IH]; intros fuel b result Hf Hb.
    - exists (concat b), result. split; [destruct fuel; cbn [nohmm_loop]; rewrite Nat.leb_refl; reflexivity|].
      rewrite app_nil_r, (flushN_runs result Hb). destruct b; [reflexivity|]. rewrite (@runs_all _ eng) by (auto; discriminate). reflexivity.
    - destruct fuel as [|fuel]; [lia|]. cbn [nohmm_loop]. destruct (Nat.leb_spec (length rs) x); [lia|]. rewrite rslice_ok by lia. cbn [bind].
      rewrite eng_ok. set (p := slice rs x (S (route_index tl x))) in *. destruct (eng p) eqn:Ee.
      + destruct (IH fuel (b ++ [p]) result) as (buf & res & K1 & K2); [lia|apply Forall_app; auto|].
        exists buf, res. rewrite concat_app in K1. cbn [concat] in K1. rewrite app_nil_r in K1. split; [exact K1|].
        rewrite K2, <- app_assoc. reflexivity.
      + destruct (IH fuel [] (flushN (concat b) result ++ [string_of_runes p])) as (buf & res & K1 & K2); [lia|constructor|].
        exists buf, res. split; [exact K1|]. rewrite K2, (@runs_stop _ eng b p ps Hb Ee), (flushN_runs result Hb), map_app. cbn [map snd app concat].
        rewrite app_nil_r, <- !app_assoc. reflexivity.
  Qed.

  (** C23, C26 *)
  Lemma nohmm_cut : forall c s, exists tl ps, calc d (dag_runes E c s) = Ok tl /\ routes_ok d (m_log E (d_total d)) (dag_runes E c s) tl /\ follows (dag_runes E c s) tl 0 ps /\
    cut_dag_nohmm d c s = Ok (map (fun g => string_of_runes (concat (snd g))) (runs eng ps)).
  Proof.
    intros c s. set (rs := dag_runes E c s). destruct (calc_ok Hi (m_log E (d_total d)) rs) as (tl & H1 & H2). exists tl.
    destruct (@follows_ex _ d _ rs tl H2 (length rs) 0) as (ps & Hps); [lia|lia|]. exists ps. split; [exact H1|]. split; [exact H2|]. split; [exact Hps|].
    unfold cut_dag_nohmm. fold rs. unfold calc. rewrite H1. cbn [bind]. destruct (@nohmm_ok rs tl 0 ps Hps (length rs) [] []) as (buf & res & K1 & K2); [lia|constructor|].
    cbn [concat] in K1. rewrite K1. cbn [bind fst snd]. cbn [app] in K2. rewrite <- K2. unfold flushN. destruct buf; reflexivity.
  Qed.

  (** *** cutDAG *)
  Variable em : emits E.
  Variable reg : list matcher.
  Hypothesis Hreg : Forall (fun f => wf_matcher f /\ nonempty_matcher f) reg.

  Lemma single_concat : forall b, Forall (fun p => single p = true) b -> length (concat b) = length b /\ map string_of_rune (concat b) = map string_of_runes b.
  Proof.
    intros b H. induction H as [|p b Hp H [IH1 IH2]]; [auto|]. unfold single in Hp. destruct p as [|r [|]]; try discriminate. cbn [concat app length map].
    rewrite IH1, IH2. split; [reflexivity|]. f_equal. unfold string_of_runes. cbn. rewrite app_nil_r. reflexivity.
  Qed.

  Lemma flush_group : forall b, b <> [] -> Forall (fun p => single p = true) b -> exists ws, flush d em reg (concat b) = Ok ws /\ group_words d em reg (true, b) ws.
  Proof.
    intros b Hne Hb. destruct (single_concat Hb) as [Hl Hm]. unfold group_words. cbn [fst snd andb].
    destruct b as [|x [|y b]]; [congruence| |].
    - inversion_clear Hb. unfold single in H. destruct x as [|r [|]]; try discriminate. cbn. eauto.
    - cbn [length Nat.leb]. destruct (concat (x :: y :: b)) as [|a [|a2 l]] eqn:Ec; try discriminate.
      cbn [flush]. unfold dag_hmm. set (t := string_of_runes (a :: a2 :: l)). destruct (find_total Hi t) as (f & p & ok & Hf). rewrite Hf. unfold seg_find in Hf. rewrite Hf. cbn [bind fst snd].
      destruct (c33 em t Hreg) as (out & Ho & _). rewrite Ho. destruct ok; cbn [negb orb]; [|eauto].
      destruct (eqb64 E f (lit64 E 0 0)); [eauto|]. eexists. split; [reflexivity|exact Hm].
  Qed.

  Lemma dag_loop_ok : forall rs (tl : list (route E)) x ps, follows rs tl x ps -> forall fuel b result, length rs - x <= fuel -> Forall (fun p => single p = true) b ->
    exists buf res o wss, dag_loop d fuel em reg rs tl x (concat b) result = Ok (buf, res) /\ flush d em reg buf = Ok o /\
      res ++ o = result ++ concat wss /\ Forall2 (group_words d em reg) (runs single (b ++ ps)) wss.
  Proof.
    intros rs tl x ps H. induction H as [|x ps H1 H2 H3 IH]; intros fuel b result Hf Hb.
    - destruct b as [|x b].
      + exists [], result, [], []. rewrite !app_nil_r. split; [destruct fuel; cbn [dag_loop]; rewrite Nat.leb_refl; reflexivity|]. split; [reflexivity|]. split; [reflexivity|constructor].
      + destruct (@flush_group (x :: b)) as (ws & F1 & F2); [discriminate|exact Hb|]. exists (concat (x :: b)), result, ws, [ws].
        split; [destruct fuel; cbn [dag_loop]; rewrite Nat.leb_refl; reflexivity|]. split; [exact F1|]. split; [cbn [concat]; rewrite app_nil_r; reflexivity|].
        rewrite app_nil_r, (@runs_all _ single) by (auto; discriminate). constructor; [exact F2|constructor].
    - destruct fuel as [|fuel]; [lia|]. cbn [dag_loop]. destruct (Nat.leb_spec (length rs) x); [lia|]. rewrite rslice_ok by lia. cbn [bind].
      assert (Hs : (S (route_index tl x) - x =? 1) = single (slice rs x (S (route_index tl x)))) by (unfold single; rewrite slice_length by lia; reflexivity).
      rewrite Hs. set (p := slice rs x (S (route_index tl x))) in *. destruct (single p) eqn:Ee.
      + destruct (IH fuel (b ++ [p]) result) as (buf & res & o & wss & K1 & K2 & K3 & K4); [lia|apply Forall_app; auto|].
        exists buf, res, o, wss. rewrite concat_app in K1. cbn [concat] in K1. rewrite app_nil_r in K1. split; [exact K1|]. split; [exact K2|]. split; [exact K3|].
        rewrite <- app_assoc in K4. exact K4.
      + assert (exists ws, flush d em reg (concat b) = Ok ws /\ match b with [] => ws = [] | _ => group_words d em reg (true, b) ws end) as (ws & F1 & F2).
        { destruct b as [|y b]; [exists []; split; reflexivity|]. apply flush_group; [discriminate|exact Hb]. }
        rewrite F1. cbn [bind].
        destruct (IH fuel [] (result ++ ws ++ [string_of_runes p])) as (buf & res & o & wss & K1 & K2 & K3 & K4); [lia|constructor|].
        exists buf, res, o, (match b with [] => [] | _ => [ws] end ++ [string_of_runes p] :: wss). split; [exact K1|]. split; [exact K2|]. split.
        * rewrite K3. destruct b; [subst ws|]; cbn [concat app]; rewrite <- !app_assoc; reflexivity.
        * rewrite (@runs_stop _ single b p ps Hb Ee). cbn [app] in K4.
          assert (Hg : group_words d em reg (false, [p]) [string_of_runes p]) by (unfold group_words; cbn [fst snd andb concat]; rewrite app_nil_r; reflexivity).
          destruct b; cbn [app]; repeat constructor; auto.
  Qed.

  Lemma hmm_dag_cut : forall c s, exists tl ps wss, calc d (dag_runes E c s) = Ok tl /\ routes_ok d (m_log E (d_total d)) (dag_runes E c s) tl /\ follows (dag_runes E c s) tl 0 ps /\
    cut_dag d c em s reg = Ok (concat wss) /\ Forall2 (group_words d em reg) (runs single ps) wss.
  Proof.
    intros c s. set (rs := dag_runes E c s). destruct (calc_ok Hi (m_log E (d_total d)) rs) as (tl & H1 & H2). exists tl.
    destruct (@follows_ex _ d _ rs tl H2 (length rs) 0) as (ps & Hps); [lia|lia|]. exists ps.
    destruct (@dag_loop_ok rs tl 0 ps Hps (length rs) [] []) as (buf & res & o & wss & K1 & K2 & K3 & K4); [lia|constructor|]. exists wss.
    split; [exact H1|]. split; [exact H2|]. split; [exact Hps|]. split; [|exact K4].
    unfold cut_dag. fold rs. unfold calc. rewrite H1. cbn [bind]. cbn [concat] in K1. rewrite K1. cbn [bind fst snd]. rewrite K2. cbn [bind]. rewrite K3. reflexivity.
  Qed.
End Loops.

(** *** Text preservation *)
Definition dag_text (E : env) (c : cfg) (s : bytes) : bytes := string_of_runes (runes_of (if c_lower c then to_lower_str E s else s)).

Lemma string_valid : forall rs, valid (string_of_runes rs).
Proof. intro rs. destruct (string_runes_scalar rs) as (rs' & H & _ & ->). exists rs'. auto. Qed.

Lemma dag_text_eq : forall E c s, string_of_runes (dag_runes E c s) =
  if c_lower c then to_lower_str E s else reencode s.
Proof.
  intros E c s. unfold dag_runes. destruct (c_lower c); [|reflexivity]. apply roundtrip_iff, string_valid.
Qed.

Lemma string_app : forall a b, string_of_runes (a ++ b) = string_of_runes a ++ string_of_runes b.
Proof. intros. unfold string_of_runes. rewrite map_app, concat_app. reflexivity. Qed.

Lemma groups_string : forall gs : list (bool * list (list rune)),
  concat (map (fun g => string_of_runes (concat (snd g))) gs) = string_of_runes (concat (concat (map snd gs))).
Proof.
  induction gs as [|g gs IH]; [reflexivity|]. cbn [map concat]. rewrite IH, concat_app, string_app. reflexivity.
Qed.

Lemma c23 : forall E c0 (d : dict E) c s, reachable c0 d -> exists out, cut_dag_nohmm d c s = Ok out /\ Forall (fun w => w <> []) out /\
  concat out = if c_lower c then to_lower_str E s else reencode s.
Proof.
  intros E c0 d c s Hr. apply reachable_inv in Hr. destruct (nohmm_cut Hr c s) as (tl & ps & H1 & H2 & H3 & H4). eexists. split; [exact H4|]. split.
  - apply Forall_map. pose proof (runs_ne eng ps) as Hn. pose proof (follows_ne H3) as Hp. rewrite <- (runs_concat eng ps) in Hp.
    revert Hn Hp. generalize (runs eng ps). induction l as [|g l IH]; intros Hn Hp; [constructor|]. inversion_clear Hn. cbn [map concat] in Hp. apply Forall_app in Hp as [P1 P2].
    constructor; [|auto]. apply string_nonempty, concat_ne; auto.
  - rewrite groups_string, runs_concat, (follows_concat H3). cbn [skipn]. apply dag_text_eq.
Qed.

Lemma c24 : forall E c0 (d : dict E) em c s reg, reachable c0 d -> Forall (fun f => wf_matcher f /\ nonempty_matcher f) reg ->
  (length reg <= 1 \/ Forall rune_matcher reg) -> exists out, cut_dag d c em s reg = Ok out /\ Forall (fun w => w <> []) out /\
  concat out = if c_lower c then to_lower_str E s else reencode s.
Proof.
  intros E c0 d em c s reg Hr Hreg Hreg2. apply reachable_inv in Hr. destruct (hmm_dag_cut Hr em Hreg c s) as (tl & ps & wss & H1 & H2 & H3 & H4 & H5). eexists. split; [exact H4|].
  pose proof (runs_ne single ps) as Hn. pose proof (follows_ne H3) as Hp. rewrite <- (runs_concat single ps) in Hp.
  assert (Hg : Forall (fun w => w <> []) (concat wss) /\ concat (concat wss) = string_of_runes (concat (concat (map snd (runs single ps))))).
  { clear H1 H2 H3 H4. revert Hn Hp H5. generalize (runs single ps). intros gs Hn Hp H5. induction H5 as [|g ws gs wss Hg H5 IH]; [split; [constructor|reflexivity]|].
    inversion_clear Hn. cbn [map concat] in *. apply Forall_app in Hp as [P1 P2]. destruct (IH H0 P2) as [I1 I2].
    rewrite !concat_app, I2, string_app.
    assert (Hw : Forall (fun w => w <> []) ws /\ concat ws = string_of_runes (concat (snd g))).
    { pose proof (string_nonempty (concat_ne P1 H)) as Hne. set (t := string_of_runes (concat (snd g))) in *.
      assert (Hh : forall ws, hmm_cut em t reg = Ok ws -> Forall (fun w => w <> []) ws /\ concat ws = t).
      { intros ws' Hw. destruct (c33 em t Hreg) as (out & O1 & O2 & O3 & O4 & O5). assert (out = ws') by congruence. subst out. split; [exact O2|].
        destruct Hreg2 as [Hx|Hx]; [auto|]. apply O5; [apply string_valid|exact Hx]. }
      unfold group_words in Hg. fold t in Hg. destruct (fst g) eqn:Ef; cbn [andb] in Hg.
      - destruct (2 <=? length (snd g)).
        + assert (Hs : Forall (fun w => w <> []) (map string_of_runes (snd g)) /\ concat (map string_of_runes (snd g)) = t).
          { split; [apply Forall_map; eapply Forall_impl; [|exact P1]; apply string_nonempty|]. unfold t. clear. induction (snd g) as [|p l IH]; [reflexivity|]. cbn [map concat]. rewrite IH, string_app. reflexivity. }
          destruct (dict_find d t) as [[[v q] []]| |]; auto. destruct (eqb64 E v (lit64 E 0 0)); auto. subst ws. exact Hs.
        + subst ws. split; [repeat constructor; exact Hne|cbn; apply app_nil_r].
      - subst ws. split; [repeat constructor; exact Hne|cbn; apply app_nil_r]. }
    destruct Hw as [W1 W2]. split; [apply Forall_app; auto|]. rewrite W2. reflexivity. }
  destruct Hg as [G1 G2]. split; [exact G1|]. rewrite G2, runs_concat, (follows_concat H3). cbn [skipn]. apply dag_text_eq.
Qed.

(** *** C26 *)
Lemma follows_best : forall E c0 (d : dict E) T rs tl ps, laws64 E -> dict_inv c0 d -> routes_ok d T rs tl -> follows rs tl 0 ps ->
  (forall k qs, tiles d (skipn k rs) qs -> num64 (weight d T qs)) -> best_cut d T rs ps.
Proof.
  intros E c0 d T rs tl ps L Hi Hr Hf Hn. destruct (follows_tiles Hr Hf) as [T1 T2]. cbn [skipn] in T1. split; [exact T1|]. intros qs Hq. rewrite T2.
  destruct (@route_best E L d T rs tl Hr Hn (length rs) 0 ltac:(lia) ltac:(lia) qs Hq) as [B1 B2]. split; [exact B1|].
  intros He q t p u Eq Ep. specialize (B2 q t Eq He). inversion Hf as [Hx Hy|x ps' F1 F2 F3 Hx Hy]; [subst ps; discriminate|].
  rewrite Ep in Hy. injection Hy as Hy _. rewrite <- Hy, slice_length by lia. exact B2.
Qed.

Lemma c26_nohmm : forall E c0 (d : dict E) c s, ar E = ieee -> reachable c0 d ->
  (forall k qs, tiles d (skipn k (dag_runes E c s)) qs -> num64 (weight d (m_log E (d_total d)) qs)) ->
  exists ps, best_cut d (m_log E (d_total d)) (dag_runes E c s) ps /\ cut_dag_nohmm d c s = Ok (map (fun g => string_of_runes (concat (snd g))) (runs eng ps)).
Proof.
  intros E c0 d c s HE Hr Hn. apply reachable_inv in Hr. destruct (nohmm_cut Hr c s) as (tl & ps & H1 & H2 & H3 & H4). exists ps. split; [|exact H4].
  eapply follows_best; eauto. rewrite HE. exact ieee_laws64.
Qed.

Lemma c26_hmm : forall E c0 (d : dict E) em c s reg, ar E = ieee -> reachable c0 d -> Forall (fun f => wf_matcher f /\ nonempty_matcher f) reg ->
  (forall k qs, tiles d (skipn k (dag_runes E c s)) qs -> num64 (weight d (m_log E (d_total d)) qs)) ->
  exists ps wss, best_cut d (m_log E (d_total d)) (dag_runes E c s) ps /\ cut_dag d c em s reg = Ok (concat wss) /\ Forall2 (group_words d em reg) (runs single ps) wss.
Proof.
  intros E c0 d em c s reg HE Hr Hreg Hn. apply reachable_inv in Hr. destruct (hmm_dag_cut Hr em Hreg c s) as (tl & ps & wss & H1 & H2 & H3 & H4 & H5). exists ps, wss.
  split; [|auto]. eapply follows_best; eauto. rewrite HE. exact ieee_laws64.
Qed.

(** Weights that are at most 0 are never NaN. *)
Lemma weight_num : forall E (d : dict E) T, laws64 E -> (forall w, le64 (edge d T w) (lit64 E 0 0)) -> forall ps, num64 (weight d T ps).
Proof.
  intros E d T L H ps. enough (le64 (weight d T ps) (lit64 E 0 0)) as [Hn _] by exact Hn. induction ps as [|p ps IH].
  - apply (le_refl64 L). destruct (H []) as (_ & Hz & _). exact Hz.
  - unfold weight. cbn [fold_right]. apply (neg_add64 L); [apply H|exact IH].
Qed.
