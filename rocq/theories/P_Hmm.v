(** HMM: legality and optimality of Viterbi, text preservation of Cut (C31-C34). *)
From Verif Require Import Ieee S_Hmm P_Utf8 P_Utf8b P_Laws64.
Set Implicit Arguments. Unset Strict Implicit.

Lemma last_snoc : forall p y, last_state (p ++ [y]) = Some y.
Proof.
  intros p y. unfold last_state. rewrite app_length. cbn [length]. replace (length p + 1 - 1) with (length p) by lia.
  rewrite nth_error_app2, Nat.sub_diag by lia. reflexivity.
Qed.

Lemma last_inv : forall p y, last_state p = Some y -> exists q, p = q ++ [y].
Proof.
  intros p y H. destruct (@exists_last _ p) as (q & z & ->); [intros ->; discriminate|].
  rewrite last_snoc in H. injection H as ->. eauto.
Qed.

Lemma legal_snoc : forall p y0 y, last_state p = Some y0 -> (legal_path (p ++ [y]) <-> legal_path p /\ legal y0 y).
Proof.
  induction p as [|a [|b p] IH]; intros y0 y H; [discriminate| |].
  - cbn in H. injection H as ->. cbn. tauto.
  - change ((a :: b :: p) ++ [y]) with (a :: b :: (p ++ [y])). cbn [legal_path]. change (b :: p ++ [y]) with ((b :: p) ++ [y]).
    rewrite (IH y0 y); [cbn [legal_path]; tauto|]. unfold last_state in *. cbn [length] in *. rewrite <- H.
    replace (S (S (length p)) - 1) with (S (S (length p) - 1)) by lia. reflexivity.
Qed.

Lemma prev_legal : forall y0 y, In y0 (prev_status y) <-> legal y0 y.
Proof. intros [] []; cbn; split; intro H; try tauto; repeat (destruct H as [H|H]; try discriminate); auto; contradiction. Qed.

Section V.
  Variable E : env.
  Variable em : emits E.

  Lemma steps_snoc : forall obs path acc y0 o y y1, length obs = length path -> last_state (y0 :: path) = Some y1 ->
    path_steps em acc y0 (obs ++ [o]) (path ++ [y]) =
      add64 E (add64 E (path_steps em acc y0 obs path) (dflt (prob_trans E y1 y))) (dflt (em y o)).
  Proof.
    induction obs as [|o1 obs IH]; intros [|z path] acc y0 o y y1 Hl Hy; try discriminate.
    - cbn in Hy. injection Hy as ->. reflexivity.
    - cbn [app path_steps]. apply IH; [cbn in Hl; lia|]. unfold last_state in *. cbn [length] in *. rewrite <- Hy.
      replace (S (S (length path)) - 1) with (S (S (length path) - 1)) by lia. reflexivity.
  Qed.

  Lemma prob_snoc : forall obs path o y y0, length obs = length path -> last_state path = Some y0 ->
    path_prob em (obs ++ [o]) (path ++ [y]) =
      add64 E (add64 E (path_prob em obs path) (dflt (prob_trans E y0 y))) (dflt (em y o)).
  Proof.
    intros [|o1 obs] [|z path] o y y0 Hl Hy; try discriminate. cbn [app path_prob]. apply steps_snoc; [cbn in Hl; lia|exact Hy].
  Qed.

  (** One column. *)
  Lemma col_spec : forall o (v : vmap E) (p : pmap), exists v' p', vit_col em o v p all_states (v_empty E) p_empty = Ok (v', p') /\
    forall y, exists a b, prev_status y = [a; b] /\
      let s z := (add64 E (add64 E (v z) (dflt (prob_trans E z y))) (dflt (em y o)), z) in
      v' y = fst (pick (s a) (s b)) /\ p' y = p (snd (pick (s a) (s b))) ++ [y].
  Proof.
    intros o v p. eexists _, _. split; [reflexivity|]. intros []; eexists _, _; (split; [reflexivity|]); split; reflexivity.
  Qed.

  Lemma pick_in : forall a b : pstate E, pick a b = a \/ pick a b = b.
  Proof. intros. unfold pick. destruct (p_less a b); auto. Qed.

  (** What vtb and path mean after the observations [obs]. *)
  Definition col_ok (obs : list rune) (v : vmap E) (p : pmap) : Prop := forall y,
    length (p y) = length obs /\ last_state (p y) = Some y /\ legal_path (p y) /\ v y = path_prob em obs (p y).

  Lemma init_ok : forall o, col_ok [o] (fst (vit_init em o all_states (v_empty E) p_empty)) (snd (vit_init em o all_states (v_empty E) p_empty)).
  Proof. intros o []; repeat split; reflexivity. Qed.

  Lemma pick_from : forall y o v (p : pmap) a b, prev_status y = [a; b] ->
    let s z := (add64 E (add64 E (v z) (dflt (prob_trans E z y))) (dflt (em y o)), z) in
    exists y0, In y0 (prev_status y) /\ pick (s a) (s b) = s y0.
  Proof.
    intros y o v p a b H s. rewrite H. destruct (pick_in (s a) (s b)) as [->| ->]; [exists a|exists b]; cbn; auto.
  Qed.

  Lemma col_ok_step : forall obs o v p, col_ok obs v p -> exists v' p',
    vit_col em o v p all_states (v_empty E) p_empty = Ok (v', p') /\ col_ok (obs ++ [o]) v' p'.
  Proof.
    intros obs o v p H. destruct (col_spec o v p) as (v' & p' & H1 & H2). exists v', p'. split; [exact H1|]. intro y.
    destruct (H2 y) as (a & b & Hp & Hv & Hpp). destruct (@pick_from y o v p a b Hp) as (y0 & Hy0 & Hpk). cbv zeta in *. rewrite Hpk in *. cbn [fst snd] in *.
    destruct (H y0) as (K1 & K2 & K3 & K4). rewrite Hpp, Hv. repeat split.
    - rewrite !app_length. cbn. lia.
    - apply last_snoc.
    - apply (legal_snoc y K2). split; [exact K3|]. apply prev_legal. exact Hy0.
    - rewrite (@prob_snoc obs (p y0) o y y0) by auto. rewrite K4. reflexivity.
  Qed.

  Lemma loop_ok : forall os obs v p, col_ok obs v p -> exists v' p', vit_loop em all_states os v p = Ok (v', p') /\ col_ok (obs ++ os) v' p'.
  Proof.
    induction os as [|o os IH]; intros obs v p H; [exists v, p; rewrite app_nil_r; split; [reflexivity|exact H]|]. cbn [vit_loop].
    destruct (col_ok_step o H) as (v' & p' & H1 & H2). rewrite H1. cbn [bind fst snd].
    destruct (IH _ _ _ H2) as (v2 & p2 & H3 & H4). exists v2, p2. split; [exact H3|]. rewrite <- app_assoc in H4. exact H4.
  Qed.

  Lemma c31 : forall obs, obs <> [] -> exists p path, viterbi em obs all_states = Ok (p, path) /\
    length path = length obs /\ legal_path path /\ (last_state path = Some HE \/ last_state path = Some HS) /\ p = path_prob em obs path.
  Proof.
    intros [|o os] H; [congruence|]. unfold viterbi. destruct (loop_ok os (init_ok o)) as (v & p & H1 & H2). rewrite H1. cbn [bind fst snd].
    destruct (pick_in (v HE, HE) (v HS, HS)) as [->| ->]; cbn [fst snd]; [destruct (H2 HE) as (K1 & K2 & K3 & K4)|destruct (H2 HS) as (K1 & K2 & K3 & K4)];
      eexists _, _; (split; [reflexivity|]); repeat split; auto.
  Qed.

  (** *** Optimality *)
  Variable L : laws64 E.

  Definition path_to (obs : list rune) (q : list hst) (y : hst) : Prop := length q = length obs /\ legal_path q /\ last_state q = Some y.

  (** No NaN on any path of [obs]. *)
  Definition no_nan (obs : list rune) : Prop := forall q y, path_to obs q y -> num64 (path_prob em obs q).

  Definition col_best (obs : list rune) (v : vmap E) : Prop := forall y q, path_to obs q y -> le64 (path_prob em obs q) (v y).

  Lemma pick_max : forall a b : pstate E, num64 (fst a) -> num64 (fst b) -> le64 (fst a) (fst (pick a b)) /\ le64 (fst b) (fst (pick a b)).
  Proof.
    intros a b Ha Hb. unfold pick, p_less. destruct (eqb64 E (fst a) (fst b)) eqn:Eq.
    - destruct (eq_le64 L Eq) as [H1 H2]. destruct (hst_ord (snd a) <? hst_ord (snd b)); split; auto; apply (le_refl64 L); auto.
    - destruct (ltb64 E (fst a) (fst b)) eqn:El.
      + split; [apply (lt_le64 L); exact El|apply (le_refl64 L); auto].
      + split; [apply (le_refl64 L); auto|]. repeat split; auto.
  Qed.

  Lemma best_step : forall obs o v p v' p', col_ok obs v p -> no_nan (obs ++ [o]) -> col_best obs v ->
    vit_col em o v p all_states (v_empty E) p_empty = Ok (v', p') -> col_best (obs ++ [o]) v'.
  Proof.
    intros obs o v p v' p' Hok Hn Hb H. destruct (col_spec o v p) as (v2 & p2 & H1 & H2). rewrite H1 in H. injection H as -> ->.
    intros y q (Hl & Hleg & Hlast). destruct (last_inv Hlast) as (q0 & ->). rewrite !app_length in Hl. cbn [length] in Hl.
    destruct (H2 y) as (a & b & Hp & Hv & _). cbv zeta in Hv.
    set (s z := (add64 E (add64 E (v z) (dflt (prob_trans E z y))) (dflt (em y o)), z)) in *.
    assert (Hs : forall z, legal z y -> num64 (fst (s z)) /\ forall q1, path_to obs q1 z -> le64 (path_prob em (obs ++ [o]) (q1 ++ [y])) (fst (s z))).
    { intros z Hz. destruct (Hok z) as (K1 & K2 & K3 & K4).
      assert (Hnz : num64 (fst (s z))).
      { unfold s. cbn [fst]. rewrite K4. rewrite <- (@prob_snoc obs (p z) o y z) by auto. apply (Hn _ y). repeat split.
        - rewrite !app_length. cbn. lia.
        - apply (legal_snoc y K2). auto.
        - apply last_snoc. }
      split; [exact Hnz|]. intros q1 (G1 & G2 & G3).
      assert (Hnq : num64 (path_prob em (obs ++ [o]) (q1 ++ [y]))).
      { apply (Hn _ y). repeat split; [rewrite !app_length; cbn; lia|apply (legal_snoc y G3); auto|apply last_snoc]. }
      unfold s in *. cbn [fst] in *. rewrite (@prob_snoc obs q1 o y z) in * by auto.
      apply (add_l64 L); auto. apply (add_l64 L); [exact (proj1 (add_num64 L Hnq))|exact (proj1 (add_num64 L Hnz))|]. apply Hb. repeat split; auto. }
    destruct q0 as [|z0 q0'].
    - destruct obs; [|cbn in Hl; lia]. exfalso. destruct (Hok HE) as (K1 & K2 & _). destruct (p HE); discriminate.
    - destruct (@exists_last _ (z0 :: q0')) as (q2 & z & Hq); [discriminate|]. rewrite Hq in *.
      pose proof (last_snoc q2 z) as Hlz. apply (legal_snoc y Hlz) in Hleg as [Hleg Hzy].
      assert (Hza : z = a \/ z = b). { apply prev_legal in Hzy. rewrite Hp in Hzy. destruct Hzy as [<-|[<-|[]]]; auto. }
      assert (Ha : legal a y) by (apply prev_legal; rewrite Hp; left; auto).
      assert (Hbb : legal b y) by (apply prev_legal; rewrite Hp; right; left; auto).
      destruct (pick_max (proj1 (Hs a Ha)) (proj1 (Hs b Hbb))) as [M1 M2]. rewrite Hv.
      eapply (le_trans64 L); [apply (proj2 (Hs z Hzy)); repeat split; auto; lia|]. destruct Hza as [->| ->]; assumption.
  Qed.

  Lemma nan_prefix : forall obs o, obs <> [] -> no_nan (obs ++ [o]) -> no_nan obs.
  Proof.
    intros obs o Ho H q y (H1 & H2 & H3). set (y' := match y with HB | HM => HE | _ => HS end).
    assert (Hly : legal y y') by (destruct y; exact I).
    assert (Hn : num64 (path_prob em (obs ++ [o]) (q ++ [y']))).
    { apply (H _ y'). repeat split; [rewrite !app_length; cbn; lia|apply (legal_snoc y' H3); auto|apply last_snoc]. }
    rewrite (@prob_snoc obs q o y' y) in Hn by auto. apply (add_num64 L) in Hn as [Hn _]. apply (add_num64 L) in Hn as [Hn _]. exact Hn.
  Qed.

  Lemma loop_best : forall os obs v p v' p', obs <> [] -> col_ok obs v p -> no_nan (obs ++ os) -> (no_nan obs -> col_best obs v) ->
    vit_loop em all_states os v p = Ok (v', p') -> col_best (obs ++ os) v'.
  Proof.
    induction os as [|o os IH]; intros obs v p v' p' Ho Hok Hn Hb H.
    - cbn in H. injection H as <- <-. rewrite app_nil_r in *. auto.
    - cbn [vit_loop] in H. destruct (col_ok_step o Hok) as (v1 & p1 & G1 & G2). rewrite G1 in H. cbn [bind fst snd] in H.
      change (obs ++ o :: os) with (obs ++ [o] ++ os) in *. rewrite app_assoc in *.
      eapply IH; [destruct obs; discriminate|exact G2|exact Hn| |exact H].
      intro Hn1. eapply best_step; [exact Hok|exact Hn1|apply Hb; eapply nan_prefix; eauto|exact G1].
  Qed.

  Lemma init_best : forall o, no_nan [o] -> col_best [o] (fst (vit_init em o all_states (v_empty E) p_empty)).
  Proof.
    intros o Hn y q Hq. pose proof (Hn q y Hq) as H. destruct Hq as (H1 & _ & H3). destruct q as [|z [|]]; try discriminate. cbn in H3. injection H3 as ->.
    assert (Hv : fst (vit_init em o all_states (v_empty E) p_empty) y = path_prob em [o] [y]) by (destruct y; reflexivity).
    rewrite Hv. apply (le_refl64 L). exact H.
  Qed.

  Lemma c32 : forall obs p path, no_nan obs -> viterbi em obs all_states = Ok (p, path) ->
    forall q, length q = length obs -> legal_path q -> (last_state q = Some HE \/ last_state q = Some HS) -> le64 (path_prob em obs q) p.
  Proof.
    intros [|o os] p path Hn H q H1 H2 H3; [discriminate|]. unfold viterbi in H.
    destruct (loop_ok os (init_ok o)) as (v & pp & G1 & G2).
    pose proof (@loop_best os [o] _ _ v pp ltac:(discriminate) (init_ok o) Hn (@init_best o) G1) as Hb.
    rewrite G1 in H. cbn [bind fst snd] in H. injection H as Hp _.
    assert (Hnum : forall y, num64 (v y)).
    { intro y. destruct (G2 y) as (K1 & K2 & K3 & K4). rewrite K4. apply (Hn _ y). repeat split; auto. }
    destruct (@pick_max (v HE, HE) (v HS, HS) (Hnum HE) (Hnum HS)) as [M1 M2]. rewrite Hp in *.
    destruct H3 as [H3|H3]; (eapply (le_trans64 L); [apply Hb; repeat split; eauto|assumption]).
  Qed.

  (** Finite emissions give no NaN. *)
  Lemma steps_num : forall obs path acc y0, num64 acc -> (forall y o v, em y o = Some v -> fin64 v) ->
    (forall y0 y v, prob_trans E y0 y = Some v -> fin64 v) -> fin64 (min_float E) -> num64 (path_steps em acc y0 obs path).
  Proof.
    intros obs path acc y0 Ha He Ht Hm; revert path acc y0 Ha; induction obs as [|o obs IH]; intros [|y path] acc y0 Ha; cbn [path_steps]; auto.
    apply IH. apply (fin_add64 L); [apply (fin_add64 L); [exact Ha|]|].
    - unfold dflt. destruct (prob_trans E y0 y) eqn:Et; [eauto|exact Hm].
    - unfold dflt. destruct (em y o) eqn:Et; [eauto|exact Hm].
  Qed.
End V.

Lemma const_fin : forall E, ar E = ieee -> fin64 (min_float E) /\ (forall y0 y v, prob_trans E y0 y = Some v -> fin64 v) /\ (forall y, fin64 (prob_start E y)).
Proof.
  intros E HE. unfold min_float, prob_trans, prob_start. rewrite HE. clear. split; [vm_compute; reflexivity|]. split.
  - intros [] [] v H; try discriminate; injection H as <-; vm_compute; reflexivity.
  - intros []; vm_compute; reflexivity.
Qed.

Lemma fin_no_nan : forall E (em : emits E), ar E = ieee -> (forall y o v, em y o = Some v -> fin64 v) -> forall obs, obs <> [] -> no_nan em obs.
Proof.
  intros E em HE He. destruct (const_fin HE) as (Hm & Ht & Hs). assert (L : laws64 E) by (rewrite HE; exact ieee_laws64).
  intros [|o obs] Hne q y (H1 & _ & H3); [congruence|]. destruct q as [|z q]; [discriminate|]. cbn [path_prob]. apply steps_num; auto.
  apply (fin_add64 L); [|apply Hs]. apply (fin_num64 L). unfold dflt. destruct (em z o) eqn:Et; [eauto|exact Hm].
Qed.

(** *** internalCut *)
Lemma cut_concat : forall A (l : list A) path cur, concat (cut_after path l cur) = cur ++ firstn (length path) l.
Proof.
  induction l as [|a l IH]; intros [|y path] cur; cbn [cut_after length firstn]; rewrite ?app_nil_r.
  1-3: destruct cur; cbn; rewrite ?app_nil_r; reflexivity.
  destruct y; cbn [concat]; rewrite IH, <- ?app_assoc; reflexivity.
Qed.

Lemma cut_nonempty : forall A (l : list A) path cur, Forall (fun w => w <> []) (cut_after path l cur).
Proof.
  induction l as [|a l IH]; intros [|y path] cur; cbn [cut_after].
  1-3: destruct cur; repeat constructor; discriminate.
  destruct y; auto; constructor; auto; destruct cur; discriminate.
Qed.

Lemma slice_end : forall A (pre l : list A) b, slice (pre ++ l) b (length pre) = skipn b pre.
Proof. intros. unfold slice. rewrite skipn_app, firstn_app, skipn_length, Nat.sub_diag, firstn_O, app_nil_r, firstn_all2; [reflexivity|rewrite skipn_length; lia]. Qed.

Lemma skipn_snoc : forall A (l : list A) x b, b <= length l -> skipn b (l ++ [x]) = skipn b l ++ [x].
Proof. intros. rewrite skipn_app. replace (b - length l) with 0 by lia. reflexivity. Qed.

Lemma icut_ok : forall rest prest pre ppre begin next out cur, length ppre = length pre -> length prest = length rest ->
  legal_path (ppre ++ prest) -> (last_state (ppre ++ prest) = Some HE \/ last_state (ppre ++ prest) = Some HS \/ ppre ++ prest = []) ->
  match last_state ppre with
  | None => begin = 0 /\ next = 0 /\ cur = []
  | Some HB | Some HM => begin = next /\ next <= length pre /\ cur = skipn begin pre
  | _ => next = length pre /\ cur = []
  end ->
  icut_loop (pre ++ rest) (length pre) rest (ppre ++ prest) begin next out =
    Ok (length (pre ++ rest), out ++ map string_of_runes (cut_after prest rest cur)).
Proof.
  induction rest as [|ch rest IH]; intros [|y prest] pre ppre begin next out cur H1 H2 H3 H4 H5; try discriminate.
  - rewrite !app_nil_r in *. cbn [icut_loop cut_after].
    assert (Hc : cur = [] /\ next = length pre).
    { destruct H4 as [H4|[H4|H4]].
      - rewrite H4 in H5. tauto.
      - rewrite H4 in H5. tauto.
      - subst ppre. destruct pre; [|discriminate]. cbn in *. tauto. }
    destruct Hc as [-> ->]. cbn. rewrite app_nil_r. reflexivity.
  - cbn [icut_loop]. unfold get. rewrite nth_error_app2 by lia. rewrite <- H1, Nat.sub_diag. cbn [nth_error bind].
    assert (Hpre : length (ppre ++ [y]) = length (pre ++ [ch])) by (rewrite !app_length; cbn; lia).
    assert (Hpos : ppre ++ y :: prest = (ppre ++ [y]) ++ prest) by (rewrite <- app_assoc; reflexivity).
    assert (Hr : pre ++ ch :: rest = (pre ++ [ch]) ++ rest) by (rewrite <- app_assoc; reflexivity).
    assert (Hlen : S (length ppre) = length (pre ++ [ch])) by (rewrite app_length; cbn; lia).
    assert (Hleg : match last_state ppre with Some y0 => legal y0 y | None => ppre = [] end).
    { destruct (last_state ppre) as [y0|] eqn:El.
      - assert (Hx : legal_path (ppre ++ [y])).
        { rewrite Hpos in H3. clear -H3. revert H3. generalize (ppre ++ [y]). induction l as [|a [|b l] IH]; intro H; cbn in *; auto. tauto. }
        apply (legal_snoc y El) in Hx. tauto.
      - destruct ppre; [reflexivity|]. unfold last_state in El. apply nth_error_None in El. cbn in El. lia. }
    rewrite Hlen, Hpos, Hr in *. cbn [length] in H2. injection H2 as H2.
    destruct y; cbn [cut_after map].
    + (* B *) apply IH; auto. rewrite last_snoc. rewrite H1.
      assert (next = length pre /\ cur = []) as [-> ->].
      { destruct (last_state ppre) as [[]|]; try contradiction; auto. destruct H5 as (-> & -> & ->). subst ppre. destruct pre; [auto|discriminate]. }
      split; [reflexivity|]. split; [rewrite app_length; lia|]. rewrite skipn_snoc, skipn_all by lia. reflexivity.
    + (* M *) apply IH; auto. rewrite last_snoc.
      destruct (last_state ppre) as [[]|]; try contradiction.
      * destruct H5 as (-> & Hn & ->). split; [reflexivity|]. split; [rewrite app_length; lia|]. rewrite skipn_snoc by lia. reflexivity.
      * destruct H5 as (-> & Hn & ->). split; [reflexivity|]. split; [rewrite app_length; lia|]. rewrite skipn_snoc by lia. reflexivity.
      * destruct H5 as (-> & -> & ->). subst ppre. destruct pre; [|discriminate]. cbn. auto with arith.
    + (* E *) rewrite (IH prest (pre ++ [ch]) (ppre ++ [HE]) _ _ _ []); auto; [|rewrite last_snoc; auto].
      rewrite <- (app_assoc out). cbn [app]. do 4 f_equal.
      rewrite slice_end.
      destruct (last_state ppre) as [[]|]; try contradiction.
      * destruct H5 as (-> & Hn & ->). rewrite skipn_snoc by lia. reflexivity.
      * destruct H5 as (-> & Hn & ->). rewrite skipn_snoc by lia. reflexivity.
      * destruct H5 as (-> & -> & ->). subst ppre. destruct pre; [|discriminate]. reflexivity.
    + (* S *) rewrite (IH prest (pre ++ [ch]) (ppre ++ [HS]) _ _ _ []); auto; [|rewrite last_snoc; auto].
      rewrite <- (app_assoc out). cbn [app]. do 4 f_equal.
      assert (cur = []) as ->. { destruct (last_state ppre) as [[]|]; try contradiction; tauto. }
      unfold string_of_runes. cbn. rewrite app_nil_r. reflexivity.
Qed.

Lemma runes_ne : forall s, s <> [] -> runes_of s <> [].
Proof. intros s H. unfold runes_of. rewrite (units_cons H). discriminate. Qed.

Lemma internal_ok : forall E (em : emits E) text, text <> [] -> exists p path, viterbi em (runes_of text) all_states = Ok (p, path) /\
  length path = length (runes_of text) /\
  internal_cut em text = Ok (map string_of_runes (cut_after path (runes_of text) [])).
Proof.
  intros E em text H. destruct (c31 em (runes_ne H)) as (p & path & H1 & H2 & H3 & H4 & H5). exists p, path. split; [exact H1|]. split; [exact H2|].
  unfold internal_cut. rewrite H1. cbn [bind snd].
  pose proof (@icut_ok (runes_of text) path [] [] 0 0 [] [] eq_refl H2 H3) as Hi. cbn [app length] in Hi. rewrite Hi; [|tauto|cbn; auto].
  cbn [bind fst snd]. rewrite Nat.ltb_irrefl. reflexivity.
Qed.

Lemma string_nonempty : forall rs, rs <> [] -> string_of_runes rs <> [].
Proof.
  intros [|r rs] H; [congruence|]. unfold string_of_runes. cbn [map concat]. destruct (string_rune_scalar r) as (r' & Hs & ->).
  destruct (enc_cons Hs) as (b & t & ->). discriminate.
Qed.

Lemma string_concat : forall ws, concat (map string_of_runes ws) = string_of_runes (concat ws).
Proof. induction ws as [|w ws IH]; [reflexivity|]. unfold string_of_runes in *. cbn [map concat]. rewrite map_app, concat_app, IH. reflexivity. Qed.

Lemma words_facts : forall path (runes : list rune), length path = length runes ->
  concat (map string_of_runes (cut_after path runes [])) = string_of_runes runes /\
  Forall (fun w => w <> []) (map string_of_runes (cut_after path runes [])).
Proof.
  intros path runes H. split.
  - rewrite string_concat, cut_concat, H, firstn_all. reflexivity.
  - apply Forall_map. eapply Forall_impl; [|apply cut_nonempty]. intros w. apply string_nonempty.
Qed.

(** *** Cut *)
Lemma preserved_nil : preserved [] [].
Proof. exists []. split; reflexivity. Qed.
Lemma preserved_plain : forall a s out, preserved s out -> preserved (a ++ s) (a :: out).
Proof. intros a s out (parts & H1 & H2). exists ((false, a) :: parts). cbn. rewrite <- H1, <- H2. auto. Qed.
Lemma preserved_cut : forall a s ws out, concat ws = reencode a -> preserved s out -> preserved (a ++ s) (ws ++ out).
Proof. intros a s ws out Hw (parts & H1 & H2). exists ((true, a) :: parts). cbn. rewrite concat_app, <- H1, <- H2, Hw. auto. Qed.

Lemma slice0 : forall A (s : list A) b, slice s 0 b = firstn b s.
Proof. intros. unfold slice. rewrite Nat.sub_0_r. reflexivity. Qed.

Section HCut.
  Variable E : env.
  Variable em : emits E.
  Variables han skip : matcher.
  Hypothesis Hwf : wf_matcher han. Hypothesis Hne : nonempty_matcher han.
  Hypothesis Swf : wf_matcher skip. Hypothesis Sne : nonempty_matcher skip.
  Variable G : bytes -> Prop.

  Lemma hcut_ok : forall fuel text result, length text < fuel -> exists out,
    hcut_loop fuel em han skip text result = Ok (result ++ out) /\ Forall (fun w => w <> []) out /\ preserved text out /\
    ((forall s b, G s -> han s = Some (0, b) -> reencode (firstn b s) = firstn b s) ->
     (forall s a b, G s -> han s = Some (a, b) \/ skip s = Some (a, b) -> G (skipn a s) /\ G (skipn b s)) -> G text -> concat out = text).
  Proof.
    induction fuel as [|fuel IH]; intros text result Hf; [lia|]. cbn [hcut_loop].
    assert (Hstep : forall n w, 0 < n <= length text -> w <> [] -> w = firstn n text ->
      exists out, hcut_loop fuel em han skip (skipn n text) (result ++ [w]) = Ok (result ++ out) /\ Forall (fun w => w <> []) out /\ preserved text out /\
       ((forall s b, G s -> han s = Some (0, b) -> reencode (firstn b s) = firstn b s) ->
        (forall s a b, G s -> han s = Some (a, b) \/ skip s = Some (a, b) -> G (skipn a s) /\ G (skipn b s)) -> G (skipn n text) -> concat out = text)).
    { intros n w Hn Hw Hwe. destruct (IH (skipn n text) (result ++ [w])) as (out & H1 & H2 & H3 & H4); [rewrite skipn_length; lia|].
      exists (w :: out). rewrite H1, <- app_assoc. split; [reflexivity|]. split; [constructor; auto|]. split.
      - rewrite <- (firstn_skipn n text), <- Hwe at 1. apply preserved_plain. exact H3.
      - intros K1 K2 K3. cbn [concat]. rewrite (H4 K1 K2 K3), Hwe. apply firstn_skipn. }
    assert (Hfirst : forall n, 0 < n <= length text -> firstn n text <> []).
    { intros n Hn He. apply (f_equal (@length _)) in He. rewrite firstn_length in He. cbn in He. lia. }
    assert (Hafter : forall a b, han text = Some (S a, b) \/ han text = None -> text <> [] -> exists out,
      match skip text with
      | None => match loc_judge (han text) (skip text) with
                | None => Ok (result ++ [text])
                | Some loc => hcut_loop fuel em han skip (skipn (fst loc) text) (result ++ [firstn (fst loc) text])
                end
      | Some (0, b) => match slice text 0 b with
                       | [] => match loc_judge (han text) (skip text) with
                               | None => Ok (result ++ [skipn b text])
                               | Some loc => hcut_loop fuel em han skip (skipn (fst loc) (skipn b text)) (result ++ [firstn (fst loc) (skipn b text)])
                               end
                       | _ => hcut_loop fuel em han skip (skipn b text) (result ++ [slice text 0 b])
                       end
      | Some (S _, _) => match loc_judge (han text) (skip text) with
                | None => Ok (result ++ [text])
                | Some loc => hcut_loop fuel em han skip (skipn (fst loc) text) (result ++ [firstn (fst loc) text])
                end
      end = Ok (result ++ out) /\ Forall (fun w => w <> []) out /\ preserved text out /\
       ((forall s b, G s -> han s = Some (0, b) -> reencode (firstn b s) = firstn b s) ->
        (forall s a b, G s -> han s = Some (a, b) \/ skip s = Some (a, b) -> G (skipn a s) /\ G (skipn b s)) -> G text -> concat out = text)).
    { intros a b Hhan Htext.
      assert (Hloc : forall l, 0 < fst l <= length text -> (han text = Some l \/ skip text = Some l) -> exists out,
         hcut_loop fuel em han skip (skipn (fst l) text) (result ++ [firstn (fst l) text]) = Ok (result ++ out) /\ Forall (fun w => w <> []) out /\ preserved text out /\
       ((forall s b, G s -> han s = Some (0, b) -> reencode (firstn b s) = firstn b s) ->
        (forall s a b, G s -> han s = Some (a, b) \/ skip s = Some (a, b) -> G (skipn a s) /\ G (skipn b s)) -> G text -> concat out = text)).
      { intros [l1 l2] Hl Hw. destruct (@Hstep l1 (firstn l1 text) Hl (Hfirst _ Hl) eq_refl) as (out & K1 & K2 & K3 & K4).
        exists out. cbn [fst]. split; [exact K1|]. split; [exact K2|]. split; [exact K3|]. intros G1 G2 G3. apply K4; auto. apply (G2 text l1 l2 G3 Hw). }
      destruct (skip text) as [[[|sa] sb]|] eqn:Es.
      - pose proof (Swf Es) as W1. pose proof (Sne Es) as W2. destruct (slice text 0 sb) eqn:Esl.
        + exfalso. rewrite slice0 in Esl. apply (Hfirst sb); [lia|exact Esl].
        + rewrite <- Esl. destruct (@Hstep sb (slice text 0 sb)) as (out & K1 & K2 & K3 & K4); [lia|rewrite Esl; discriminate|apply slice0|].
          exists out. split; [exact K1|]. split; [exact K2|]. split; [exact K3|]. intros G1 G2 G3. apply K4; auto. apply (G2 text 0 sb G3). auto.
      - pose proof (Swf Es) as W1. pose proof (Sne Es) as W2.
        assert (exists l, loc_judge (han text) (Some (S sa, sb)) = Some l /\ 0 < fst l <= length text /\ (han text = Some l \/ skip text = Some l)) as (l & El & Hl1 & Hl2).
        { destruct Hhan as [Hh|Hh]; rewrite Hh in *; cbn [loc_judge fst].
          - pose proof (Hwf Hh) as W3. destruct (S a <? S sa); eexists; (split; [reflexivity|]); cbn [fst]; split; auto; lia.
          - eexists. split; [reflexivity|]. cbn [fst]. split; auto; lia. }
        rewrite El. apply Hloc; auto. rewrite Es in Hl2. exact Hl2.
      - destruct Hhan as [Hh|Hh]; rewrite Hh in *; cbn [loc_judge].
        + pose proof (Hwf Hh) as W3. pose proof (Hne Hh). apply Hloc; [cbn; lia|auto].
        + exists [text]. split; [reflexivity|]. split; [repeat constructor; exact Htext|]. split.
          * rewrite <- (app_nil_r text) at 1. apply preserved_plain. apply preserved_nil.
          * intros _ _ _. cbn. apply app_nil_r. }
    destruct (han text) as [[[|a] b]|] eqn:Eh.
    - pose proof (Hwf Eh) as W1. pose proof (Hne Eh) as W2.
      assert (Hf1 : firstn b text <> []) by (apply Hfirst; lia).
      destruct (internal_ok em Hf1) as (pr & path & V1 & V2 & V3). rewrite slice0, V3. cbn [bind].
      destruct (words_facts V2) as [F1 F2].
      destruct (IH (skipn b text) (result ++ map string_of_runes (cut_after path (runes_of (firstn b text)) []))) as (out & K1 & K2 & K3 & K4); [rewrite skipn_length; lia|].
      eexists. rewrite K1, <- app_assoc. split; [reflexivity|]. split; [apply Forall_app; auto|]. split.
      + rewrite <- (firstn_skipn b text) at 1. apply preserved_cut; auto.
      + intros G1 G2 G3. rewrite concat_app, F1. rewrite K4; auto; [|apply (G2 text 0 b G3); auto].
        change (string_of_runes (runes_of (firstn b text))) with (reencode (firstn b text)). rewrite (G1 text b G3 Eh). apply firstn_skipn.
    - destruct text as [|c text']; [pose proof (Hwf Eh); pose proof (Hne Eh); cbn in *; lia|].
      destruct (Hafter a b (or_introl eq_refl)) as (out & K); [discriminate|]. exists out.
      destruct (skip (c :: text')) as [[[|sa] sb]|]; exact K.
    - destruct text as [|c text'].
      + exists []. rewrite app_nil_r. repeat split; auto. apply preserved_nil.
      + destruct (Hafter 0 0 (or_intror eq_refl)) as (out & K); [discriminate|]. exists out.
        destruct (skip (c :: text')) as [[[|sa] sb]|]; exact K.
  Qed.
End HCut.

(** *** The built-in expressions *)
Lemma tw_split : forall A (p : A -> bool) l, exists r, l = take_while p l ++ r /\ Forall (fun a => p a = true) (take_while p l) /\
  match r with [] => True | a :: _ => p a = false end.
Proof.
  induction l as [|a l (r & H1 & H2 & H3)]; [exists []; cbn; auto|]. cbn [take_while]. destruct (p a) eqn:Ep.
  - exists r. cbn [app]. rewrite <- H1. auto.
  - exists (a :: l). cbn. auto.
Qed.

Lemma tw_length : forall A (p : A -> bool) l, length (take_while p l) <= length l.
Proof. intros. destruct (tw_split p l) as (r & H & _). rewrite H at 2. rewrite app_length. lia. Qed.

Lemma tw_skip : forall A (p : A -> bool) l, match skipn (length (take_while p l)) l with [] => True | a :: _ => p a = false end.
Proof.
  intros. destruct (tw_split p l) as (r & H & _ & H3). set (t := take_while p l) in *. clearbody t. subst l. rewrite skipn_app, skipn_all, Nat.sub_diag. exact H3.
Qed.

Lemma units_len_pos : forall us s, incl us (units s) -> us <> [] -> 0 < length (concat (map snd us)).
Proof.
  intros [|u us] s Hi H; [congruence|]. cbn [map concat]. rewrite app_length.
  pose proof (units_nonempty s) as Hn. rewrite Forall_forall in Hn. specialize (Hn u (Hi u (or_introl eq_refl))). destruct (snd u); [congruence|cbn; lia].
Qed.

Section Builtin.
  Variable E : env.

  (** Decomposition of the text at the match of regHan. *)
  Lemma han_split : forall s a b, reg_han E s = Some (a, b) -> exists u1 u2 u3, units s = u1 ++ u2 ++ u3 /\ u2 <> [] /\
    a = length (concat (map snd u1)) /\ b = a + length (concat (map snd u2)) /\ Forall (fun u => is_han E (fst u) = true) u2.
  Proof.
    intros s a b H. unfold reg_han in H. set (p := fun u : rune * bytes => negb (is_han E (fst u))) in *. set (q := fun u : rune * bytes => is_han E (fst u)) in *.
    destruct (tw_split p (units s)) as (r & H1 & H2 & H3). set (pre := take_while p (units s)) in *.
    assert (Hsk : skipn (length pre) (units s) = r) by (rewrite H1, skipn_app, skipn_all, Nat.sub_diag; reflexivity). rewrite Hsk in H.
    destruct (tw_split q r) as (r' & G1 & G2 & _). remember (take_while q r) as run eqn:Er. clear Er.
    destruct run as [|u run]; [discriminate|]. injection H as <- <-.
    exists pre, (u :: run), r'. rewrite <- G1. repeat split; auto. discriminate.
  Qed.

  Lemma han_wf : wf_matcher (reg_han E) /\ nonempty_matcher (reg_han E).
  Proof.
    split; intros s a b H; destruct (han_split H) as (u1 & u2 & u3 & H1 & H2 & -> & -> & H5).
    - split; [lia|]. rewrite <- (units_concat s), H1, !map_app, !concat_app, !app_length. lia.
    - pose proof (@units_len_pos u2 s) as Hp. assert (incl u2 (units s)) by (rewrite H1; intros x Hx; apply in_or_app; right; apply in_or_app; auto).
      specialize (Hp H0 H2). lia.
  Qed.

  Lemma unit_valid : forall s u, In u (units s) -> fst u <> RuneError -> valid (snd u).
  Proof.
    intros s u Hu Hr. pose proof (units_decode s) as Hd. pose proof (units_nonempty s) as Hn. rewrite Forall_forall in *. specialize (Hd u Hu). specialize (Hn u Hu).
    destruct (decode_cases Hn Hd) as [(Hs & He)|(He & _)]; [|contradiction]. rewrite firstn_all in He. rewrite He. exists [fst u]. cbn. rewrite app_nil_r. auto.
  Qed.

  Lemma han_valid : forall s b, reg_han E s = Some (0, b) -> valid (firstn b s).
  Proof.
    intros s b H. destruct (han_split H) as (u1 & u2 & u3 & H1 & H2 & H3 & -> & H5).
    destruct u1 as [|u u1].
    2:{ pose proof (@units_len_pos (u :: u1) s) as Hp. rewrite <- H3 in Hp. exfalso.
        assert (0 < 0); [|lia]. apply Hp; [rewrite H1; intros x Hx; apply in_or_app; auto|discriminate]. }
    cbn [app] in H1. rewrite <- (units_concat s), H1, map_app, concat_app at 1. cbn [map concat length plus].
    rewrite firstn_app, Nat.sub_diag, firstn_O, app_nil_r, firstn_all.
    assert (Hin : incl u2 (units s)) by (rewrite H1; intros x Hx; apply in_or_app; auto). clear -H5 Hin.
    induction u2 as [|u u2 IH]; [apply valid_nil|]. inversion_clear H5. cbn [map concat]. apply valid_app; [|apply IH; auto; intros x Hx; apply Hin; right; auto].
    apply (@unit_valid s u); [apply Hin; left; auto|]. intro Hc. rewrite Hc in H. discriminate.
  Qed.

  Lemma valid_units : forall s, valid s <-> Forall (fun u => valid (snd u)) (units s).
  Proof.
    intro s. split.
    - intros (rs & H & ->). rewrite (units_encs H). apply Forall_map. eapply Forall_impl; [|exact H]. intros r Hr. exists [r]. cbn. rewrite app_nil_r. auto.
    - intro H. rewrite <- (units_concat s). induction H as [|u us Hu H IH]; [apply valid_nil|]. cbn [map concat]. apply valid_app; assumption.
  Qed.

  Lemma valid_of_units : forall us, Forall (fun u : rune * bytes => valid (snd u)) us -> valid (concat (map snd us)).
  Proof. intros us H. induction H as [|u us Hu H IH]; [apply valid_nil|]. cbn [map concat]. apply valid_app; assumption. Qed.

  Lemma valid_split : forall x y, sync y -> valid (x ++ y) -> valid x /\ valid y.
  Proof.
    intros x y Hs H. apply valid_units in H. rewrite (units_sync _ Hs) in H. apply Forall_app in H as [H1 H2]. split; apply valid_units; assumption.
  Qed.

  Lemma valid_strip : forall x y, Forall (fun b => (bz b < 128)%Z) x -> valid (x ++ y) -> valid x /\ valid y.
  Proof.
    intros x y H. induction H as [|b x Hb H IH]; intro Hv; [split; [apply valid_nil|exact Hv]|].
    apply valid_units in Hv. cbn [app] in Hv. rewrite (units_ascii _ Hb) in Hv. inversion_clear Hv. apply valid_units in H1. destruct (IH H1) as [Hx Hy].
    split; [|exact Hy]. change (b :: x) with ([b] ++ x). apply valid_app; [apply valid_ascii; exact Hb|exact Hx].
  Qed.

  Lemma han_rune : rune_matcher (reg_han E).
  Proof.
    intros s a b Hv H. destruct (han_split H) as (u1 & u2 & u3 & H1 & H2 & -> & -> & H5).
    apply valid_units in Hv. rewrite H1 in Hv. apply Forall_app in Hv as [V1 Hv]. apply Forall_app in Hv as [V2 V3].
    assert (Hs : s = concat (map snd u1) ++ concat (map snd u2) ++ concat (map snd u3)) by (rewrite <- (units_concat s), H1, !map_app, !concat_app; reflexivity).
    set (x := concat (map snd u1)) in *. set (y := concat (map snd u2)) in *. set (z := concat (map snd u3)) in *.
    assert (Vx : valid x) by exact (valid_of_units V1). assert (Vy : valid y) by exact (valid_of_units V2). assert (Vz : valid z) by exact (valid_of_units V3). clearbody x y z. subst s.
    rewrite slice_skipn. rewrite firstn_app, firstn_all, Nat.sub_diag, firstn_O, app_nil_r.
    assert (Hx : skipn (length x) (x ++ y ++ z) = y ++ z) by (rewrite skipn_app, skipn_all, Nat.sub_diag; reflexivity).
    rewrite Hx, firstn_app, firstn_all, Nat.sub_diag, firstn_O, app_nil_r. split; [assumption|]. split; [assumption|].
    rewrite Nat.add_comm, <- skipn_skipn, Hx, skipn_app, skipn_all, Nat.sub_diag. assumption.
  Qed.

  Lemma skip_len_bounds : forall b s, is_alnum_b b = true -> 0 < skip_len (b :: s) <= length (b :: s).
  Proof.
    intros b s Hb. unfold skip_len. set (l := b :: s) in *.
    assert (Ha : 0 < length (take_while is_alnum_b l) <= length l). { split; [|apply tw_length]. unfold l. cbn. rewrite Hb. cbn. lia. }
    set (dg := take_while is_digit_b l). destruct (skipn (length dg) l) as [|dot t] eqn:Es; [exact Ha|].
    destruct ((0 <? length dg) && Byte.eqb dot x2e && (0 <? length (take_while is_digit_b t))) eqn:Ec; [|exact Ha].
    split; [lia|]. pose proof (tw_length is_digit_b t). apply (f_equal (@length _)) in Es. rewrite skipn_length in Es. cbn [length] in Es. lia.
  Qed.

  Lemma alnum_ascii : forall b, is_alnum_b b = true -> (bz b < 128)%Z.
  Proof. intros b H. unfold is_alnum_b, ascii_alnum, ascii_upper, ascii_lower, ascii_digit, in_range in H. lia. Qed.
  Lemma digit_ascii : forall b, is_digit_b b = true -> (bz b < 128)%Z.
  Proof. intros b H. unfold is_digit_b, ascii_digit, in_range in H. lia. Qed.

  Lemma tw_firstn : forall A (p : A -> bool) l, firstn (length (take_while p l)) l = take_while p l.
  Proof.
    intros. destruct (tw_split p l) as (r & H & _). set (t := take_while p l) in *. clearbody t. subst l. rewrite firstn_app, firstn_all, Nat.sub_diag, firstn_O. apply app_nil_r.
  Qed.

  Lemma tw_ascii : forall (p : byte -> bool) l, (forall b, p b = true -> (bz b < 128)%Z) -> Forall (fun b => (bz b < 128)%Z) (take_while p l).
  Proof. intros p l H. destruct (tw_split p l) as (r & _ & Hf & _). eapply Forall_impl; [|exact Hf]. exact H. Qed.

  Lemma skip_len_ascii : forall s, Forall (fun b => (bz b < 128)%Z) (firstn (skip_len s) s).
  Proof.
    intro s. unfold skip_len. set (dg := take_while is_digit_b s).
    assert (Ha : Forall (fun b => (bz b < 128)%Z) (firstn (length (take_while is_alnum_b s)) s)) by (rewrite tw_firstn; apply tw_ascii, alnum_ascii).
    destruct (skipn (length dg) s) as [|dot t] eqn:Es; [exact Ha|].
    destruct ((0 <? length dg) && Byte.eqb dot x2e && (0 <? length (take_while is_digit_b t))) eqn:Ec; [|exact Ha].
    apply andb_true_iff in Ec as [Ec _]. apply andb_true_iff in Ec as [_ Ec]. apply Byte.byte_dec_bl in Ec. subst dot.
    rewrite <- (firstn_skipn (length dg) s), Es. unfold dg. rewrite tw_firstn. fold dg.
    rewrite <- Nat.add_assoc, firstn_app_2. cbn [plus firstn]. rewrite tw_firstn. apply Forall_app. split; [apply tw_ascii, digit_ascii|].
    constructor; [reflexivity|]. apply tw_ascii, digit_ascii.
  Qed.

  Lemma skip_rune : rune_matcher reg_skip.
  Proof.
    intros s a b Hv H. unfold reg_skip in H. set (p := fun b => negb (is_alnum_b b)) in *. destruct (Nat.ltb_spec (length (take_while p s)) (length s)) as [Hl|]; [|discriminate].
    injection H as <- <-. pose proof (tw_skip p s) as Hs. set (n := length (take_while p s)) in *.
    rewrite slice_skipn. rewrite Nat.add_comm, <- skipn_skipn.
    assert (Hsy : sync (skipn n s)).
    { destruct (skipn n s) as [|x t]; [exact I|]. apply ascii_sync. apply alnum_ascii. unfold p in Hs. apply negb_false_iff in Hs. exact Hs. }
    rewrite <- (firstn_skipn n s) in Hv. apply (valid_split Hsy) in Hv as [V1 V2]. split; [exact V1|].
    rewrite <- (firstn_skipn (skip_len (skipn n s)) (skipn n s)) in V2. apply (valid_strip (skip_len_ascii _)) in V2. exact V2.
  Qed.

  Lemma skip_wf : wf_matcher reg_skip /\ nonempty_matcher reg_skip.
  Proof.
    assert (H : forall s a b, reg_skip s = Some (a, b) -> a < b <= length s).
    { intros s a b H. unfold reg_skip in H. set (p := fun b => negb (is_alnum_b b)) in *. destruct (Nat.ltb_spec (length (take_while p s)) (length s)) as [Hl|]; [|discriminate].
      injection H as <- <-. pose proof (tw_skip p s) as Hs. destruct (skipn (length (take_while p s)) s) as [|x t] eqn:Es.
      - apply (f_equal (@length _)) in Es. rewrite skipn_length in Es. cbn in Es. lia.
      - unfold p in Hs. apply negb_false_iff in Hs. pose proof (skip_len_bounds t Hs) as Hb. apply (f_equal (@length _)) in Es. rewrite skipn_length in Es. lia. }
    split; intros s a b Hs; specialize (H s a b Hs); lia.
  Qed.
End Builtin.

Definition pick_wf (E : env) (reg : list matcher) : Prop := Forall (fun f => wf_matcher f /\ nonempty_matcher f) reg.

Lemma picks_wf : forall E reg, pick_wf E reg -> (wf_matcher (pick_han E reg) /\ nonempty_matcher (pick_han E reg)) /\ (wf_matcher (pick_skip reg) /\ nonempty_matcher (pick_skip reg)).
Proof.
  intros E reg H. split.
  - destruct reg as [|a [|b reg]]; try apply han_wf. inversion_clear H. inversion_clear H1. exact H.
  - destruct reg as [|a reg]; [apply skip_wf|]. inversion_clear H. exact H0.
Qed.

Lemma picks_rune : forall E reg, Forall rune_matcher reg -> rune_matcher (pick_han E reg) /\ rune_matcher (pick_skip reg).
Proof.
  intros E reg H. split.
  - destruct reg as [|a [|b reg]]; try apply han_rune. inversion_clear H. inversion_clear H1. exact H.
  - destruct reg as [|a reg]; [apply skip_rune|]. inversion_clear H. exact H0.
Qed.

Lemma c33 : forall E (em : emits E) s reg, Forall (fun f => wf_matcher f /\ nonempty_matcher f) reg ->
  exists out, hmm_cut em s reg = Ok out /\ Forall (fun w => w <> []) out /\ preserved s out /\
    (length reg <= 1 -> concat out = s) /\
    (valid s -> Forall rune_matcher reg -> concat out = s).
Proof.
  intros E em s reg H. destruct (@picks_wf E reg H) as ((H1 & H2) & (H3 & H4)). unfold hmm_cut.
  destruct (hcut_ok em H1 H2 H3 H4 (fun _ => True) (fuel := length s + 2) (text := s) [] ltac:(lia)) as (out & K1 & K2 & K3 & K4).
  exists out. split; [exact K1|]. split; [exact K2|]. split; [exact K3|]. split.
  - intro Hl. apply K4; auto. intros t b _ Ht. apply roundtrip_iff. destruct reg as [|x [|y reg]]; [| |cbn in Hl; lia]; apply (han_valid Ht).
  - intros Hv Hr. destruct (hcut_ok em H1 H2 H3 H4 valid (fuel := length s + 2) (text := s) [] ltac:(lia)) as (out' & L1 & L2 & L3 & L4).
    assert (out' = out) by (rewrite K1 in L1; injection L1; auto). subst out'. destruct (@picks_rune E reg Hr) as [R1 R2].
    assert (Hvs : forall f, rune_matcher f -> wf_matcher f -> forall t a b, valid t -> f t = Some (a, b) -> valid (skipn a t) /\ valid (skipn b t)).
    { intros f Hf Hw t a b Ht He. destruct (Hf t a b Ht He) as (V1 & V2 & V3). split; [|exact V3].
      pose proof (Hw t a b He). replace (skipn a t) with (slice t a b ++ skipn b t); [apply valid_app; auto|].
      unfold slice. rewrite <- (firstn_skipn (b - a) (skipn a t)) at 2. f_equal. rewrite skipn_skipn. f_equal. lia. }
    apply L4; auto.
    + intros t b Ht He. apply roundtrip_iff. destruct (R1 t 0 b Ht He) as (_ & V & _). rewrite slice0 in V. exact V.
    + intros t a b Ht [He|He]; [apply (Hvs _ R1 H1 t a b)|apply (Hvs _ R2 H3 t a b)]; auto.
Qed.

(** Text consisting of Han runes only. *)
Lemma c33_han : forall E (em : emits E) s, s <> [] -> Forall (fun r => is_han E r = true) (runes_of s) ->
  exists p path, viterbi em (runes_of s) all_states = Ok (p, path) /\
    hmm_cut em s [] = Ok (map string_of_runes (cut_after path (runes_of s) [])).
Proof.
  intros E em s Hs H. destruct (internal_ok em Hs) as (p & path & V1 & V2 & V3). exists p, path. split; [exact V1|].
  assert (Hm : reg_han E s = Some (0, length s)).
  { unfold reg_han, runes_of in *. rewrite Forall_map in H.
    assert (H1 : take_while (fun u : rune * bytes => negb (is_han E (fst u))) (units s) = []).
    { destruct (units s); [reflexivity|]. inversion_clear H. cbn. rewrite H0. reflexivity. }
    rewrite H1. cbn [length skipn map concat].
    assert (H2 : take_while (fun u : rune * bytes => is_han E (fst u)) (units s) = units s).
    { clear -H. induction H as [|u us Hu H IH]; [reflexivity|]. cbn. rewrite Hu, IH. reflexivity. }
    rewrite H2, units_concat. rewrite (units_cons Hs). reflexivity. }
  unfold hmm_cut. cbn [pick_han pick_skip]. rewrite Nat.add_comm. cbn [plus hcut_loop]. rewrite Hm, slice0, firstn_all, V3. cbn [bind].
  rewrite skipn_all. reflexivity.
Qed.

Lemma c34_hang : forall E (em : emits E) s reg skip, pick_skip reg = skip -> skip s = Some (0, 0) -> s <> [] ->
  (pick_han E reg s = None \/ exists a b, pick_han E reg s = Some (S a, b)) ->
  forall fuel result, hcut_loop fuel em (pick_han E reg) (pick_skip reg) s result = Hang.
Proof.
  intros E em s reg skip Hk He Hs Hh. induction fuel as [|fuel IH]; intro result; [reflexivity|]. cbn [hcut_loop]. rewrite Hk, He.
  destruct s as [|c s]; [congruence|]. rewrite slice_nil. cbn [skipn]. rewrite Hk in IH.
  destruct Hh as [Hh|(a & b & Hh)]; rewrite Hh; cbn [loc_judge fst Nat.ltb Nat.leb]; cbn [skipn]; apply IH.
Qed.

Lemma c34_panic : forall E (em : emits E) s reg, pick_han E reg s = Some (0, 0) -> hmm_cut em s reg = Panic.
Proof.
  intros E em s reg H. unfold hmm_cut. rewrite Nat.add_comm. cbn [plus hcut_loop]. rewrite H, slice_nil. reflexivity.
Qed.

(** *** C35 *)
Lemma sets_ok : forall E (def g : emits E) o, fst (run_hop def g o) = match sets_model def o with Some m => m | None => g end.
Proof. intros E def g [id prob|id []|id s reg|id s prob]; try reflexivity; destruct prob as [|b [|e [|m [|x prob]]]]; reflexivity. Qed.

Lemma hops_app : forall E (def : emits E) os1 os2 g,
  fst (run_hops def g (os1 ++ os2)) = fst (run_hops def (fst (run_hops def g os1)) os2) /\
  snd (run_hops def g (os1 ++ os2)) = snd (run_hops def g os1) ++ snd (run_hops def (fst (run_hops def g os1)) os2).
Proof.
  induction os1 as [|o os1 IH]; intros os2 g; [split; reflexivity|]. cbn [app run_hops]. cbv zeta. cbn [fst snd].
  destruct (IH os2 (fst (run_hop def g o))) as [-> ->]. split; [reflexivity|]. destruct (snd (run_hop def g o)); reflexivity.
Qed.

Lemma hops_keep : forall E (def : emits E) os g, Forall (fun o => sets_model def o = None) os -> fst (run_hops def g os) = g.
Proof.
  induction os as [|o os IH]; intros g H; [reflexivity|]. inversion_clear H. cbn [run_hops]. cbv zeta. cbn [fst]. rewrite (IH _ H1), sets_ok, H0. reflexivity.
Qed.

Lemma c35 : forall E (def : emits E) before o after m id s reg, sets_model def o = Some m -> Forall (fun o => sets_model def o = None) after ->
  forall g, snd (run_hops def g (before ++ o :: after ++ [HCut id s reg])) = snd (run_hops def g (before ++ o :: after)) ++ [hmm_cut m s reg].
Proof.
  intros E def before o after m id s reg Hm Ha g.
  change (o :: after ++ [HCut id s reg]) with ((o :: after) ++ [HCut id s reg]). rewrite app_assoc.
  destruct (hops_app def (before ++ o :: after) [HCut id s reg] g) as [_ ->]. f_equal.
  cbn [run_hops]. cbv zeta. cbn [run_hop fst snd]. f_equal. f_equal.
  destruct (hops_app def before (o :: after) g) as [-> _]. cbn [run_hops]. cbv zeta. cbn [fst]. rewrite (hops_keep _ Ha), sets_ok, Hm. reflexivity.
Qed.

Lemma c35_mod : forall E (def : emits E) before id s prob g, exists m, sets_model def (HCutMod id s prob) = Some m /\
  snd (run_hops def g (before ++ [HCutMod id s prob])) = snd (run_hops def g before) ++ [hmm_cut m s []].
Proof.
  intros E def before id s prob g. pose proof (sets_ok def (fst (run_hops def g before)) (HCutMod id s prob)) as Hs.
  assert (exists m, sets_model def (HCutMod id s prob) = Some m) as (m & Hm) by (destruct prob as [|b [|e [|x [|y prob]]]]; eexists; reflexivity).
  exists m. split; [exact Hm|]. destruct (hops_app def before [HCutMod id s prob] g) as [_ ->]. f_equal.
  rewrite Hm in Hs. cbn [run_hop fst] in Hs. cbn [run_hops]. cbv zeta. cbn [run_hop fst snd]. rewrite Hs. reflexivity.
Qed.

Lemma c35_none : forall E (def : emits E) os id s reg, Forall (fun o => sets_model def o = None) os ->
  snd (run_hops def (@no_model E) (os ++ [HCut id s reg])) = snd (run_hops def (@no_model E) os) ++ [hmm_cut (E := E) (fun _ _ => None) s reg].
Proof.
  intros E def os id s reg H. destruct (hops_app def os [HCut id s reg] (@no_model E)) as [_ ->]. f_equal.
  cbn [run_hops]. cbv zeta. cbn [run_hop fst snd]. rewrite (hops_keep _ H). reflexivity.
Qed.
