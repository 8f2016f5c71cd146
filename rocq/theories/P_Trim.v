(** Proofs about stop words and filters. *)
From Verif Require Import S_Trim P_Utf8 P_Utf8b P_Str P_Hmm.
Set Implicit Arguments. Unset Strict Implicit.

Lemma in_list_iff : forall w l, in_list w l = true <-> In w l.
Proof.
  intros w l. unfold in_list. rewrite existsb_exists. split.
  - intros (x & H1 & H2). apply beqb_eq in H2. subst. exact H1.
  - intro H. exists w. split; [exact H|apply beqb_eq; reflexivity].
Qed.
Lemma set_put_in : forall l v w, In w (set_put l v) <-> In w l \/ v = w.
Proof.
  intros l v w. unfold set_put. destruct (in_list v l) eqn:E; [|cbn; tauto]. apply in_list_iff in E. split; [tauto|]. intros [H| <-]; assumption.
Qed.
Lemma put_all_in : forall ws l w, In w (put_all l ws) <-> In w l \/ In w ws.
Proof.
  induction ws as [|v ws IH]; intros l w; [cbn; tauto|]. unfold put_all in *. cbn [fold_left]. rewrite IH, set_put_in. cbn. tauto.
Qed.
Lemma set_del_in : forall l v w, In w (set_del l v) <-> In w l /\ v <> w.
Proof.
  intros l v w. unfold set_del. rewrite filter_In. rewrite negb_true_iff. split; intros [H1 H2]; (split; [exact H1|]).
  - intros ->. assert (beqb w w = true) by (apply beqb_eq; reflexivity). congruence.
  - destruct (beqb w v) eqn:E; [apply beqb_eq in E; congruence|reflexivity].
Qed.
Lemma is_stop_made : forall m w, is_stop m w = true <-> In w (made m).
Proof. intros [l|] w; cbn; [apply in_list_iff|]. split; [discriminate|tauto]. Qed.
Lemma nonempty_b : forall k, negb (beqb k []) = true <-> k <> [].
Proof. intros [|a k]; cbn; split; congruence. Qed.

Section Stop.
  Variable E : env.

  Lemma stop_str_in : forall m dict w, is_stop (load_stop_str E m dict) w = true <-> is_stop m w = true \/ stop_line E dict w.
  Proof.
    intros m dict w. rewrite !is_stop_made. unfold load_stop_str. cbn [made]. rewrite put_all_in, filter_In, nonempty_b, in_map_iff. apply or_iff_compat_l. unfold stop_line. split.
    - intros ((l & H1 & H2) & H3). split; [exact H3|]. exists (split_str dict [x0a]), l. split; [apply split_fields; discriminate|]. split; [exact H2|]. apply trimmed_iff. auto.
    - intros (H & lines & l & H1 & H2 & H3). apply fields_iff in H1; [|discriminate]. apply trimmed_iff in H3. subst. split; [|exact H]. exists l. auto.
  Qed.

  Lemma sop_in : forall m o m' w, run_sop E m o = Ok m' -> (is_stop m' w = true <-> adds E o w \/ is_stop m w = true /\ ~ removes o w).
  Proof.
    intros m o m' w H. destruct o; cbn [run_sop adds removes] in *.
    - injection H as <-. rewrite !is_stop_made. unfold load_stop_arr. cbn [made]. rewrite put_all_in. tauto.
    - injection H as <-. rewrite stop_str_in. tauto.
    - unfold add_stop in H. destruct m as [l|]; [|discriminate]. injection H as <-. rewrite !is_stop_made. cbn [made]. rewrite set_put_in. tauto.
    - injection H as <-. rewrite !is_stop_made. destruct m as [l|]; cbn [remove_stop option_map made]; [rewrite set_del_in; tauto|cbn; tauto].
    - injection H as <-. cbn. split; [discriminate|]. intros [[]|[_ H]]. tauto.
  Qed.

  Lemma sops_in : forall os m m' w, run_sops E m os = Ok m' ->
    (is_stop m' w = true <-> (exists os1 o os2, os = os1 ++ o :: os2 /\ adds E o w /\ Forall (fun x => ~ removes x w) os2) \/
                             (is_stop m w = true /\ Forall (fun x => ~ removes x w) os)).
  Proof.
    induction os as [|o os IH]; intros m m' w H; cbn [run_sops] in H.
    - injection H as <-. split; [intro H; right; split; [exact H|constructor]|]. intros [(os1 & x & os2 & H & _)|[H _]]; [destruct os1; discriminate|exact H].
    - destruct (run_sop E m o) as [m1| |] eqn:E1; cbn [bind] in H; try discriminate. rewrite (IH _ _ w H), (sop_in w E1). split.
      + intros [(os1 & x & os2 & -> & H1 & H2)|[[H1|[H1 H2]] H3]].
        * left. exists (o :: os1), x, os2. auto.
        * left. exists [], o, os. auto.
        * right. auto.
      + intros [(os1 & x & os2 & H0 & H1 & H2)|[H1 H2]].
        * destruct os1 as [|y os1]; injection H0 as -> ->; [right; auto|]. left. exists os1, x, os2. auto.
        * inversion_clear H2. right. auto.
  Qed.

  Lemma sop_map : forall m o m', run_sop E m o = Ok m' ->
    (m' <> None <-> (match o with SArr _ | SStr _ => True | _ => False end) \/ (m <> None /\ o <> SEmpty)).
  Proof.
    intros m o m' H. destruct o; cbn [run_sop] in H.
    - injection H as <-. split; [auto|discriminate].
    - injection H as <-. split; [auto|discriminate].
    - unfold add_stop in H. destruct m; [|discriminate]. injection H as <-. split; [right; split; discriminate|discriminate].
    - injection H as <-. destruct m; cbn; (split; [|try discriminate]); [right; split; discriminate|congruence|intros [[]|[K _]]; congruence].
    - injection H as <-. split; [intro K; exfalso; apply K; reflexivity|]. intros [[]|[_ K]]. exfalso; apply K; reflexivity.
  Qed.

  Lemma sops_map : forall os m m', run_sops E m os = Ok m' -> (m' <> None <-> has_map os \/ (m <> None /\ ~ In SEmpty os)).
  Proof.
    induction os as [|o os IH]; intros m m' H; cbn [run_sops] in H.
    - injection H as <-. split; [cbn; tauto|]. intros [(os1 & x & os2 & H & _)|[H _]]; [destruct os1; discriminate|exact H].
    - destruct (run_sop E m o) as [m1| |] eqn:E1; cbn [bind] in H; try discriminate. rewrite (IH _ _ H), (sop_map E1). split.
      + intros [(os1 & x & os2 & -> & H1 & H2)|[[H1|[H1 H2]] H3]].
        * left. exists (o :: os1), x, os2. auto.
        * left. exists [], o, os. auto.
        * right. split; [exact H1|]. intros [H4|H4]; auto.
      + intros [(os1 & x & os2 & H0 & H1 & H2)|[H1 H2]].
        * destruct os1 as [|y os1]; injection H0 as -> ->; [right; auto|]. left. exists os1, x, os2. auto.
        * right. split; [right; split; [exact H1|]|]; intro; apply H2; cbn; auto.
  Qed.

  Lemma sops_app : forall a b m, run_sops E m (a ++ b) = bind (run_sops E m a) (fun m' => run_sops E m' b).
  Proof. induction a as [|o a IH]; intros b m; [reflexivity|]. cbn [app run_sops]. destruct (run_sop E m o); cbn [bind]; auto. Qed.

  (** Exactly the histories in which every AddStop finds a map do not panic. *)
  Lemma sops_ok : forall os, (forall os1 w os2, os = os1 ++ SAdd w :: os2 -> has_map os1) -> exists m, run_sops E None os = Ok m.
  Proof.
    intro os. induction os as [|o os IH] using rev_ind; intro H; [eexists; reflexivity|]. destruct IH as [m IH].
    { intros os1 w os2 ->. apply (H os1 w (os2 ++ [o])). rewrite <- app_assoc. reflexivity. }
    rewrite sops_app, IH. cbn [bind run_sops]. destruct o; cbn [run_sop bind]; eauto. unfold add_stop. destruct m as [l|]; cbn [bind]; [eauto|].
    assert (K : (None : stops) <> None) by (apply (sops_map IH); left; apply (H os w []); reflexivity). congruence.
  Qed.
  Lemma sops_panic : forall os1 w os2, ~ has_map os1 -> (exists m, run_sops E None os1 = Ok m) -> run_sops E None (os1 ++ SAdd w :: os2) = Panic.
  Proof.
    intros os1 w os2 H [m Hm]. rewrite sops_app, Hm. cbn [bind run_sops run_sop]. destruct m as [l|]; [|reflexivity].
    exfalso. apply H. assert (K : Some l <> None) by discriminate. apply (sops_map Hm) in K as [K|[K _]]; [exact K|congruence].
  Qed.
End Stop.

(** ** Filters *)
Lemma selects_filter : forall A (P : A -> Prop) (p : A -> bool), (forall a, p a = true <-> P a) -> forall l, selects P l (filter p l).
Proof.
  intros A P p H. induction l as [|a l IH]; [constructor|]. cbn [filter]. destruct (p a) eqn:E; constructor; auto; [apply H; exact E|].
  intro K. apply H in K. congruence.
Qed.
Lemma selects_unique : forall A (P : A -> Prop) l o o', selects P l o -> selects P l o' -> o = o'.
Proof.
  intros A P l o o' H. revert o'. induction H as [|a l o Ha H IH|a l o Ha H IH]; intros o' H'; inversion H'; subst; try contradiction; [reflexivity| |]; [f_equal|]; auto.
Qed.
Lemma selects_all : forall A (P : A -> Prop) l, Forall P l -> selects P l l.
Proof. intros A P l H. induction H; constructor; auto. Qed.
Lemma selects_Forall : forall A (P : A -> Prop) l o, selects P l o -> Forall P o.
Proof. intros A P l o H. induction H; auto. Qed.
Lemma selects_idem : forall A (P : A -> Prop) l o, selects P l o -> selects P o o.
Proof. intros A P l o H. apply selects_all, (selects_Forall H). Qed.

(** The accumulator loops of trim.go. *)
Lemma acc_filter : forall A (f : list A -> list A -> list A) (p : A -> bool), (forall r, f [] r = r) -> (forall a l r, f (a :: l) r = f l (if p a then r ++ [a] else r)) ->
  forall l r, f l r = r ++ filter p l.
Proof.
  intros A f p H1 H2. induction l as [|a l IH]; intro r; [rewrite H1, app_nil_r; reflexivity|]. rewrite H2, IH. cbn [filter]. destruct (p a); [rewrite <- app_assoc|]; reflexivity.
Qed.
Lemma acc_runes : forall (f : list rune -> bytes -> bytes) (p : rune -> bool), (forall acc, f [] acc = acc) ->
  (forall r l acc, f (r :: l) acc = f l (if p r then acc ++ string_of_rune r else acc)) -> forall l acc, f l acc = acc ++ string_of_runes (filter p l).
Proof.
  intros f p H1 H2. induction l as [|a l IH]; intro r; [rewrite H1; cbn; rewrite app_nil_r; reflexivity|]. rewrite H2, IH. cbn [filter]. destruct (p a); [|reflexivity].
  unfold string_of_runes. cbn [map concat]. rewrite <- app_assoc. reflexivity.
Qed.
Lemma filter_scalar : forall p s, Forall (fun r => scalar r = true) (filter p (runes_of s)).
Proof. intros p s. apply Forall_forall. intros r H. apply filter_In in H as [H _]. pose proof (runes_scalar s) as F. rewrite Forall_forall in F. auto. Qed.
Lemma filter_runes : forall p s, string_of_runes (filter p (runes_of s)) = concat (map enc (filter p (runes_of s))).
Proof. intros p s. apply string_of_scalars, filter_scalar. Qed.
Lemma filter_idem : forall A (p : A -> bool) l, filter p (filter p l) = filter p l.
Proof. intros A p. induction l as [|a l IH]; [reflexivity|]. cbn [filter]. destruct (p a) eqn:E; [cbn [filter]; rewrite E, IH|]; auto. Qed.
(** A rune filter is idempotent. *)
Lemma rune_filter_idem : forall p s, filter p (runes_of (concat (map enc (filter p (runes_of s))))) = filter p (runes_of s).
Proof. intros p s. rewrite runes_encs; [apply filter_idem|apply filter_scalar]. Qed.

Section Filters.
  Variable E : env.

  Lemma symbol_eq : forall s, filter_symbol E s = symbol_free E s.
  Proof.
    intro s. unfold filter_symbol, symbol_free. rewrite <- filter_runes.
    rewrite (@acc_runes (symbol_loop E) (fun r => negb (is_symbol E r) && negb (is_space E r) && negb (is_punct E r))); [|reflexivity|reflexivity].
    cbn [app]. f_equal. apply filter_ext. intro r. unfold wordy. rewrite !negb_orb. reflexivity.
  Qed.
  Lemma symbol_free_idem : forall s, symbol_free E (symbol_free E s) = symbol_free E s.
  Proof. intro s. unfold symbol_free at 1. unfold symbol_free at 1. rewrite rune_filter_idem. reflexivity. Qed.

  Lemma emoji_eq : forall s, filter_emoji s = concat (map enc (filter (fun r => r <? 65536)%Z (runes_of s))).
  Proof.
    intro s. unfold filter_emoji. rewrite <- filter_runes. rewrite (@acc_runes emoji_loop (fun r => snd (decode_rune (string_of_rune r)) <=? 3)); [|reflexivity|reflexivity].
    cbn [app]. f_equal. apply filter_ext_in. intros r H. pose proof (runes_scalar s) as F. rewrite Forall_forall in F. specialize (F r H).
    unfold string_of_rune. rewrite F. pose proof (decode_enc [] F) as D. rewrite app_nil_r in D. rewrite D. cbn [snd]. unfold enc.
    destruct (r <? 128)%Z eqn:E1; [cbn [length]; lia|]. destruct (r <? 2048)%Z eqn:E2; [cbn [length]; lia|]. destruct (r <? 65536)%Z eqn:E3; cbn [length]; reflexivity.
  Qed.

  Lemma lang_eq : forall f s lang, u_script E lang = Some f -> filter_lang E s lang = Ok (concat (map enc (filter (fun r => is_letter E r || f r) (runes_of s)))).
  Proof.
    intros f s lang H. unfold filter_lang. rewrite H. rewrite <- filter_runes.
    enough (K : forall rs acc, lang_loop E (Some f) rs acc = Ok (acc ++ string_of_runes (filter (fun r => is_letter E r || f r) rs))) by exact (K _ []).
    induction rs as [|r rs IH]; intro acc; [cbn; rewrite app_nil_r; reflexivity|]. cbn [lang_loop filter]. destruct (is_letter E r); cbn [bind orb].
    - rewrite IH. unfold string_of_runes. cbn [map concat]. rewrite <- app_assoc. reflexivity.
    - rewrite IH. destruct (f r); [|reflexivity]. unfold string_of_runes. cbn [map concat]. rewrite <- app_assoc. reflexivity.
  Qed.
  Lemma lang_nil : forall s lang, u_script E lang = None ->
    (Forall (fun r => is_letter E r = true) (runes_of s) -> filter_lang E s lang = Ok (concat (map enc (runes_of s)))) /\
    (Exists (fun r => is_letter E r = false) (runes_of s) -> filter_lang E s lang = Panic).
  Proof.
    intros s lang H. unfold filter_lang. rewrite H. split; intro K.
    - rewrite <- (string_of_scalars (runes_scalar s)). enough (G : forall rs acc, Forall (fun r => is_letter E r = true) rs -> lang_loop E None rs acc = Ok (acc ++ string_of_runes rs)) by exact (G _ [] K).
      clear. induction rs as [|r rs IH]; intros acc F; [cbn; rewrite app_nil_r; reflexivity|]. inversion_clear F. cbn [lang_loop]. rewrite H. cbn [bind]. rewrite IH by assumption.
      unfold string_of_runes. cbn [map concat]. rewrite <- app_assoc. reflexivity.
    - enough (G : forall acc, lang_loop E None (runes_of s) acc = Panic) by apply G. revert K. generalize (runes_of s). clear. intros rs K.
      induction K as [r rs Hr|r rs K IH]; intro acc; cbn [lang_loop]; [rewrite Hr; reflexivity|]. destruct (is_letter E r); [apply IH|reflexivity].
  Qed.

  Lemma range_eq : forall s, range_str s = map enc (runes_of s) /\ range_text s = concat (map (fun r => enc r ++ [x20]) (runes_of s)).
  Proof.
    intro s. assert (K : forall rs acc, Forall (fun r => scalar r = true) rs -> map string_of_rune rs = map enc rs /\
      fold_left (fun acc r => acc ++ string_of_rune r ++ [x20]) rs acc = acc ++ concat (map (fun r => enc r ++ [x20]) rs)).
    { clear. induction rs as [|r rs IH]; intros acc F; [cbn; rewrite app_nil_r; auto|]. inversion_clear F. cbn [map fold_left concat].
      assert (Hr : string_of_rune r = enc r) by (unfold string_of_rune; rewrite H; reflexivity). rewrite Hr.
      destruct (IH (acc ++ enc r ++ [x20]) H0) as [K1 K2]. split; [rewrite K1; reflexivity|]. rewrite K2. rewrite <- !app_assoc. reflexivity. }
    exact (K _ [] (runes_scalar s)).
  Qed.

  (** *** Lists of words *)
  Lemma stop_eq : forall m s, selects (fun v => v <> [] /\ is_stop m v = false) s (stop m s).
  Proof.
    intros m s. unfold stop. rewrite (@acc_filter _ (stop_loop m) (fun v => negb (is_stop m v) && negb (beqb v []))); [|reflexivity|reflexivity].
    cbn [app]. apply selects_filter. intro v. rewrite andb_true_iff, nonempty_b, negb_true_iff. tauto.
  Qed.

  Definition trim_test (notStop : bool) (m : stops) (si : bytes) : bool := negb (beqb (if negb notStop && is_stop m si then [] else si) []).
  Lemma trim_test_iff : forall ns m si, trim_test ns m si = true <-> si <> [] /\ (ns = false -> is_stop m si = false).
  Proof.
    intros ns m si. unfold trim_test. rewrite nonempty_b. destruct ns; cbn [negb andb]; [split; [intro; split; [auto|discriminate]|tauto]|].
    destruct (is_stop m si); split.
    - congruence.
    - intros [_ H]. discriminate H; reflexivity.
    - auto.
    - tauto.
  Qed.
  Lemma trim_eq : forall ns m s, selects (fun w => w <> [] /\ (ns = false -> is_stop m w = false)) (map (symbol_free E) s) (trim E ns m s).
  Proof.
    intros ns m s. unfold trim. enough (K : forall r, trim_loop E ns m s r = r ++ filter (trim_test ns m) (map (symbol_free E) s)).
    { rewrite K. cbn [app]. apply selects_filter. apply trim_test_iff. }
    induction s as [|w s IH]; intro r; [cbn; rewrite app_nil_r; reflexivity|]. cbn [trim_loop map filter]. rewrite symbol_eq. rewrite IH. unfold trim_test at 2.
    destruct (negb ns && is_stop m (symbol_free E w)); [reflexivity|]. destruct (negb (beqb (symbol_free E w) [])); [rewrite <- app_assoc|]; reflexivity.
  Qed.
  Lemma trim_symbol_eq : forall s, selects (fun w => w <> []) (map (symbol_free E) s) (trim_symbol E s).
  Proof.
    intro s. unfold trim_symbol. enough (K : forall r, trim_symbol_loop E s r = r ++ filter (fun w => negb (beqb w [])) (map (symbol_free E) s)).
    { rewrite K. cbn [app]. apply selects_filter. apply nonempty_b. }
    induction s as [|w s IH]; intro r; [cbn; rewrite app_nil_r; reflexivity|]. cbn [trim_symbol_loop map filter]. rewrite symbol_eq, IH.
    destruct (negb (beqb (symbol_free E w) [])); [rewrite <- app_assoc|]; reflexivity.
  Qed.
  Lemma trim_pos_eq : forall ns m s, selects (fun w => symbol_free E (fst w) <> [] /\ (ns = false -> is_stop m (symbol_free E (fst w)) = false)) s (trim_pos E ns m s).
  Proof.
    intros ns m s. unfold trim_pos. rewrite (@acc_filter _ (trim_pos_loop E ns m) (fun w => trim_test ns m (symbol_free E (fst w)))); [|reflexivity|].
    - cbn [app]. apply selects_filter. intro a. apply trim_test_iff.
    - intros a l r. cbn [trim_pos_loop]. rewrite symbol_eq. reflexivity.
  Qed.

  Lemma solid_b : forall r, negb (is_space E r) && negb (is_punct E r) = true <-> solid E r.
  Proof. intro r. rewrite andb_true_iff, !negb_true_iff. reflexivity. Qed.
  Lemma not_punct_iff : forall rs, not_punct E rs = true <-> Exists (solid E) rs.
  Proof.
    induction rs as [|r rs IH]; [split; [discriminate|intro H; inversion H]|]. cbn [not_punct]. destruct (negb (is_space E r) && negb (is_punct E r)) eqn:Es.
    - apply solid_b in Es. split; auto.
    - rewrite IH. split; [auto|]. intro H. inversion H; subst; auto. apply solid_b in H1. congruence.
  Qed.
  Lemma trim_punct_eq : forall s, selects (fun w => Exists (solid E) (runes_of w)) s (trim_punct E s).
  Proof.
    intro s. unfold trim_punct. rewrite (@acc_filter _ (trim_punct_loop E) (fun w => not_punct E (runes_of w))); [|reflexivity|].
    - cbn [app]. apply selects_filter. intro w. apply not_punct_iff.
    - intros a l r. cbn [trim_punct_loop]. f_equal. destruct (runes_of a) as [|r0 ru] eqn:Er; [reflexivity|]. cbn [not_punct].
      destruct (negb (is_space E r0) && negb (is_punct E r0)); [reflexivity|]. destruct ru; reflexivity.
  Qed.

  Definition blanked (ns : bool) (m : stops) (w : bytes * bytes) : bytes * bytes := if negb ns && is_stop m (fst w) then ([], snd w) else w.
  Lemma trim_pos_punct_eq : forall ns m s,
    selects (fun w => (exists r rs, runes_of (fst w) = r :: rs /\ solid E r) /\ (ns = false -> is_stop m (fst w) = false)) s (fst (trim_pos_punct E ns m s)) /\
    snd (trim_pos_punct E ns m s) = map (fun w => if negb ns && is_stop m (fst w) then ([], snd w) else w) s.
  Proof.
    intros ns m s. set (p := fun w : bytes * bytes => match runes_of (fst (blanked ns m w)) with [] => false | ru :: _ => negb (is_space E ru) && negb (is_punct E ru) end).
    assert (Hp : forall w, p w = true <-> (exists r rs, runes_of (fst w) = r :: rs /\ solid E r) /\ (ns = false -> is_stop m (fst w) = false)).
    { intro w. unfold p, blanked. destruct ns; cbn [negb andb].
      - destruct (runes_of (fst w)) as [|r rs]; [split; [discriminate|intros [(r & rs & H & _) _]; discriminate]|]. rewrite solid_b. split; [intro H; split; [exists r, rs; auto|discriminate]|].
        intros [(r' & rs' & H & H') _]. injection H as <- <-. exact H'.
      - destruct (is_stop m (fst w)); [split; [discriminate|intros [_ H]; discriminate H; reflexivity]|].
        destruct (runes_of (fst w)) as [|r rs]; [split; [discriminate|intros [(r & rs & H & _) _]; discriminate]|]. rewrite solid_b. split; [intro H; split; [exists r, rs; auto|auto]|].
        intros [(r' & rs' & H & H') _]. injection H as <- <-. exact H'. }
    assert (K : forall se' re, trim_pos_punct_loop E ns m s se' re = (re ++ filter p s, se' ++ map (blanked ns m) s)).
    { clear Hp. induction s as [|w s IH]; intros se' re; [cbn; rewrite !app_nil_r; reflexivity|]. cbn [trim_pos_punct_loop]. change (if negb ns && is_stop m (fst w) then ([], snd w) else w) with (blanked ns m w).
      rewrite IH. cbn [filter map]. rewrite <- !app_assoc. f_equal. unfold p at 2. destruct (runes_of (fst (blanked ns m w))) as [|ru rs] eqn:Er; [reflexivity|].
      destruct (negb (is_space E ru) && negb (is_punct E ru)); [|reflexivity]. rewrite <- app_assoc. cbn [app]. f_equal. f_equal. unfold blanked in *. destruct (negb ns && is_stop m (fst w)); [discriminate|reflexivity]. }
    unfold trim_pos_punct. rewrite K. cbn [fst snd app]. split; [|reflexivity]. apply selects_filter. exact Hp.
  Qed.
End Filters.

Lemma with_pos_loop : forall pos se re, trim_with_pos_loop false se re pos = filter (fun w => negb (in_list (snd w) pos)) re.
Proof.
  induction pos as [|p pos IH]; intros se re; cbn [trim_with_pos_loop].
  - symmetry. rewrite (filter_ext _ (fun _ => true)); [|reflexivity]. clear. induction re as [|a re IH]; [reflexivity|]. cbn. rewrite IH. reflexivity.
  - cbn [app]. rewrite IH. clear. induction re as [|a re IH]; [reflexivity|]. cbn [filter]. unfold in_list at 2. cbn [existsb]. fold (in_list (snd a) pos).
    destruct (beqb (snd a) p); cbn [negb orb filter]; [exact IH|]. rewrite IH. reflexivity.
Qed.
Lemma with_pos_eq : forall se p pos, selects (fun w => ~ In (snd w) (p :: pos)) se (trim_with_pos se (p :: pos)).
Proof.
  intros se p pos. unfold trim_with_pos. cbn [trim_with_pos_loop app]. rewrite with_pos_loop.
  assert (K : filter (fun w => negb (in_list (snd w) pos)) (filter (fun w => negb (beqb (snd w) p)) se) = filter (fun w : bytes * bytes => negb (in_list (snd w) (p :: pos))) se).
  { induction se as [|a se IH]; [reflexivity|]. cbn [filter]. unfold in_list at 2. cbn [existsb]. fold (in_list (snd a) pos).
    destruct (beqb (snd a) p); cbn [negb orb filter]; [exact IH|]. rewrite IH. reflexivity. }
  rewrite K. apply selects_filter. intro a. rewrite negb_true_iff, <- not_true_iff_false, in_list_iff. reflexivity.
Qed.
