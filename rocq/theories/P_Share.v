(** Several Segmenters. *)
From Verif Require Import S_Share P_Hist P_Load P_Load2 P_Load3 P_Out2 P_Seg2 P_Api.
Set Implicit Arguments. Unset Strict Implicit.

Section Share.
  Variable E : env.
  Implicit Types s : seg E.
  Implicit Types w : world E.

  (** ** One call *)
  Lemma inplace : forall s o s', seg_ok s -> run_aop s o = Ok s' -> allocs s o = false -> o <> AEmpty E ->
    s_cfg s' = s_cfg s /\ s_load s' = s_load s /\ s_lc s' = s_lc s /\ (s_dict s' = None <-> s_dict s = None).
  Proof.
    assert (Hod : forall s s' f, on_dict s f = Ok s' -> s_cfg s' = s_cfg s /\ s_load s' = s_load s /\ s_lc s' = s_lc s /\ (s_dict s' = None <-> s_dict s = None)).
    { intros s s' f H. unfold on_dict in H. destruct (s_dict s) as [d|]; [|discriminate]. apply bind_Ok in H as (d' & _ & H). injection H as <-. cbn. repeat split; discriminate. }
    intros s o s' Hs H Ha He. destruct o as [o|e arg|t|t f p| |]; cbn [run_aop allocs] in *; try exact (Hod _ _ _ H); [| |congruence].
    - destruct o as [txt|ms|t f p|t f p|data|fs arg]; cbn [run_lop] in H.
      + destruct (s_dict s) as [d|] eqn:Ed; [|discriminate]. destruct (load_str_ops txt Hs) as (es & d' & _ & _ & K). rewrite K in H. injection H as <-. cbn. unfold start_lc. rewrite Ed. repeat split; discriminate.
      + destruct (s_dict s) as [d|] eqn:Ed; [|discriminate]. destruct (load_map_ops ms Hs) as (es & d' & _ & _ & K). rewrite K in H. injection H as <-. cbn. unfold start_lc. rewrite Ed. repeat split; discriminate.
      + destruct (s_dict s) as [d|]; [|discriminate]. apply bind_Ok in H as (d' & _ & H). injection H as <-. cbn. repeat split; discriminate.
      + destruct (s_dict s) as [d|]; [|discriminate]. apply bind_Ok in H as (d' & _ & H). injection H as <-. cbn. repeat split; discriminate.
      + apply bind_Ok in H as (od & H1 & H). injection H as <-. cbn. split; [reflexivity|]. split; [reflexivity|]. split; [reflexivity|]. destruct (s_dict s) as [d|].
        * apply reader_grows in H1 as (os & d' & _ & -> & _). split; discriminate.
        * apply reader_nil in H1. tauto.
      + apply negb_false_iff in Ha. assert (Hr : run_lop s (LDict fs arg) = Ok s') by exact H. apply bind_Ok in H as ([s1 e] & H1 & H). injection H as <-. cbn [fst] in *.
        pose proof (load_dict_defaults H1) as Hl. rewrite Ha in Hl. destruct (run_lop_grows Hs Hr (fun _ => Ha)) as (K1 & K2 & K3). split; [exact K2|]. split; [exact K3|]. split; [exact Hl|].
        destruct K1 as [[K1 K1']|(os & d' & _ & _ & K1)]; [tauto|]. rewrite K1. split; [discriminate|]. intro Hn. exfalso.
        assert (Hn' : forall ps (s1 : seg E) r1, s_dict s1 = None -> read_files s1 fs ps = Ok r1 -> s_dict (fst r1) = None).
        { clear. induction ps as [|p ps IH]; intros s1 r1 H0 H; cbn [read_files] in H; [inversion H; subst; auto|].
          apply bind_Ok in H as (r2 & H1 & H2). unfold read_file in H1. destruct (fs p) as [[data fin]|].
          - apply bind_Ok in H1 as (od & H1 & H3). inversion H3; subst r2. cbn [fst snd] in H2. rewrite H0 in H1. apply reader_nil in H1. subst od. apply IH in H2; [|reflexivity]. exact H2.
          - inversion H1; subst r2. cbn [snd] in H2. inversion H2; subst. auto. }
        unfold load_dict in H1. rewrite Ha in H1. apply bind_Ok in H1 as (r & R1 & R2). pose proof (Hn' _ _ _ Hn R1) as R3. destruct (snd r).
        * injection R2 as ->. cbn [fst] in R3. congruence.
        * rewrite R3 in R2. discriminate.
    - destruct (s_dict s) as [d|] eqn:Ed; [|discriminate]. destruct (load_embed_strs e s arg) as (xs & Hx & He'). rewrite He' in H. destruct (load_strs_state xs Hs) as (s1 & S1 & S2 & S3 & S4). assert (s1 = s') as -> by congruence.
      destruct xs; [congruence|]. destruct S4 as ((d' & D1 & _) & _ & D3). rewrite D1, Ed in *. repeat split; auto; try discriminate. apply D3. discriminate.
  Qed.
  Lemma alloc_some : forall s o s', seg_ok s -> run_aop s o = Ok s' -> allocs s o = true ->
    s_dict s' <> None /\ s_load s' = match o with ALoad (LDict _ _) => true | _ => s_load s end.
  Proof.
    intros s o s' Hs H Ha. destruct o as [o|e arg|t|t f p| |]; cbn [run_aop allocs] in *; try discriminate.
    - destruct o as [txt|ms|t f p|t f p|data|fs arg]; cbn [run_lop] in H; try discriminate.
      + destruct (load_str_ops txt Hs) as (es & d' & _ & _ & K). rewrite K in H. injection H as <-. split; [discriminate|reflexivity].
      + destruct (load_map_ops ms Hs) as (es & d' & _ & _ & K). rewrite K in H. injection H as <-. split; [discriminate|reflexivity].
      + apply negb_true_iff in Ha. apply bind_Ok in H as ([s1 e] & H1 & H). injection H as <-. cbn [fst]. destruct (load_dict_state Ha H1) as (_ & K1 & d & K2 & _). rewrite K2. split; [discriminate|exact K1].
    - destruct (load_embed_strs e s arg) as (xs & Hx & He'). rewrite He' in H. destruct (load_strs_state xs Hs) as (s1 & S1 & S2 & S3 & S4). assert (s1 = s') as -> by congruence.
      destruct xs; [congruence|]. destruct S4 as ((d' & D1 & _) & _ & D3). rewrite D1. split; [discriminate|exact S3].
  Qed.
  Lemma aempty_dec : forall o : aop E, {o = AEmpty E} + {o <> AEmpty E}.
  Proof. intros []; try (right; discriminate). left. reflexivity. Qed.
  Lemma step_says : forall c s m o s', P_Api.good c s -> says m s -> run_aop s o = Ok s' -> says (next m o) s' /\ allocs s o = match o with
    | ALoad (LDict _ _) => negb (snd m) | ALoad (LStr _) | ALoad (LMap _) | AEmbed _ _ _ => negb (fst m) | _ => false end.
  Proof.
    intros c s m o s' G [S1 S2] H. assert (Hb : match s_dict s with None => true | Some _ => false end = negb (fst m)).
    { destruct (s_dict s) as [d|]; destruct (fst m); try reflexivity; exfalso; [assert (false = true) by (apply S1; discriminate)|apply (proj1 S1 eq_refl)]; congruence. }
    split.
    - destruct (allocs s o) eqn:Ea.
      + destruct (alloc_some (good_ok G) H Ea) as [K1 K2]. destruct o as [[]|e arg|t|t f p| |]; cbn [allocs next] in *; try discriminate; (split; [cbn; split; [intros _; exact K1|]|cbn; congruence]); intros _; try reflexivity.
        rewrite S2, Ea. apply orb_true_r.
      + destruct (aempty_dec o) as [->|He]; [cbn in *; injection H as <-; split; [cbn; split; [discriminate|congruence]|exact S2]|].
        destruct (inplace (good_ok G) H Ea He) as (K1 & K2 & K3 & K4).
        assert (S3 : fst m = true <-> s_dict s' <> None) by (rewrite S1; split; intros N N'; apply N, K4, N'). 
        destruct o as [[]|e arg|t|t f p| |]; cbn [allocs next run_aop] in *; try (split; [exact S3|congruence]); try congruence.
        * rewrite Hb in Ea. apply negb_false_iff in Ea. split; [rewrite <- S3, Ea; tauto|cbn; congruence].
        * rewrite Hb in Ea. apply negb_false_iff in Ea. split; [rewrite <- S3, Ea; tauto|cbn; congruence].
        * apply negb_false_iff in Ea. split; [cbn; rewrite S2, Ea; cbn; rewrite orb_false_r; exact S3|cbn; congruence].
        * rewrite Hb in Ea. apply negb_false_iff in Ea. split; [rewrite <- S3, Ea; tauto|cbn; congruence].
    - destruct o as [[]|e arg|t|t f p| |]; cbn [allocs]; try reflexivity; first [exact Hb|rewrite S2; reflexivity].
  Qed.

  (** ** Lists *)
  Lemma nth_error_Some_lt : forall A (l : list A) i a, nth_error l i = Some a -> i < length l.
  Proof. intros A l i a H. apply nth_error_Some. congruence. Qed.
  Lemma set_nth_length : forall A (l : list A) i a, length (set_nth l i a) = length l.
  Proof. induction l as [|x l IH]; intros [|i] a; cbn; congruence. Qed.
  Lemma set_nth_eq : forall A (l : list A) i a, i < length l -> nth_error (set_nth l i a) i = Some a.
  Proof. induction l as [|x l IH]; intros [|i] a H; cbn in *; try lia; [reflexivity|]. apply IH. lia. Qed.
  Lemma set_nth_other : forall A (l : list A) i j a, j <> i -> nth_error (set_nth l i a) j = nth_error l j.
  Proof. induction l as [|x l IH]; intros [|i] [|j] a H; cbn; try congruence; try reflexivity. apply IH. lia. Qed.
  Lemma set_nth_same : forall A (l : list A) i a, nth_error l i = Some a -> set_nth l i a = l.
  Proof. induction l as [|x l IH]; intros [|i] a H; cbn in *; try discriminate; [congruence|]. f_equal. auto. Qed.
  Lemma nth_combine : forall A B (f : nat * A -> B) (l : list A) k j, nth_error (map f (combine (seq k (length l)) l)) j = option_map (fun a => f (k + j, a)) (nth_error l j).
  Proof.
    intros A B f. induction l as [|a l IH]; intros k j; cbn [length seq combine map]; [destruct j; reflexivity|]. destruct j as [|j]; cbn [nth_error option_map]; [rewrite Nat.add_0_r; reflexivity|].
    rewrite IH. replace (S k + j) with (k + S j) by lia. reflexivity.
  Qed.

  (** ** The invariant *)
  Definition seen w (h : hseg E) (l : line E) : Prop :=
    s_dict (l_zero l) = None /\ s_load (l_zero l) = false /\ run_aops (l_zero l) (l_calls l) = Ok (view w h) /\
    (l_made l = None <-> p_dict h = None) /\ (forall p, p_dict h = Some p -> p < length (w_dicts w)).
  Record inv (n : nat) w (ls : list (line E)) : Prop := {
    i_len : length (w_segs w) = length ls;
    i_seen : forall j h l, nth_error (w_segs w) j = Some h -> nth_error ls j = Some l -> seen w h l;
    i_old : forall j l m, nth_error ls j = Some l -> l_made l = Some m -> m < n;
    i_mates : forall j k h h' l l' p, nth_error (w_segs w) j = Some h -> nth_error (w_segs w) k = Some h' -> nth_error ls j = Some l -> nth_error ls k = Some l' ->
      p_dict h = Some p -> (l_made l = l_made l' <-> p_dict h' = Some p) /\ (p_dict h' = Some p -> h' = h) }.

  Lemma seen_says : forall w h l, seen w h l -> P_Api.good (s_cfg (l_zero l)) (view w h) /\ says (fold_left (@next E) (l_calls l) (false, false)) (view w h).
  Proof.
    intros w h l (H1 & H2 & H3 & _). assert (G0 : P_Api.good (s_cfg (l_zero l)) (l_zero l)) by (split; [reflexivity|rewrite H1; exact I]).
    assert (S0 : says (false, false) (l_zero l)) by (split; [cbn; rewrite H1; split; [discriminate|congruence]|cbn; congruence]).
    revert H3 G0 S0. generalize (s_cfg (l_zero l)) at 1 2 as c. generalize (l_zero l) as s, (false, false) as m, (view w h) as s'. clear. induction (l_calls l) as [|o os IH]; intros s m s' c H G S; cbn [run_aops fold_left] in *; [injection H as <-; auto|].
    apply bind_Ok in H as (s1 & R1 & R2). apply (IH s1 (next m o) s' c R2); [eapply aop_good; eassumption|]. exact (proj1 (step_says G S R1)).
  Qed.
  Lemma seen_dict : forall w h l, seen w h l -> (s_dict (view w h) = None <-> p_dict h = None).
  Proof.
    intros w h l (_ & _ & _ & _ & H). cbn. destruct (p_dict h) as [p|]; [|tauto]. split; [|discriminate]. intro K. specialize (H p eq_refl). apply nth_error_None in K. lia.
  Qed.

  Lemma inv_nil : inv 0 (w_nil E) [].
  Proof. constructor; [reflexivity| | |]; intros; destruct j; discriminate. Qed.

  (** A world in which the Segmenter [i] and the heap changed, the other Segmenters seeing the same. *)
  Lemma inv_alone : forall n w ls ds i h' l', inv n w ls -> i < length ls ->
    (forall p, p < length (w_dicts w) -> nth_error ds p = nth_error (w_dicts w) p) -> length (w_dicts w) <= length ds ->
    seen {| w_dicts := ds; w_segs := set_nth (w_segs w) i h' |} h' l' -> (p_dict h' = None \/ (l_made l' = Some n /\ exists p, p_dict h' = Some p /\ length (w_dicts w) <= p)) ->
    inv (S n) {| w_dicts := ds; w_segs := set_nth (w_segs w) i h' |} (set_nth ls i l').
  Proof.
    intros n w ls ds i h' l' H Hi Hd Hl Hs Hp. pose proof (i_len H) as Hlen.
    assert (Hm : l_made l' = None \/ l_made l' = Some n). { destruct Hs as (_ & _ & _ & K & _). destruct Hp as [Hp|[Hp _]]; [left; tauto|auto]. }
    constructor.
    - cbn. rewrite !set_nth_length. exact Hlen.
    - intros j h l. cbn [w_segs]. destruct (Nat.eq_dec j i) as [->|Hj]; [rewrite !set_nth_eq by lia; intros [= <-] [= <-]; exact Hs|]. rewrite !set_nth_other by exact Hj. intros K1 K2.
      destruct (i_seen H K1 K2) as (A1 & A2 & A3 & A4 & A5). split; [exact A1|]. split; [exact A2|]. split; [|split; [exact A4|cbn; intros p K; specialize (A5 p K); lia]].
      rewrite A3. f_equal. unfold view. cbn. f_equal. destruct (p_dict h) as [p|]; [|reflexivity]. symmetry. apply Hd. apply A5. reflexivity.
    - intros j l m. destruct (Nat.eq_dec j i) as [->|Hj]; [rewrite set_nth_eq by lia; intros [= <-] K; destruct Hm; congruence || (assert (m = n) by congruence; lia)|].
      rewrite set_nth_other by exact Hj. intros K1 K2. pose proof (i_old H K1 K2). lia.
    - intros j k h1 h2 l1 l2 p. cbn [w_segs]. destruct (Nat.eq_dec j i) as [->|Hj]; destruct (Nat.eq_dec k i) as [->|Hk]; rewrite ?set_nth_eq by lia; rewrite ?set_nth_other by assumption.
      + intros [= <-] [= <-] [= <-] [= <-] K. tauto.
      + intros [= <-] K2 [= <-] K4 K. destruct Hp as [Hp|(Hp & q & Hq & Hq')]; [congruence|]. assert (q = p) as -> by congruence. destruct (i_seen H K2 K4) as (_ & _ & _ & A4 & A5). split.
        * split; intro N; [pose proof (i_old H K4 (m := n)) as O; rewrite N in Hp; specialize (O Hp); lia|specialize (A5 p N); lia].
        * intro N. specialize (A5 p N). lia.
      + intros K1 [= <-] K3 [= <-] K. destruct (i_seen H K1 K3) as (_ & _ & _ & A4 & A5). specialize (A5 p K). destruct Hp as [Hp|(Hp & q & Hq & Hq')].
        * destruct Hs as (_ & _ & _ & B4 & _). assert (l_made l' = None) as -> by tauto. rewrite Hp. split; [|discriminate]. split; intro N; [|discriminate]. assert (p_dict h1 = None) by tauto. congruence.
        * rewrite Hp, Hq. split; [|intro N; assert (q = p) by congruence; lia]. split; intro N; [|assert (q = p) by congruence; lia]. pose proof (i_old H K3 N). lia.
      + intros K1 K2 K3 K4 K. exact (i_mates H K1 K2 K3 K4 K).
  Qed.

  Lemma same_made_iff : forall a b, same_made a b = true <-> a = b /\ a <> None.
  Proof.
    intros [a|] [b|]; cbn; try (split; [discriminate|intros [K1 K2]; congruence]). rewrite Nat.eqb_eq. split; [intros ->; split; [reflexivity|discriminate]|intros [[= K] _]; exact K].
  Qed.

  Lemma inv_step : forall n w ls o w', inv n w ls -> w_step w o = Ok w' -> inv (S n) w' (next_lines n ls o).
  Proof.
    intros n w ls o w' H Hr. pose proof (i_len H) as Hlen. destruct o as [s|i|i o]; cbn [w_step next_lines] in *; change @repl with @set_nth in *.
    - injection Hr as <-. set (h0 := {| p_cfg := s_cfg s; p_dict := None; p_load := false; p_lc := s_lc s |}). set (l0 := {| l_zero := zero s; l_calls := []; l_made := None |}).
      assert (N1 : forall A (l : list A) a j x, nth_error (l ++ [a]) j = Some x -> nth_error l j = Some x \/ (j = length l /\ x = a)).
      { intros A l a j x K. destruct (Nat.lt_ge_cases j (length l)) as [L|L]; [left; rewrite nth_error_app1 in K; auto|]. rewrite nth_error_app2 in K by lia. destruct (j - length l) as [|k] eqn:Ek; cbn in K; [right; split; [lia|congruence]|]. destruct k; discriminate. }
      constructor.
      + cbn. rewrite !app_length. cbn. lia.
      + intros j h l K1 K2. cbn in K1. apply N1 in K1. apply N1 in K2. destruct K1 as [K1|[K1 ->]]; destruct K2 as [K2|[K2 ->]].
        * destruct (i_seen H K1 K2) as (A1 & A2 & A3 & A4 & A5). repeat split; try assumption; apply A4.
        * apply nth_error_Some_lt in K1. lia.
        * apply nth_error_Some_lt in K2. lia.
        * repeat split; cbn; try reflexivity; discriminate.
      + intros j l m K1 K2. apply N1 in K1. destruct K1 as [K1|[_ ->]]; [pose proof (i_old H K1 K2); lia|discriminate].
      + intros j k h h' l l' p K1 K2 K3 K4 K. cbn in K1, K2. apply N1 in K1, K2, K3, K4. destruct K1 as [K1|[K1 ->]]; [|discriminate]. destruct K3 as [K3|[K3 ->]]; [|apply nth_error_Some_lt in K1; lia].
        destruct (i_seen H K1 K3) as (_ & _ & _ & A4 & _). destruct K2 as [K2|[K2 ->]]; destruct K4 as [K4|[K4 ->]].
        * exact (i_mates H K1 K2 K3 K4 K).
        * apply nth_error_Some_lt in K2. lia.
        * apply nth_error_Some_lt in K4. lia.
        * cbn. split; [|discriminate]. split; [|discriminate]. intro N. assert (p_dict h = None) by tauto. congruence.
    - apply bind_Ok in Hr as (h & Hg & Hr). apply get_Ok in Hg. injection Hr as <-. destruct (nth_error ls i) as [l0|] eqn:El; [|apply nth_error_None in El; apply nth_error_Some_lt in Hg; lia].
      assert (N1 : forall A (l : list A) a j x, nth_error l i = Some a -> nth_error (l ++ [a]) j = Some x -> exists j', nth_error l j' = Some x /\ (j' = j /\ j < length l \/ j' = i /\ j = length l)).
      { intros A l a j x Hi K. destruct (Nat.lt_ge_cases j (length l)) as [L|L]; [rewrite nth_error_app1 in K; eauto|]. rewrite nth_error_app2 in K by lia. destruct (j - length l) as [|k] eqn:Ek; cbn in K; [exists i; split; [congruence|right; lia]|]. destruct k; discriminate. }
      assert (N2 : forall j h1 l1, nth_error (w_segs w ++ [h]) j = Some h1 -> nth_error (ls ++ [l0]) j = Some l1 -> exists j', nth_error (w_segs w) j' = Some h1 /\ nth_error ls j' = Some l1).
      { intros j h1 l1 K1 K2. apply (N1 _ _ _ _ _ Hg) in K1 as (j1 & K1 & K1'). apply (N1 _ _ _ _ _ El) in K2 as (j2 & K2 & K2'). exists j1. split; [exact K1|]. assert (j1 = j2) as -> by lia. exact K2. }
      constructor.
      + cbn. rewrite !app_length. cbn. lia.
      + intros j h1 l1 K1 K2. cbn in K1. destruct (N2 _ _ _ K1 K2) as (j' & J1 & J2). destruct (i_seen H J1 J2) as (A1 & A2 & A3 & A4 & A5). repeat split; try assumption; apply A4.
      + intros j l m K1 K2. apply (N1 _ _ _ _ _ El) in K1 as (j' & K1 & _). pose proof (i_old H K1 K2). lia.
      + intros j k h1 h2 l1 l2 p K1 K2 K3 K4 K. cbn in K1, K2. destruct (N2 _ _ _ K1 K3) as (j' & J1 & J2). destruct (N2 _ _ _ K2 K4) as (k' & J3 & J4). exact (i_mates H J1 J3 J2 J4 K).
    - apply bind_Ok in Hr as (h & Hg & Hr). apply get_Ok in Hg. apply bind_Ok in Hr as (s' & Hs' & Hr). injection Hr as <-.
      destruct (nth_error ls i) as [l|] eqn:El; [|apply nth_error_None in El; apply nth_error_Some_lt in Hg; lia]. pose proof (nth_error_Some_lt El) as Hi.
      pose proof (i_seen H Hg El) as Sn. destruct (seen_says Sn) as [G Sa]. destruct (step_says G Sa Hs') as [Sa' Ha]. change (allocs (view w h) o = makes (l_calls l) o) in Ha. rewrite <- Ha. pose proof Sn as (A1 & A2 & A3 & A4 & A5).
      assert (Hrun : run_aops (l_zero l) (l_calls l ++ [o]) = Ok s') by (rewrite aops_app, A3; cbn [bind run_aops]; rewrite Hs'; reflexivity).
      assert (Heta : forall d, {| s_cfg := s_cfg s'; s_dict := d; s_load := s_load s'; s_lc := s_lc s' |} = set_dict s' d) by reflexivity.
      destruct (allocs (view w h) o) eqn:Ea.
      + destruct (alloc_some (good_ok G) Hs' Ea) as [K1 _]. unfold write. destruct (s_dict s') as [d|] eqn:Ed; [|congruence].
        replace (match p_dict h with Some p => _ | None => _ end) with {| w_dicts := w_dicts w ++ [d]; w_segs := set_nth (w_segs w) i {| p_cfg := s_cfg s'; p_dict := Some (length (w_dicts w)); p_load := s_load s'; p_lc := s_lc s' |} |} by (destruct (p_dict h); reflexivity).
        apply inv_alone; [exact H|exact Hi| | | |].
        * intros p Hp. rewrite nth_error_app1 by exact Hp. reflexivity.
        * rewrite app_length. lia.
        * split; [exact A1|]. split; [exact A2|]. split; [|split; [split; discriminate|]].
          -- cbn [counts l_zero l_calls]. rewrite Hrun. f_equal. unfold view. cbn. rewrite nth_error_app2, Nat.sub_diag by lia. cbn. destruct s'; cbn in *; subst; reflexivity.
          -- cbn. intros p [= <-]. rewrite app_length. cbn. lia.
        * right. split; [reflexivity|]. eexists. split; [reflexivity|]. lia.
      + destruct (aempty_dec o) as [->|He].
        * cbn [run_aop] in Hs'. injection Hs' as <-. unfold write. cbn [empty set_dict s_dict s_cfg s_load s_lc]. apply inv_alone; [exact H|exact Hi|reflexivity|lia| |left; reflexivity].
          split; [exact A1|]. split; [exact A2|]. split; [exact Hrun|]. split; [split; reflexivity|discriminate].
        * destruct (inplace (good_ok G) Hs' Ea He) as (K1 & K2 & K3 & K4).
          replace (match o with AEmpty _ => set_nth ls i (counts l o None) | _ => map (fun jl : nat * line E => let (j, k) := jl in if (j =? i) || same_made (l_made l) (l_made k) then counts k o (l_made k) else k) (combine (seq 0 (length ls)) ls) end)
            with (map (fun jl : nat * line E => let (j, k) := jl in if (j =? i) || same_made (l_made l) (l_made k) then counts k o (l_made k) else k) (combine (seq 0 (length ls)) ls)) by (destruct o; try reflexivity; congruence).
          set (ls' := map _ _).
          assert (Hnth : forall j, nth_error ls' j = option_map (fun k => if (j =? i) || same_made (l_made l) (l_made k) then counts k o (l_made k) else k) (nth_error ls j)) by (intro j; unfold ls'; rewrite nth_combine; reflexivity).
          assert (Hmade : forall j k', nth_error ls' j = Some k' -> exists k, nth_error ls j = Some k /\ l_made k' = l_made k /\ l_zero k' = l_zero k /\ l_calls k' = if (j =? i) || same_made (l_made l) (l_made k) then l_calls k ++ [o] else l_calls k).
          { intros j k' K. rewrite Hnth in K. destruct (nth_error ls j) as [k|]; [|discriminate]. cbn in K. injection K as <-. exists k. destruct (_ || _); auto. }
          assert (Hput : {| p_cfg := s_cfg s'; p_dict := p_dict h; p_load := s_load s'; p_lc := s_lc s' |} = h) by (rewrite K1, K2, K3; destruct h; reflexivity).
          assert (Hw : exists ds, write w i h false s' = {| w_dicts := ds; w_segs := w_segs w |} /\ length ds = length (w_dicts w) /\
            (forall p, p_dict h <> Some p -> nth_error ds p = nth_error (w_dicts w) p) /\ (forall p, p_dict h = Some p -> nth_error ds p = s_dict s')).
          { unfold write. pose proof (seen_dict Sn) as Sd. destruct (s_dict s') as [d|] eqn:Ed.
            - destruct (p_dict h) as [p|] eqn:Ep; [|exfalso; assert (None = Some d) by (symmetry; rewrite <- Ed in *; apply K4; tauto); congruence].
              exists (set_nth (w_dicts w) p d). rewrite Hput, (set_nth_same Hg). split; [reflexivity|]. split; [apply set_nth_length|]. split; [intros q Hq; apply set_nth_other; congruence|]. intros q [= <-]. apply set_nth_eq. apply A5. reflexivity.
            - assert (Ep : p_dict h = None) by tauto. rewrite Ep in Hput. exists (w_dicts w). rewrite Hput, (set_nth_same Hg). split; [destruct w; reflexivity|]. split; [reflexivity|]. split; [reflexivity|]. intros p Hp. congruence. }
          destruct Hw as (ds & -> & W2 & W3 & W4).
          assert (Hv : view {| w_dicts := ds; w_segs := w_segs w |} h = s').
          { unfold view. cbn in K1, K2, K3. rewrite <- K1, <- K2, <- K3. cbn [w_dicts]. destruct (p_dict h) as [p|] eqn:Ep; [rewrite (W4 p eq_refl); destruct s'; reflexivity|].
            assert (Ed : s_dict s' = None) by (apply K4, (proj2 (seen_dict Sn)), Ep). destruct s'; cbn in *; congruence. }
          constructor.
          -- cbn. unfold ls'. rewrite map_length, combine_length, seq_length, Nat.min_id. exact Hlen.
          -- intros j h1 k' J1 J2. cbn in J1. destruct (Hmade _ _ J2) as (k & M1 & M2 & M3 & M4). pose proof (i_seen H J1 M1) as (B1 & B2 & B3 & B4 & B5).
             unfold seen. rewrite M2, M3, M4. split; [exact B1|]. split; [exact B2|]. split; [|split; [exact B4|cbn; rewrite W2; exact B5]].
             destruct (Nat.eqb_spec j i) as [->|Hj]; cbn [orb].
             ++ assert (h1 = h) as -> by congruence. assert (k = l) as -> by congruence. rewrite Hrun, Hv. reflexivity.
             ++ destruct (same_made (l_made l) (l_made k)) eqn:Em.
                ** apply same_made_iff in Em as [Em En]. destruct (p_dict h) as [p|] eqn:Ep; [|tauto]. destruct (i_mates H Hg J1 El M1 Ep) as [I1 I2]. assert (h1 = h) as -> by tauto. rewrite aops_app, B3. cbn [bind run_aops]. rewrite Hs', Hv. reflexivity.
                ** rewrite B3. f_equal. unfold view. cbn. f_equal. destruct (p_dict h1) as [q|] eqn:Eq; [|reflexivity]. symmetry. apply W3. intro Ep. destruct (i_mates H Hg J1 El M1 Ep) as [I1 I2]. assert (Em' : same_made (l_made l) (l_made k) = true) by (apply same_made_iff; split; [tauto|intro N; assert (p_dict h = None) by tauto; congruence]). congruence.
          -- intros j k' m J1 J2. destruct (Hmade _ _ J1) as (k & M1 & M2 & _). pose proof (i_old H M1 (m := m)) as O. rewrite <- M2 in O. specialize (O J2). lia.
          -- intros j j2 h1 h2 k1' k2' p J1 J2 J3 J4 J. cbn in J1, J2. destruct (Hmade _ _ J3) as (k1 & M1 & M2 & _). destruct (Hmade _ _ J4) as (k2 & M3 & M4 & _). rewrite M2, M4. exact (i_mates H J1 J2 M1 M3 J).
  Qed.
  Lemma inv_run_w : forall os n w ls w', inv n w ls -> w_run w os = Ok w' -> inv (n + length os) w' (lines n ls os).
  Proof.
    induction os as [|o os IH]; intros n w ls w' H Hr; cbn [w_run lines length] in *; [injection Hr as <-; rewrite Nat.add_0_r; exact H|]. apply bind_Ok in Hr as (w1 & H1 & H2). replace (n + S (length os)) with (S n + length os) by lia. eapply IH; [eapply inv_step; eassumption|exact H2].
  Qed.

  (** ** Which histories return *)
  Lemma next_keeps : forall n (ls : list (line E)) o j l, nth_error ls j = Some l -> exists l' x, nth_error (next_lines n ls o) j = Some l' /\ l_zero l' = l_zero l /\ l_calls l' = l_calls l ++ x.
  Proof.
    intros n ls o j l H. assert (Hj : j < length ls) by (eapply nth_error_Some_lt; eauto). assert (K0 : exists l' x, nth_error ls j = Some l' /\ l_zero l' = l_zero l /\ l_calls l' = l_calls l ++ x) by (exists l, []; rewrite app_nil_r; auto).
    assert (K1 : forall a, exists l' x, nth_error (ls ++ [a]) j = Some l' /\ l_zero l' = l_zero l /\ l_calls l' = l_calls l ++ x) by (intro a; rewrite nth_error_app1 by exact Hj; exact K0).
    destruct o as [s|i|i o]; cbn [next_lines]; change @repl with @set_nth; [apply K1| |].
    - destruct (nth_error ls i); [apply K1|exact K0].
    - destruct (nth_error ls i) as [k|] eqn:Ek; [|exact K0].
      assert (K2 : forall m, exists l' x, nth_error (set_nth ls i (counts k o m)) j = Some l' /\ l_zero l' = l_zero l /\ l_calls l' = l_calls l ++ x).
      { intro m. destruct (Nat.eq_dec j i) as [->|Hji]; [rewrite set_nth_eq by exact Hj; assert (k = l) as -> by congruence; exists (counts l o m), [o]; auto|]. rewrite set_nth_other by exact Hji. exact K0. }
      assert (K3 : exists l' x, nth_error (map (fun jl : nat * line E => let (j, k0) := jl in if (j =? i) || same_made (l_made k) (l_made k0) then counts k0 o (l_made k0) else k0) (combine (seq 0 (length ls)) ls)) j = Some l' /\ l_zero l' = l_zero l /\ l_calls l' = l_calls l ++ x).
      { rewrite nth_combine, H. cbn. destruct (_ || _); [exists (counts l o (l_made l)), [o]; auto|exists l, []; rewrite app_nil_r; auto]. }
      destruct (makes (l_calls k) o); [apply K2|]. destruct o; auto.
  Qed.
  Lemma lines_keep : forall os n (ls : list (line E)) j l, nth_error ls j = Some l -> exists l' x, nth_error (lines n ls os) j = Some l' /\ l_zero l' = l_zero l /\ l_calls l' = l_calls l ++ x.
  Proof.
    induction os as [|o os IH]; intros n ls j l H; cbn [lines]; [exists l, []; rewrite app_nil_r; auto|]. destruct (next_keeps n o H) as (l1 & x & K1 & K2 & K3). destruct (IH (S n) _ _ _ K1) as (l2 & y & K4 & K5 & K6).
    exists l2, (x ++ y). split; [exact K4|]. split; [congruence|]. rewrite K6, K3, app_assoc. reflexivity.
  Qed.
  Lemma fine_app : forall (a b : list (aop E)) m, fine m (a ++ b) -> fine m a /\ fine (fold_left (@next E) a m) b.
  Proof. induction a as [|o a IH]; intros b m H; cbn [app fine fold_left] in *; [auto|]. destruct H as [H1 H2]. apply IH in H2. tauto. Qed.
  Lemma world_total : forall os n w ls, inv n w ls -> named (length ls) os -> (forall j l, nth_error (lines n ls os) j = Some l -> fine (false, false) (l_calls l)) -> exists w', w_run w os = Ok w'.
  Proof.
    induction os as [|o os IH]; intros n w ls H Hn Hf; cbn [w_run]; [eauto|].
    assert (Hs : exists w1, w_step w o = Ok w1 /\ named (length (next_lines n ls o)) os).
    { pose proof (i_len H) as Hl. destruct o as [s|i|i o]; cbn [w_step next_lines named] in *; change @repl with @set_nth in *.
      - eexists. split; [reflexivity|]. rewrite app_length, Nat.add_1_r. exact Hn.
      - destruct Hn as [Hi Hn]. destruct (nth_error (w_segs w) i) as [h|] eqn:Eh; [|apply nth_error_None in Eh; lia]. destruct (nth_error ls i) as [l|] eqn:El; [|apply nth_error_None in El; lia].
        apply get_Ok in Eh. rewrite Eh. cbn [bind]. eexists. split; [reflexivity|]. rewrite app_length, Nat.add_1_r. exact Hn.
      - destruct Hn as [Hi Hn]. destruct (nth_error (w_segs w) i) as [h|] eqn:Eh; [|apply nth_error_None in Eh; lia]. destruct (nth_error ls i) as [l|] eqn:El; [|apply nth_error_None in El; lia].
        pose proof (i_seen H Eh El) as Sn. destruct (seen_says Sn) as [G Sa].
        assert (Hl' : exists l' x, nth_error (lines n ls (WCall i o :: os)) i = Some l' /\ l_calls l' = (l_calls l ++ [o]) ++ x).
        { cbn [lines]. assert (K : exists l1, nth_error (next_lines n ls (WCall i o)) i = Some l1 /\ l_calls l1 = l_calls l ++ [o]).
          { cbn [next_lines]. change @repl with @set_nth. rewrite El. assert (K2 : forall m, exists l1, nth_error (set_nth ls i (counts l o m)) i = Some l1 /\ l_calls l1 = l_calls l ++ [o]) by (intro m; rewrite set_nth_eq by exact Hi; eexists; split; reflexivity).
            assert (K3 : exists l1, nth_error (map (fun jl : nat * line E => let (j, k0) := jl in if (j =? i) || same_made (l_made l) (l_made k0) then counts k0 o (l_made k0) else k0) (combine (seq 0 (length ls)) ls)) i = Some l1 /\ l_calls l1 = l_calls l ++ [o]).
            { rewrite nth_combine, El. cbn. rewrite Nat.eqb_refl. cbn. eexists. split; reflexivity. }
            destruct (makes (l_calls l) o); [apply K2|]. destruct o; auto. }
          destruct K as (l1 & K1 & K2). destruct (lines_keep os (S n) K1) as (l2 & x & K3 & _ & K4). exists l2, x. rewrite <- K2. auto. }
        destruct Hl' as (l' & x & L1 & L2). specialize (Hf i l' L1). rewrite L2 in Hf. apply fine_app in Hf as [Hf _]. apply fine_app in Hf as [_ [Hf _]].
        destruct (aop_total G Sa Hf) as (s' & K & _). apply get_Ok in Eh. rewrite Eh. cbn [bind]. rewrite K. cbn [bind]. eexists. split; [reflexivity|]. replace (length _) with (length ls); [exact Hn|].
        destruct (makes (l_calls l) o); [rewrite set_nth_length; reflexivity|]. assert (K3 : forall f : nat * line E -> line E, length ls = length (map f (combine (seq 0 (length ls)) ls))) by (intro f; rewrite map_length, combine_length, seq_length, Nat.min_id; reflexivity).
        destruct o; auto. rewrite set_nth_length. reflexivity. }
    destruct Hs as (w1 & K1 & K2). rewrite K1. cbn [bind]. eapply IH; [eapply inv_step; eassumption|exact K2|exact Hf].
  Qed.

  (** ** Copies made early *)
  Definition distinct (ls : list (line E)) : Prop := forall i j a b m, nth_error ls i = Some a -> nth_error ls j = Some b -> l_made a = Some m -> l_made b = Some m -> i = j.
  Definition plain_line (l : line E) : seg E * list (aop E) := (l_zero l, l_calls l).
  Lemma map_set_nth : forall A B (f : A -> B) (l : list A) i a, map f (set_nth l i a) = set_nth (map f l) i (f a).
  Proof. intros A B f. induction l as [|x l IH]; intros [|i] a; cbn; congruence. Qed.
  Lemma nth_ext_list : forall A (a b : list A), (forall i, nth_error a i = nth_error b i) -> a = b.
  Proof.
    intro A. induction a as [|x a IH]; intros [|y b] H; [reflexivity|specialize (H 0); discriminate|specialize (H 0); discriminate|].
    pose proof (H 0) as H0. cbn in H0. injection H0 as ->. f_equal. apply IH. intro i. exact (H (S i)).
  Qed.
  Lemma map_next : forall ls i l o, nth_error ls i = Some l -> distinct ls ->
    map (fun jl : nat * line E => let (j, k) := jl in if (j =? i) || same_made (l_made l) (l_made k) then counts k o (l_made k) else k) (combine (seq 0 (length ls)) ls) = set_nth ls i (counts l o (l_made l)).
  Proof.
    intros ls i l o H D. apply nth_ext_list. intro j. rewrite nth_combine. cbn [plus]. destruct (Nat.eq_dec j i) as [->|Hj].
    - rewrite H. cbn. rewrite Nat.eqb_refl. cbn. rewrite set_nth_eq; [reflexivity|]. eapply nth_error_Some_lt; eauto.
    - rewrite set_nth_other by exact Hj. destruct (nth_error ls j) as [k|] eqn:Ek; [|reflexivity]. cbn. rewrite (proj2 (Nat.eqb_neq j i) Hj). cbn [orb]. destruct (same_made (l_made l) (l_made k)) eqn:Em; [|reflexivity].
      apply same_made_iff in Em as [Em En]. destruct (l_made l) as [m|] eqn:El; [|congruence]. symmetry in Em. pose proof (D _ _ _ _ _ H Ek El Em). congruence.
  Qed.
  Lemma early_lines : forall os n w ls w', inv n w ls -> w_run w os = Ok w' -> distinct ls -> early_copies (map plain_line ls) os ->
    map plain_line (lines n ls os) = fold_left (@next_alone E) os (map plain_line ls).
  Proof.
    induction os as [|o os IH]; intros n w ls w' H Hr D He; cbn [lines fold_left early_copies w_run] in *; [reflexivity|]. apply bind_Ok in Hr as (w1 & Hr1 & Hr2). destruct He as [He1 He2]. pose proof (inv_step H Hr1) as H'.
    assert (K : map plain_line (next_lines n ls o) = next_alone (map plain_line ls) o /\ distinct (next_lines n ls o)).
    { destruct o as [s|i|i o]; cbn [next_lines next_alone] in *; change @repl with @set_nth in *.
      - rewrite map_app. split; [reflexivity|]. intros i j a b m K1 K2 K3 K4. destruct (Nat.lt_ge_cases i (length ls)) as [Li|Li].
        + rewrite nth_error_app1 in K1 by exact Li. destruct (Nat.lt_ge_cases j (length ls)) as [Lj|Lj]; [rewrite nth_error_app1 in K2 by exact Lj; eapply D; eauto|].
          rewrite nth_error_app2 in K2 by exact Lj. destruct (j - length ls) as [|x]; cbn in K2; [injection K2 as <-; discriminate|destruct x; discriminate].
        + rewrite nth_error_app2 in K1 by exact Li. destruct (i - length ls) as [|x]; cbn in K1; [injection K1 as <-; discriminate|destruct x; discriminate].
      - rewrite nth_error_map. destruct (nth_error ls i) as [l|] eqn:El; cbn [option_map]; [|split; [reflexivity|exact D]]. rewrite map_app. split; [reflexivity|].
        assert (Hm : l_made l = None).
        { rewrite nth_error_map, El in He1. cbn in He1. destruct (nth_error (w_segs w) i) as [h|] eqn:Eh; [|apply nth_error_None in Eh; pose proof (i_len H); apply nth_error_Some_lt in El; lia].
          pose proof (i_seen H Eh El) as Sn. destruct (seen_says Sn) as [_ [Sa _]]. unfold has_dictionary in He1. pose proof (seen_dict Sn) as Sd. destruct Sn as (_ & _ & _ & A4 & _).
          apply A4, Sd. destruct (s_dict (view w h)); [|reflexivity]. assert (N : Some d <> None) by discriminate. apply Sa in N. congruence. }
        intros i1 j a b m K1 K2 K3 K4. destruct (Nat.lt_ge_cases i1 (length ls)) as [Li|Li].
        + rewrite nth_error_app1 in K1 by exact Li. destruct (Nat.lt_ge_cases j (length ls)) as [Lj|Lj]; [rewrite nth_error_app1 in K2 by exact Lj; eapply D; eauto|].
          rewrite nth_error_app2 in K2 by exact Lj. destruct (j - length ls) as [|x]; cbn in K2; [congruence|destruct x; discriminate].
        + rewrite nth_error_app2 in K1 by exact Li. destruct (i1 - length ls) as [|x]; cbn in K1; [congruence|destruct x; discriminate].
      - rewrite nth_error_map. destruct (nth_error ls i) as [l|] eqn:El; cbn [option_map]; [|split; [reflexivity|exact D]]. pose proof (nth_error_Some_lt El) as Li.
        assert (Q : forall m, m = Some n \/ m = l_made l \/ m = None -> map plain_line (set_nth ls i (counts l o m)) = set_nth (map plain_line ls) i (fst (plain_line l), snd (plain_line l) ++ [o]) /\ distinct (set_nth ls i (counts l o m))).
        { intros m Hm. split; [rewrite map_set_nth; reflexivity|]. assert (Hdis : forall j b x, j <> i -> nth_error ls j = Some b -> l_made b = Some x -> m = Some x -> False).
          { intros j b x Hj Kb Kx ->. pose proof (i_old H Kb Kx) as O. destruct Hm as [Hm|[Hm|Hm]]; [injection Hm as ->; lia| |discriminate]. symmetry in Hm. exact (Hj (D _ _ _ _ _ Kb El Kx Hm)). }
          intros a b u v x K1 K2 K3 K4. destruct (Nat.eq_dec a i) as [->|Ha]; destruct (Nat.eq_dec b i) as [->|Hb]; [reflexivity|rewrite set_nth_eq in K1 by exact Li; rewrite set_nth_other in K2 by assumption|rewrite set_nth_eq in K2 by exact Li; rewrite set_nth_other in K1 by assumption|rewrite set_nth_other in K1, K2 by assumption; eapply D; eauto].
          - injection K1 as <-. cbn in K3. destruct (Hdis _ _ _ Hb K2 K4 K3).
          - injection K2 as <-. cbn in K4. destruct (Hdis _ _ _ Ha K1 K3 K4). }
        destruct (makes (l_calls l) o); [apply Q; auto|]. rewrite (map_next o El D). destruct o; apply Q; auto. }
    destruct K as [K1 K2]. rewrite <- K1 in He2 |- *. eapply IH; eassumption.
  Qed.

  (** ** Copies of a loaded Segmenter *)
  Lemma pair_step : forall n w ls o w' i j h, inv n w ls -> nth_error (w_segs w) i = Some h -> nth_error (w_segs w) j = Some h -> p_dict h <> None ->
    match o with WCall k o => k = i \/ k = j -> keeps (p_load h) o | _ => True end -> w_step w o = Ok w' ->
    nth_error (w_segs w') i = Some h /\ nth_error (w_segs w') j = Some h.
  Proof.
    intros n w ls o w' i j h H Hi Hj Hp Hk Hr. pose proof (nth_error_Some_lt Hi) as Li. pose proof (nth_error_Some_lt Hj) as Lj. destruct o as [s|k|k o]; cbn [w_step] in Hr.
    - injection Hr as <-. cbn. rewrite !nth_error_app1 by assumption. auto.
    - apply bind_Ok in Hr as (h1 & _ & Hr). injection Hr as <-. cbn. rewrite !nth_error_app1 by assumption. auto.
    - apply bind_Ok in Hr as (h1 & Hg & Hr). apply get_Ok in Hg. apply bind_Ok in Hr as (s' & Hs' & Hr). injection Hr as <-.
      assert (Hw : forall h2, w_segs (write w k h1 (allocs (view w h1) o) s') = set_nth (w_segs w) k h2 -> (k = i \/ k = j -> h2 = h) -> nth_error (w_segs (write w k h1 (allocs (view w h1) o) s')) i = Some h /\ nth_error (w_segs (write w k h1 (allocs (view w h1) o) s')) j = Some h).
      { intros h2 -> Hh. split; [destruct (Nat.eq_dec i k) as [->|N]|destruct (Nat.eq_dec j k) as [->|N]]; rewrite ?set_nth_eq by assumption; rewrite ?set_nth_other by assumption; try assumption; f_equal; apply Hh; auto. }
      destruct (Nat.eq_dec k i) as [Ek|Ek]; [|destruct (Nat.eq_dec k j) as [Ek'|Ek']].
      3:{ unfold write in *. destruct (s_dict s') as [d|]; [destruct (p_dict h1) as [p|]; [destruct (allocs (view w h1) o)|]|]; (eapply Hw; [cbn; reflexivity|intros [N|N]; congruence]). }
      all: assert (h1 = h) as -> by congruence; specialize (Hk ltac:(auto)).
      all: destruct (nth_error ls k) as [l|] eqn:El; [|apply nth_error_None in El; pose proof (i_len H); lia].
      all: pose proof (i_seen H Hg El) as Sn; destruct (seen_says Sn) as [G _]; assert (Hd : s_dict (view w h) <> None) by (intro N; apply (seen_dict Sn) in N; congruence).
      all: assert (Ha : allocs (view w h) o = false) by (destruct o as [[]|e arg|t|t f p| |]; cbn [allocs keeps] in *; try reflexivity; [destruct (s_dict (view w h)); congruence|destruct (s_dict (view w h)); congruence|cbn; rewrite Hk; reflexivity|destruct (s_dict (view w h)); congruence]).
      all: assert (He : o <> AEmpty E) by (intros ->; exact Hk); destruct (inplace (good_ok G) Hs' Ha He) as (K1 & K2 & K3 & K4); apply (Hw h); [|auto]; unfold write; rewrite Ha.
      all: destruct (s_dict s') as [d|] eqn:Ed; [|exfalso; apply Hd, K4; reflexivity]; destruct (p_dict h) as [p|] eqn:Ep; [|congruence]; cbn; f_equal; rewrite K1, K2, K3; cbn; rewrite <- Ep; destruct h; reflexivity.
  Qed.
  Lemma pair_run : forall os n w ls w' i j h, inv n w ls -> nth_error (w_segs w) i = Some h -> nth_error (w_segs w) j = Some h -> p_dict h <> None ->
    (forall k o, In (WCall k o) os -> k = i \/ k = j -> keeps (p_load h) o) -> w_run w os = Ok w' -> nth_error (w_segs w') i = Some h /\ nth_error (w_segs w') j = Some h.
  Proof.
    induction os as [|o os IH]; intros n w ls w' i j h H Hi Hj Hp Hk Hr; cbn [w_run] in Hr; [injection Hr as <-; auto|]. apply bind_Ok in Hr as (w1 & H1 & H2).
    assert (K : nth_error (w_segs w1) i = Some h /\ nth_error (w_segs w1) j = Some h); [|destruct K as [K1 K2]].
    - eapply pair_step; try eassumption. destruct o as [s|k|k o]; auto. apply Hk. left. reflexivity.
    - eapply IH; [eapply inv_step; eassumption|exact K1|exact K2|exact Hp| |exact H2]. intros k x Hx. apply Hk. right. exact Hx.
  Qed.
  Lemma w_run_app : forall a b w, w_run w (a ++ b) = do w' <- w_run w a ; w_run w' b.
  Proof. induction a as [|o a IH]; intros b w; [reflexivity|]. cbn [app w_run]. destruct (w_step w o); cbn [bind]; auto. Qed.
End Share.
