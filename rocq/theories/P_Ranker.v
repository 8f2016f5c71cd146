(** Lives of a pos.Segmenter and a TextRanker. *)
From Verif Require Import S_Ranker P_Load P_Load3 P_Pos P_Pos5 P_Api P_Tags P_Rank P_Idf P_Str P_Trim.
Set Implicit Arguments. Unset Strict Implicit.
Local Open Scope lit_scope.

Section Ranker.
  Variable E : env.

  (** ** Setting up *)
  Lemma r_state : forall os (s s' : seg E), Forall (@r_usable E) os -> usable s -> r_run s os = Ok s' ->
    usable s' /\ match s_dict s' with Some _ => true | None => false end = r_has (match s_dict s with Some _ => true | None => false end) os.
  Proof.
    induction os as [|o os IH]; intros s s' Hu Hs H; cbn [r_run r_has] in *; [injection H as <-; auto|]. inversion_clear Hu as [|? ? Ho Ht]. destruct o as [g|fs arg]; cbn [r_step bind] in H; [exact (IH _ _ Ht Ho H)|].
    apply bind_Ok in H as (s1 & H1 & H2). apply bind_Ok in H1 as ([s2 e] & H3 & H4). injection H4 as <-. cbn [fst] in *. destruct (load_usable Hs H3) as [K1 K2]. destruct (IH _ _ Ht K1 H2) as [K3 K4]. split; [exact K3|].
    rewrite K4. destruct (s_dict s2); [reflexivity|congruence].
  Qed.
  Lemma r_total : forall os (s : seg E), Forall (@r_usable E) os -> usable s -> exists s', r_run s os = Ok s'.
  Proof.
    induction os as [|o os IH]; intros s Hu Hs; cbn [r_run]; [eauto|]. inversion_clear Hu as [|? ? Ho Ht]. destruct o as [g|fs arg]; cbn [r_step bind]; [exact (IH _ Ht Ho)|].
    destruct (@load_total E s fs arg) as (s1 & e & K & _); [|exact Ho|].
    { intro Hl. unfold usable in Hs. destruct (s_dict s) as [d|]; [eauto|congruence]. }
    rewrite K. cbn [bind fst]. exact (IH _ Ht (proj1 (load_usable Hs K))).
  Qed.

  (** ** Texts without characters that are looked up *)
  Definition bare (s : bytes) : Prop := existsb (block_char E) (runes_of s) = false.
  Lemma bare_chars : forall s, bare s -> Forall (fun r => han_internal E r = false) (runes_of s).
  Proof.
    intros s H. apply Forall_forall. intros r Hr. rewrite block_char_eq. apply not_true_is_false. intro K. unfold bare in H. apply not_true_iff_false in H. apply H, existsb_exists. eauto.
  Qed.
  Lemma bare_groups : forall s g, bare s -> In g (S_Pos.groups (fun u : rune * bytes => han_internal E (fst u)) (units s)) -> fst g = false.
  Proof.
    intros s g H Hg. pose proof (groups_flag (fun u : rune * bytes => han_internal E (fst u)) (units s)) as Hf. rewrite Forall_forall in Hf. destruct (Hf g Hg) as [F1 F2].
    pose proof (groups_concat (fun u : rune * bytes => han_internal E (fst u)) (units s)) as Hc. destruct (snd g) as [|u us] eqn:Eg; [congruence|]. inversion_clear F2 as [|? ? F3 _]. rewrite <- F3.
    pose proof (bare_chars H) as K. rewrite Forall_forall in K. apply K. unfold runes_of. apply in_map. rewrite <- Hc. apply in_concat. exists (snd g). split; [apply in_map; exact Hg|rewrite Eg; left; reflexivity].
  Qed.
  Lemma seps_groups : forall s, bare s -> S_Pos.groups (han_internal E) (runes_of s) = match runes_of s with [] => [] | _ => [(false, runes_of s)] end.
  Proof.
    intros s H. apply bare_chars in H. destruct (runes_of s) as [|r rs]; [reflexivity|]. rewrite <- (app_nil_r (r :: rs)) at 1. rewrite (groups_app (p := han_internal E) (b := false)); [reflexivity|discriminate|exact H|exact I].
  Qed.
  Lemma bare_blocks : forall s (F : nat * bytes -> res (list (bytes * bytes))), bare s -> 
    (forall i blk, matches (reg_run (han_internal E)) blk = false -> F (i, blk) = do xs <- split_by re_skip_internal blk ; Ok (flat_map (fun x => if matches re_skip_internal x then [(x, str "x")] else pos_chars x) xs)) ->
    (do blks <- split_by (reg_run (han_internal E)) s ; concat_res (map F (combine (seq 0 (length blks)) blks))) = Ok (map (fun w => (w, str "x")) (seps (runes_of s))).
  Proof.
    intros s F H HF.
    destruct (@blocks_ok (han_internal E) F (fun g ws => fst g = false /\ ws = map (fun w => (w, str "x")) (seps (snd g)))) with (s := s) as (blks & wss & B1 & B2 & B3).
    - intro i. rewrite HF; reflexivity.
    - intros g i Hg. destruct (group_units Hg) as (G1 & G2 & G3 & G4). pose proof (bare_groups H Hg) as Gf. rewrite Gf in *. rewrite (HF i _ G3), (other_ok (E := E)); rewrite G2; [|exact G4]. eauto.
    - rewrite B1. cbn [bind]. rewrite B2. f_equal. rewrite (seps_groups H) in B3. destruct (runes_of s) as [|r rs]; inversion B3 as [|? ? ? ? [_ K1] K2]; subst; [reflexivity|]. inversion K2; subst. cbn [concat snd]. apply app_nil_r.
  Qed.
  Lemma combine_map : forall A B (f : A -> B) (l : list A) k, map f l = map (fun ib : nat * A => f (snd ib)) (combine (seq k (length l)) l).
  Proof. intros A B f. induction l as [|a l IH]; intro k; [reflexivity|]. cbn [map length seq combine snd]. f_equal. apply IH. Qed.
  Lemma bare_cut : forall od tb ord s h, bare s -> pos_cut_opt (E := E) od tb ord s h = Ok (map (fun w => (w, str "x")) (seps (runes_of s))).
  Proof.
    intros od tb ord s h H. destruct od as [d|]; cbn [pos_cut_opt].
    - unfold pos_cut. apply (bare_blocks H). intros i blk Hm. rewrite Hm. reflexivity.
    - rewrite <- (bare_blocks (F := fun ib : nat * bytes => if matches (reg_run (han_internal E)) (snd ib) then Panic else do xs <- split_by re_skip_internal (snd ib) ; Ok (flat_map (fun x => if matches re_skip_internal x then [(x, str "x")] else pos_chars x) xs)) H).
      + destruct (split_by (reg_run (han_internal E)) s) as [blks| |]; try reflexivity. cbn [bind]. rewrite (combine_map _ blks 0). reflexivity.
      + intros i blk Hm. cbn [snd]. rewrite Hm. reflexivity.
  Qed.

  (** ** No dictionary *)
  Lemma concat_panic : forall A (l : list (res (list A))), In Panic l -> ~ In Hang l -> concat_res l = Panic.
  Proof.
    induction l as [|x l IH]; intros H1 H2; [destruct H1|]. cbn [concat_res]. destruct x as [a| |]; [|reflexivity|destruct H2; left; reflexivity]. cbn [bind].
    destruct H1 as [H1|H1]; [discriminate|]. rewrite IH; [reflexivity|exact H1|]. intro K. apply H2. right. exact K.
  Qed.
  Lemma nil_cut : forall tb ord s h, existsb (block_char E) (runes_of s) = true -> pos_cut_opt (E := E) None tb ord s h = Panic.
  Proof.
    intros tb ord s h H. cbn [pos_cut_opt].
    destruct (@blocks_ok (han_internal E) (fun ib => Ok (if matches (reg_run (han_internal E)) (snd ib) then [(snd ib, [])] else [])) (fun g ws => fst g = true -> ws <> [])) with (s := s) as (blks & wss & B1 & B2 & B3).
    - intro i. reflexivity.
    - intros g i Hg. destruct (group_units Hg) as (G1 & G2 & G3 & G4). cbn [snd fst]. rewrite G3. eexists. split; [reflexivity|]. intros ->. discriminate.
    - rewrite B1. cbn [bind]. apply concat_panic.
      + assert (Hne : concat wss <> []).
        { rewrite existsb_exists in H. destruct H as (r & Hr & Hb). rewrite <- block_char_eq in Hb. rewrite <- (groups_concat (han_internal E) (runes_of s)) in Hr. apply in_concat in Hr as (l & Hl & Hr). apply in_map_iff in Hl as (g & <- & Hg).
          pose proof (groups_flag (han_internal E) (runes_of s)) as Hf. rewrite Forall_forall in Hf. destruct (Hf g Hg) as [_ F2]. rewrite Forall_forall in F2. assert (Ht : fst g = true) by (rewrite <- (F2 r Hr); exact Hb).
          clear -B3 Hg Ht. induction B3 as [|g' ws gs wss K B3 IH]; [destruct Hg|]. cbn [concat]. destruct Hg as [->|Hg]; [intro N; apply app_eq_nil in N as [N _]; exact (K Ht N)|]. intro N. apply app_eq_nil in N as [_ N]. exact (IH Hg N). }
        assert (K : exists blk, In blk blks /\ matches (reg_run (han_internal E)) blk = true).
        { destruct (existsb (matches (reg_run (han_internal E))) blks) eqn:Ex; [apply existsb_exists in Ex as (b & X1 & X2); eauto|]. exfalso. apply Hne.
          clear -B2 Ex. revert B2. generalize 0 as k. generalize (concat wss) as out. induction blks as [|b blks IH]; intros out k B2; cbn [length seq combine map concat_res] in B2; [congruence|].
          cbn [existsb] in Ex. apply orb_false_iff in Ex as [E1 E2]. cbn [snd] in B2. rewrite E1 in B2. cbn [bind] in B2. apply bind_Ok in B2 as (o & O1 & O2). cbn [app] in O2. injection O2 as <-. exact (IH E2 _ _ O1). }
        destruct K as (blk & K1 & K2). apply in_map_iff. exists blk. rewrite K2. auto.
      + intro K. apply in_map_iff in K as (blk & K1 & _). destruct (matches (reg_run (han_internal E)) blk); [discriminate|]. destruct ws_wf as [W1 W2]. rewrite (split_rec_ok _ W1 W2) in K1. discriminate.
  Qed.

  (** ** Ranking nothing *)
  Lemma rank_nothing : forall srt oc o1 o2 (ps : list (bytes * bytes)) topK allow, sorts srt -> (forall m, Permutation m (oc m)) -> same_keys_in_any_order o1 -> same_keys_in_any_order o2 ->
    (forall p, In p ps -> ~ In (snd p) allow) -> rank_pieces (E := E) srt oc o1 o2 ps topK allow = [].
  Proof.
    intros srt oc o1 o2 ps topK allow Hs Hoc Ho1 Ho2 H.
    assert (Hc : cm_rows (E := E) allow ps [] = []).
    { clear -H. induction ps as [|[a p] ps IH]; [reflexivity|]. cbn [cm_rows]. destruct (in_list p allow) eqn:Ei; [exfalso; apply (H (a, p)); [left; reflexivity|apply in_list_iff; exact Ei]|]. apply IH. intros q Hq. apply H. right. exact Hq. }
    unfold rank_pieces. rewrite Hc. pose proof (Hoc []) as P. apply Permutation_nil in P. rewrite P. cbn [fold_left]. unfold rank. cbn [map is_sorted].
    set (ws := rank_rounds 10 [] [] []). assert (Hw : ws = []) by reflexivity. rewrite Hw.
    rewrite (Permutation_nil (Ho2 [])). cbn [map]. set (l := srt _ _ _). assert (Hl : l = []) by (apply Permutation_nil; apply (Hs (wseg E) (reverse_less (@seg_less E)) [])).
    rewrite Hl. destruct (_ && _); [apply firstn_nil|reflexivity].
  Qed.
End Ranker.
