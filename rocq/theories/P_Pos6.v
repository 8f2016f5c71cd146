(** The tagger on mixed text. *)
From Verif Require Import S_Pos P_Utf8 P_Utf8b P_Hmm P_Pos P_Pos2 P_Pos3 P_PosTab P_Pos4 P_Pos5 Ieee.
Set Implicit Arguments. Unset Strict Implicit.
Local Open Scope lit_scope.

Lemma skip_a_eq : forall b, skip_a b = num_char b.
Proof. intro b. destruct b; reflexivity. Qed.
Lemma skip_b_eq : forall b, skip_b b = of_chars (str ":alnum") b.
Proof. reflexivity. Qed.
Lemma take_while_ext : forall A (p q : A -> bool) l, (forall a, p a = q a) -> take_while p l = take_while q l.
Proof. intros A p q l H. induction l as [|a l IH]; [reflexivity|]. cbn [take_while]. rewrite H, IH. reflexivity. Qed.
Lemma take_while_split : forall A (p : A -> bool) l, exists r, l = take_while p l ++ r /\ forallb p (take_while p l) = true /\ match r with a :: _ => p a = false | [] => True end.
Proof.
  intros A p l. induction l as [|a l (r & H1 & H2 & H3)]; [exists []; cbn; auto|]. cbn [take_while]. destruct (p a) eqn:Ea.
  - exists r. cbn [app forallb]. rewrite Ea. rewrite <- H1. auto.
  - exists (a :: l). cbn. auto.
Qed.
Lemma starts_false : forall p r, match r with a :: _ => p a = false | [] => True end -> starts_with p r = false.
Proof. intros p [|a r] H; [reflexivity|exact H]. Qed.

Lemma skip_at_cases : forall s, skip_at s = 0 /\ opens s = false \/
  exists l t, s = l ++ t /\ l <> [] /\ skip_at s = length l /\ opens s = true /\
    (forallb num_char l = true /\ starts_with num_char t = false \/
     exists b l', l = b :: l' /\ of_chars (str ":alnum") b = true /\ l' <> [] /\ forallb (of_chars (str "]")) l' = true /\ starts_with (of_chars (str "]")) t = false).
Proof.
  intro s. unfold skip_at. rewrite (take_while_ext s skip_a_eq). destruct (take_while_split num_char s) as (r & H1 & H2 & H3).
  destruct (take_while num_char s) as [|x l] eqn:El.
  - destruct s as [|b s']; [left; auto|]. assert (Hb : num_char b = false) by (cbn [take_while] in El; destruct (num_char b); [discriminate|reflexivity]).
    rewrite skip_b_eq. destruct (of_chars (str ":alnum") b) eqn:Eb.
    + assert (K : take_while (Byte.eqb x5d) s' = take_while (of_chars (str "]")) s') by (apply take_while_ext; intro c; destruct c; reflexivity).
      rewrite K. destruct (take_while_split (of_chars (str "]")) s') as (r' & R1 & R2 & R3). destruct (take_while (of_chars (str "]")) s') as [|y l'] eqn:El'.
      * left. split; [reflexivity|]. unfold opens. cbn [starts_with tl]. rewrite Hb, Eb. cbn [orb andb]. destruct s' as [|z s']; [reflexivity|]. cbn [app] in R1. subst r'. exact R3.
      * right. exists (b :: y :: l'), r'. split; [rewrite R1; reflexivity|]. split; [discriminate|]. split; [reflexivity|]. split.
        { unfold opens. rewrite R1. cbn [starts_with tl app]. rewrite Eb. cbn [forallb] in R2. apply andb_prop in R2 as [-> _]. apply orb_true_r. }
        right. exists b, (y :: l'). repeat split; auto; [discriminate|]. apply starts_false. exact R3.
    + left. split; [reflexivity|]. unfold opens. cbn [starts_with]. rewrite Hb, Eb. reflexivity.
  - right. exists (x :: l), r. split; [exact H1|]. split; [discriminate|]. split; [reflexivity|]. split.
    + unfold opens. rewrite H1. cbn [starts_with app]. cbn [forallb] in H2. apply andb_prop in H2 as [-> _]. reflexivity.
    + left. split; [exact H2|apply starts_false; exact H3].
Qed.

Lemma first_skip : forall s i, match first_at skip_at s i with
  | None => forall j, j < length s -> opens (skipn j s) = false
  | Some (a, b) => exists g t, s = g ++ t /\ a = i + length g /\ b = a + skip_at t /\ 0 < skip_at t /\ opens t = true /\ forall j, j < length g -> opens (skipn j s) = false
  end.
Proof.
  induction s as [|c s IH]; intro i; [cbn; lia|]. cbn [first_at]. destruct (skip_at_cases (c :: s)) as [[H1 H2]|(l & t & H1 & H2 & H3 & H4 & _)].
  - rewrite H1. specialize (IH (S i)). destruct (first_at skip_at s (S i)) as [[a b]|].
    + destruct IH as (g & t & -> & K2 & K3 & K4 & K5 & K6). exists (c :: g), t. cbn [app length]. repeat split; auto; [lia|]. intros [|j] Hj; [exact H2|apply K6; lia].
    + intros [|j] Hj; [exact H2|apply IH; cbn in Hj; lia].
  - rewrite H3. destruct l as [|x l]; [congruence|]. cbn [length]. exists [], (c :: s). cbn [app length]. rewrite H3. cbn [length]. repeat split; auto; lia.
Qed.

Definition named (x : bytes) : list bytes := match x with [] => [] | _ => [x] end.
Lemma detail_other_eq : forall x, detail_other x = map (fun p => (p, content_tag p)) (named x).
Proof.
  intros [|b x]; [reflexivity|]. unfold detail_other, named. cbn [map]. f_equal. f_equal. unfold content_tag.
  assert (N : forall s, re_num s = existsb (of_chars (str ".0123456789")) s).
  { induction s as [|c s IHs]; [reflexivity|]. unfold re_num in *. cbn [existsb]. rewrite IHs. f_equal. destruct c; reflexivity. }
  assert (A : forall s, re_num s = false -> re_eng s = existsb (of_chars (str "ABCDEFGHIJKLMNOPQRSTUVWXYZabcdefghijklmnopqrstuvwxyz")) s).
  { induction s as [|c s IHs]; [reflexivity|]. unfold re_num, re_eng in *. cbn [existsb]. intro K. apply orb_false_elim in K as [K1 K2]. rewrite IHs by exact K2. f_equal. destruct c; try discriminate K1; reflexivity. }
  rewrite <- N. destruct (re_num (b :: x)) eqn:K; [reflexivity|]. rewrite A by exact K. reflexivity.
Qed.

Lemma skip_rec : forall fuel s, length s <= fuel -> skip_pieces s (flat_map named (split_rec fuel re_skip_detail s)).
Proof.
  induction fuel as [|fuel IH]; intros s Hl; [destruct s; [constructor|cbn in Hl; lia]|]. cbn [split_rec]. unfold re_skip_detail at 1. pose proof (first_skip s 0) as F.
  destruct (first_at skip_at s 0) as [[a b]|].
  - destruct F as (g & t & Hs & F1 & F2 & F3 & F4 & F5). cbn [plus] in F1. subst a b.
    destruct (skip_at_cases t) as [[K _]|(l & r & Ht & L1 & L2 & _ & L3)]; [lia|]. rewrite L2.
    assert (E1 : firstn (length g) s = g) by (rewrite Hs, firstn_app, Nat.sub_diag, firstn_all, firstn_O, app_nil_r; reflexivity).
    assert (E2 : slice s (length g) (length g + length l) = l).
    { unfold slice. rewrite Hs, Ht, skipn_app, skipn_all, Nat.sub_diag. cbn [skipn app]. replace (length g + length l - length g) with (length l) by lia.
      rewrite firstn_app, Nat.sub_diag, firstn_all, firstn_O, app_nil_r. reflexivity. }
    assert (E3 : skipn (length g + length l) s = r) by (rewrite Hs, Ht, app_assoc, <- app_length, skipn_app, skipn_all, Nat.sub_diag; reflexivity).
    rewrite E1, E2, E3. cbn [flat_map].
    assert (Hr : skip_pieces r (flat_map named (split_rec fuel re_skip_detail r))).
    { apply IH. assert (length s = length g + (length l + length r)) by (rewrite Hs, Ht, !app_length; reflexivity). destruct l; [congruence|]. cbn [length] in *. lia. }
    assert (Hq : skip_pieces t (named l ++ flat_map named (split_rec fuel re_skip_detail r))).
    { destruct l as [|x l0] eqn:El; [congruence|]. unfold named at 1. cbn [app]. rewrite Ht. destruct L3 as [[A1 A2]|(x' & l' & A1 & A2 & A3 & A4 & A5)]; [apply sp_num; auto|].
      injection A1 as -> ->. apply sp_class; auto. }
    destruct g as [|x g0] eqn:Eg; [cbn [app] in Hs; subst t; exact Hq|]. unfold named at 1. cbn [app]. rewrite Hs. apply sp_gap; [discriminate| |right; exact F4|exact Hq].
    rewrite <- Hs. exact F5.
  - cbn [flat_map]. rewrite app_nil_r. destruct s as [|x s]; [constructor|]. unfold named. rewrite <- (app_nil_r (x :: s)) at 1. apply sp_gap; [discriminate| |left; reflexivity|constructor].
    rewrite app_nil_r. exact F.
Qed.

Lemma skip_unique : forall s ps qs, skip_pieces s ps -> skip_pieces s qs -> ps = qs.
Proof.
  assert (NO : forall l t, l <> [] -> forallb num_char l = true -> opens (l ++ t) = true).
  { intros [|x l] t H1 H2; [congruence|]. unfold opens. cbn [app starts_with]. cbn [forallb] in H2. apply andb_prop in H2 as [-> _]. reflexivity. }
  assert (CO : forall b l t, of_chars (str ":alnum") b = true -> l <> [] -> forallb (of_chars (str "]")) l = true -> opens (b :: l ++ t) = true /\ num_char b = false).
  { intros b [|x l] t H1 H2 H3; [congruence|]. cbn [forallb] in H3. apply andb_prop in H3 as [H3 _]. unfold opens. cbn [app starts_with tl]. rewrite H1, H3, orb_true_r. split; [reflexivity|]. destruct b; try discriminate H1; reflexivity. }
  assert (TW : forall p (l l' t t' : bytes), forallb p l = true -> forallb p l' = true -> starts_with p t = false -> starts_with p t' = false -> l ++ t = l' ++ t' -> l = l' /\ t = t').
  { intros p l. induction l as [|x l IHl]; intros [|x' l'] t t' H1 H2 H3 H4 H5; cbn [app] in H5.
    - auto.
    - subst t. cbn [starts_with forallb] in *. rewrite H3 in H2. discriminate.
    - subst t'. cbn [starts_with forallb] in *. rewrite H4 in H1. discriminate.
    - injection H5 as -> H5. cbn [forallb] in *. apply andb_prop in H1 as [_ H1]. apply andb_prop in H2 as [_ H2]. destruct (IHl l' t t' H1 H2 H3 H4 H5) as [-> ->]. auto. }
  intros s ps qs H. revert qs. induction H as [|l t ps L1 L2 L3 H IH|b l t ps B1 B2 B3 B4 H IH|g t ps G1 G2 G3 H IH]; intros qs Hq.
  - inversion Hq as [|l' t' ps' K1 K2 K3 K4 K5|b' l' t' ps' K1 K2 K3 K4 K5 K6|g' t' ps' K1 K2 K3 K4 K5]; subst; [reflexivity| |]; exfalso; [destruct l'; [congruence|discriminate]|destruct g'; [congruence|discriminate]].
  - inversion Hq as [K0|l' t' ps' K1 K2 K3 K4 K5|b' l' t' ps' K1 K2 K3 K4 K5 K6|g' t' ps' K1 K2 K3 K4 K5]; subst.
    + exfalso. destruct l; [congruence|discriminate].
    + symmetry in K5. destruct (TW _ _ _ _ _ L2 K2 L3 K3 K5) as [-> ->]. f_equal. apply IH, K4.
    + exfalso. destruct (CO b' l' t' K1 K2 K3) as [_ K]. destruct l as [|x l]; [congruence|]. cbn [app] in K6. injection K6 as -> _. cbn [forallb] in L2. rewrite K in L2. discriminate.
    + exfalso. specialize (K2 0). rewrite K5 in K2. cbn [skipn] in K2. rewrite (NO l t L1 L2) in K2. destruct g'; [congruence|]. discriminate K2; cbn; lia.
  - inversion Hq as [K0|l' t' ps' K1 K2 K3 K4 K5|b' l' t' ps' K1 K2 K3 K4 K5 K6|g' t' ps' K1 K2 K3 K4 K5]; subst.
    + exfalso. destruct (CO b l t B1 B2 B3) as [_ K]. destruct l' as [|x l']; [congruence|]. cbn [app] in K5. injection K5 as -> _. cbn [forallb] in K2. rewrite K in K2. discriminate.
    + match goal with K : _ ++ _ = _ ++ _ |- _ => symmetry in K; rename K into K7 end. destruct (TW _ _ _ _ _ B3 K3 B4 K4 K7) as [-> ->]. f_equal. apply IH, K5.
    + exfalso. specialize (K2 0). rewrite K5 in K2. cbn [skipn] in K2. rewrite (proj1 (CO b l t B1 B2 B3)) in K2. destruct g'; [congruence|]. discriminate K2; cbn; lia.
  - inversion Hq as [K0|l' t' ps' K1 K2 K3 K4 K5|b' l' t' ps' K1 K2 K3 K4 K5 K6|g' t' ps' K1 K2 K3 K4 K5]; subst.
    + exfalso. destruct g; [congruence|discriminate].
    + exfalso. specialize (G2 0). rewrite <- K5 in G2. cbn [skipn] in G2. rewrite (NO l' t' K1 K2) in G2. destruct g; [congruence|]. discriminate G2; cbn; lia.
    + exfalso. specialize (G2 0). rewrite <- K6 in G2. cbn [skipn] in G2. rewrite (proj1 (CO b' l' t' K1 K2 K3)) in G2. destruct g; [congruence|]. discriminate G2; cbn; lia.
    + assert (Hlen : length g = length g').
      { destruct (Nat.lt_trichotomy (length g) (length g')) as [C|[C|C]]; [|exact C|]; exfalso.
        - specialize (K2 _ C). rewrite K5, skipn_app, skipn_all, Nat.sub_diag in K2. cbn [app skipn] in K2. destruct G3 as [->|G3]; [|congruence].
          apply (f_equal (@length byte)) in K5. rewrite !app_length in K5. cbn in K5. lia.
        - specialize (G2 _ C). rewrite <- K5, skipn_app, skipn_all, Nat.sub_diag in G2. cbn [app skipn] in G2. destruct K3 as [->|K3]; [|congruence].
          apply (f_equal (@length byte)) in K5. rewrite !app_length in K5. cbn in K5. lia. }
      assert (g = g' /\ t = t') as [-> ->]; [clear IH|f_equal; apply IH, K4].
      symmetry in K5. revert Hlen K5. clear. revert g'. induction g as [|x g IH]; intros [|y g'] Hl K; cbn in *; try discriminate; [auto|]. injection K as -> K. injection Hl as Hl. destruct (IH _ Hl K) as [-> ->]. auto.
Qed.

Section Tagger.
  Variable E : env.
  Hypothesis HE : ar E = ieee.
  Variable em : Z -> rune -> option (f64 E).
  Hypothesis Hem : emit_ok em.
  Let tb := builtin em.

  Lemma group_valid : forall t g, valid t -> In g (groups (fun u : rune * bytes => is_han E (fst u)) (units t)) -> valid (text (snd g)).
  Proof.
    intros t g Hv Hg. destruct Hv as (rs & Hr & ->). exists (map fst (snd g)).
    assert (U : Forall (fun u : rune * bytes => scalar (fst u) = true /\ snd u = enc (fst u)) (units (concat (map enc rs)))).
    { rewrite (units_encs Hr). clear -Hr. induction Hr; cbn [map]; constructor; auto. }
    pose proof (groups_concat (fun u : rune * bytes => is_han E (fst u)) (units (concat (map enc rs)))) as Hc. apply in_split in Hg as (g1 & g2 & Hg). rewrite Hg, map_app, concat_app in Hc. cbn [map concat] in Hc.
    rewrite <- Hc in U. apply Forall_app in U as [_ U]. apply Forall_app in U as [U _]. unfold text. clear Hc. induction U as [|u us [U1 U2] U IH]; [split; [constructor|reflexivity]|].
    destruct IH as [I1 I2]; cbn [map concat]; split; [constructor; assumption|rewrite U2, I2; reflexivity].
  Qed.
  Lemma tagger_ok : forall od t, (forall i, orders_ok (od i)) -> valid t ->
    exists wss, cut_detail tb od t = Ok (concat wss) /\ Forall2 (tagger_block tb) (groups (is_han E) (runes_of t)) wss.
  Proof.
    intros od t Ho Hv. unfold cut_detail.
    destruct (@blocks_ok (is_han E) (fun ib : nat * bytes => let (i, blk) := ib in
      if matches (reg_run (is_han E)) blk then detail_internal tb (od i) blk
      else do xs <- split_by re_skip_detail blk ; Ok (flat_map detail_other xs)) (tagger_block tb)) with (s := t) as (blks & wss & B1 & B2 & B3).
    - intro i. reflexivity.
    - intros g i Hg. destruct (group_units Hg) as (G1 & G2 & G3 & G4). rewrite G3. unfold tagger_block. cbn [fst snd]. destruct (fst g) eqn:Ef.
      + assert (Hne : text (snd g) <> []) by (intro K; rewrite K in G3; discriminate G3). destruct (@detail_internal_ok E HE em Hem (od i) _ (Ho i) Hne) as (path & P1 & _ & P3). rewrite G2 in *.
        eexists. split; [exact P3|]. exists path, (od i). auto.
      + destruct skip_detail_wf as [W1 W2]. rewrite (split_rec_ok _ W1 W2). cbn [bind]. eexists. split; [reflexivity|].
        exists (flat_map named (split_rec (length (text (snd g))) re_skip_detail (text (snd g)))). split.
        * assert (Ht : string_of_runes (map fst (snd g)) = text (snd g)). { rewrite <- G2. apply roundtrip_iff. apply (group_valid Hv Hg). }
          rewrite Ht. apply skip_rec. lia.
        * fold re_skip_detail. generalize (split_rec (length (text (snd g))) re_skip_detail (text (snd g))) as xs. induction xs as [|x xs IHx]; [reflexivity|]. cbn [flat_map]. rewrite map_app, IHx, detail_other_eq. reflexivity.
    - rewrite B1. cbn [bind]. exists wss. auto.
  Qed.
End Tagger.
