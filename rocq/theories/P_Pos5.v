(** Package pos: Cut, continued. *)
From Verif Require Import S_Pos P_Utf8 P_Utf8b P_Dict P_Seg P_Seg2 P_Hist P_Hmm P_Laws64 P_Dag P_Dag2 P_Pos P_Pos2 P_Pos3 P_PosTab P_Pos4 Ieee.
Set Implicit Arguments. Unset Strict Implicit.
Local Open Scope lit_scope.

(** ** Blocks *)
Section Groups.
  Variable A : Type.
  Variable p : A -> bool.

  Lemma groups_app : forall b u v, u <> [] -> Forall (fun a => p a = b) u -> match v with a :: _ => p a = negb b | [] => True end ->
    groups p (u ++ v) = (b, u) :: groups p v.
  Proof.
    intros b. induction u as [|a u IH]; intros v Hne Hu Hv; [congruence|]. inversion_clear Hu. cbn [app groups]. destruct u as [|a2 u].
    - cbn [app]. assert (G : match groups p v with (c, _) :: _ => c = negb b | [] => v = [] end).
      { clear -Hv. destruct v as [|x v]; [reflexivity|]. cbn [groups]. destruct (groups p v) as [|[c r] g]; [exact Hv|]. destruct (Bool.eqb (p x) c) eqn:Ee; [apply eqb_prop in Ee; congruence|exact Hv]. }
      destruct (groups p v) as [|[c r] g]; [rewrite H; reflexivity|]. rewrite G, H. destruct b; reflexivity.
    - rewrite IH; [|discriminate|assumption|exact Hv]. rewrite H, eqb_reflx. reflexivity.
  Qed.
  Lemma groups_concat : forall l, concat (map snd (groups p l)) = l.
  Proof.
    induction l as [|a l IH]; [reflexivity|]. cbn [groups]. destruct (groups p l) as [|[b r] g]; [cbn in *; rewrite <- IH; reflexivity|].
    destruct (Bool.eqb (p a) b); cbn [map snd concat app] in *; rewrite IH; reflexivity.
  Qed.
  Lemma groups_flag : forall l, Forall (fun g => snd g <> [] /\ Forall (fun a => p a = fst g) (snd g)) (groups p l).
  Proof.
    induction l as [|a l IH]; [constructor|]. cbn [groups]. destruct (groups p l) as [|[b r] g]; [repeat constructor; discriminate|].
    inversion_clear IH. destruct H as [H1 H2]. cbn [fst snd] in *. destruct (Bool.eqb (p a) b) eqn:Ee.
    - apply eqb_prop in Ee. constructor; [|exact H0]. cbn. split; [discriminate|constructor; assumption].
    - constructor; [cbn; split; [discriminate|auto]|]. constructor; [cbn; auto|exact H0].
  Qed.
End Groups.

Lemma groups_map : forall A B (f : A -> B) p l, groups p (map f l) = map (fun g => (fst g, map f (snd g))) (groups (fun a => p (f a)) l).
Proof.
  intros A B f p. induction l as [|a l IH]; [reflexivity|]. cbn [map groups]. rewrite IH. destruct (groups (fun a => p (f a)) l) as [|[b r] g]; [reflexivity|].
  cbn [map fst snd]. destruct (Bool.eqb (p (f a)) b); reflexivity.
Qed.

Lemma take_while_all : forall A (p : A -> bool) l, Forall (fun a => p a = true) (take_while p l).
Proof. intros A p. induction l as [|a l IH]; [constructor|]. cbn. destruct (p a) eqn:Ea; constructor; auto. Qed.
Lemma take_while_skip : forall A (p : A -> bool) l, take_while p l ++ skipn (length (take_while p l)) l = l /\ match skipn (length (take_while p l)) l with a :: _ => p a = false | [] => True end.
Proof. intros A p. induction l as [|a l [IH1 IH2]]; [split; [reflexivity|exact I]|]. cbn. destruct (p a) eqn:Ea; cbn; [split; [congruence|exact IH2]|auto]. Qed.

Section Blocks.
  Variable p : rune -> bool.
  Let pu (u : rune * bytes) : bool := p (fst u).
  Definition text (us : list (rune * bytes)) : bytes := concat (map snd us).

  Lemma run_units : forall s, exists u1 u2 u3, units s = u1 ++ u2 ++ u3 /\ Forall (fun u => pu u = false) u1 /\ Forall (fun u => pu u = true) u2 /\
    match u3 with u :: _ => pu u = false | [] => True end /\ (u2 = [] -> u3 = []) /\
    reg_run p s = match u2 with [] => None | _ => Some (length (text u1), length (text u1) + length (text u2)) end.
  Proof.
    intro s. unfold reg_run. set (us := units s). set (u1 := take_while (fun u : rune * bytes => negb (p (fst u))) us).
    set (r := skipn (length u1) us). set (u2 := take_while (fun u : rune * bytes => p (fst u)) r). exists u1, u2, (skipn (length u2) r).
    destruct (take_while_skip (fun u : rune * bytes => negb (p (fst u))) us) as [A1 A2]. fold u1 r in A1, A2.
    destruct (take_while_skip (fun u : rune * bytes => p (fst u)) r) as [B1 B2]. fold u2 in B1, B2.
    split; [rewrite B1; symmetry; exact A1|]. split.
    { eapply Forall_impl; [|apply take_while_all]. cbn beta. intros u Hu. unfold pu. destruct (p (fst u)); [discriminate|reflexivity]. }
    split; [apply take_while_all|]. split; [exact B2|]. split.
    - intro H2. unfold u2 in *. destruct r as [|u r']; [reflexivity|]. cbn [take_while] in H2. rewrite <- (negb_involutive (p (fst u))), A2 in H2. discriminate.
    - reflexivity.
  Qed.
End Blocks.

Fixpoint split_rec (fuel : nat) (m : matcher) (r : bytes) : list bytes :=
  match fuel with
  | O => [r]
  | S f => match m r with None => [r] | Some (a, b) => firstn a r :: slice r a b :: split_rec f m (skipn b r) end
  end.
Lemma split_rec_ok : forall m s, wf_matcher m -> nonempty_matcher m -> split_by m s = Ok (split_rec (length s) m s).
Proof.
  intros m s Hw Hn. unfold split_by. destruct (find_all_ok Hw Hn (length s) (s := s) (off := 0)) as [H1 H2]; [lia|]. cbn [skipn] in H1, H2.
  rewrite split_pieces; auto; [|lia]. f_equal. clear H1 H2.
  assert (G : forall fuel off, off <= length s -> pieces s off (find_all fuel m (skipn off s) off) = split_rec fuel m (skipn off s)).
  { induction fuel as [|fuel IH]; intros off Ho; cbn [find_all split_rec]; [reflexivity|]. destruct (m (skipn off s)) as [[a b]|] eqn:Em; [|reflexivity]. cbn [pieces].
    pose proof (Hw _ _ _ Em) as W. rewrite skipn_length in W. rewrite slice_skipn. f_equal. f_equal; [unfold slice; rewrite skipn_skipn; f_equal; [lia|f_equal; lia]|].
    rewrite skipn_skipn. replace (b + off) with (off + b) by lia. apply IH. lia. }
  exact (G (length s) 0 (Nat.le_0_l _)).
Qed.

Lemma text_app : forall u v, text (u ++ v) = text u ++ text v.
Proof. intros. unfold text. rewrite map_app, concat_app. reflexivity. Qed.

Section Blocks2.
  Variable p : rune -> bool.
  Variable F : nat * bytes -> res (list (bytes * bytes)).
  Variable R : bool * list rune -> list (bytes * bytes) -> Prop.
  Hypothesis Fnil : forall i, F (i, []) = Ok [].

  Lemma blocks_ok : forall s, (forall g i, In g (groups (fun u => p (fst u)) (units s)) -> exists ws, F (i, text (snd g)) = Ok ws /\ R (fst g, map fst (snd g)) ws) ->
    exists blks wss, split_by (reg_run p) s = Ok blks /\ concat_res (map F (combine (seq 0 (length blks)) blks)) = Ok (concat wss) /\ Forall2 R (groups p (runes_of s)) wss.
  Proof.
    intros s HF. destruct (run_wf p) as [W1 W2]. exists (split_rec (length s) (reg_run p) s).
    enough (G : forall fuel k r, length r <= fuel -> (forall g i, In g (groups (fun u => p (fst u)) (units r)) -> exists ws, F (i, text (snd g)) = Ok ws /\ R (fst g, map fst (snd g)) ws) ->
      exists wss, concat_res (map F (combine (seq k (length (split_rec fuel (reg_run p) r))) (split_rec fuel (reg_run p) r))) = Ok (concat wss) /\ Forall2 R (groups p (runes_of r)) wss).
    { destruct (G (length s) 0 s) as (wss & G1 & G2); [lia|exact HF|]. exists wss. split; [apply split_rec_ok; assumption|auto]. }
    clear s HF. intros fuel. induction fuel as [|fuel IH]; intros k r Hl HF.
    - destruct r; [|cbn in Hl; lia]. exists []. cbn [split_rec length seq combine map concat_res]. rewrite Fnil. cbn. split; [reflexivity|constructor].
    - cbn [split_rec]. destruct (run_units p r) as (u1 & u2 & u3 & U1 & U2 & U3 & U4 & U5 & U6). unfold runes_of. rewrite groups_map, U1. rewrite U1 in HF. rewrite U6.
      assert (Hr : r = text u1 ++ text u2 ++ text u3) by (rewrite <- (units_concat r), U1, <- !text_app; reflexivity).
      assert (Hg1 : groups (fun u : rune * bytes => p (fst u)) (u1 ++ u2 ++ u3) = match u1 with [] => [] | _ => [(false, u1)] end ++ groups (fun u : rune * bytes => p (fst u)) (u2 ++ u3)).
      { destruct u1 as [|x u1]; [reflexivity|]. rewrite (groups_app (p := fun u : rune * bytes => p (fst u)) (b := false)); [reflexivity|discriminate|exact U2|].
        destruct u2 as [|y u2]; [rewrite U5 by reflexivity; exact I|]. cbn [app negb]. inversion_clear U3. assumption. }
      assert (exists ws1, F (k, text u1) = Ok ws1 /\ match u1 with [] => ws1 = [] | _ => R (false, map fst u1) ws1 end) as (ws1 & A1 & A2).
      { destruct u1 as [|x u1]; [exists []; split; [apply Fnil|reflexivity]|]. apply (HF (false, x :: u1) k). rewrite Hg1. left. reflexivity. }
      destruct u2 as [|y u2].
      + rewrite U5 in * by reflexivity. cbn [app] in Hg1. cbn [app] in Hr, HF. cbn [length seq combine map concat_res]. rewrite Hr. change (text []) with (@nil byte). rewrite !app_nil_r, A1. cbn [bind].
        exists (match u1 with [] => [] | _ => [ws1] end). rewrite app_nil_r in Hg1. rewrite Hg1. cbn [app groups]. rewrite !app_nil_r. destruct u1 as [|x u1]; [subst ws1; split; [reflexivity|constructor]|].
        cbn [map concat]. rewrite app_nil_r. split; [reflexivity|]. constructor; [exact A2|constructor].
      + cbn [length seq combine map concat_res].
        assert (Hg2 : groups (fun u : rune * bytes => p (fst u)) ((y :: u2) ++ u3) = (true, y :: u2) :: groups (fun u : rune * bytes => p (fst u)) u3) by (apply groups_app; [discriminate|exact U3|exact U4]).
        rewrite Hg2 in Hg1. rewrite Hg1 in HF |- *. set (v := y :: u2) in *.
        assert (Hf1 : firstn (length (text u1)) r = text u1) by (rewrite Hr, firstn_app, Nat.sub_diag, firstn_all, firstn_O, app_nil_r; reflexivity).
        assert (Hs2 : skipn (length (text u1) + length (text v)) r = text u3) by (rewrite Hr, app_assoc, <- app_length, skipn_app, skipn_all, Nat.sub_diag; reflexivity).
        assert (Hf2 : slice r (length (text u1)) (length (text u1) + length (text v)) = text v).
        { unfold slice. rewrite Hr, skipn_app, skipn_all, Nat.sub_diag. cbn [skipn app]. replace (length (text u1) + length (text v) - length (text u1)) with (length (text v)) by lia.
          rewrite firstn_app, Nat.sub_diag, firstn_all, firstn_O, app_nil_r. reflexivity. }
        rewrite Hf1, Hf2, Hs2, A1. cbn [bind].
        destruct (HF (true, v) (S k)) as (ws2 & B1 & B2); [apply in_or_app; right; left; reflexivity|]. cbn [fst snd] in B1, B2. rewrite B1. cbn [bind].
        assert (Hu3 : units (text u3) = u3). { rewrite app_assoc in U1. exact (proj2 (units_app U1)). }
        destruct (IH (S (S k)) (text u3)) as (wss & C1 & C2).
        { assert (0 < length (text v)). { assert (Hin : In y (units r)) by (rewrite U1; apply in_or_app; right; left; reflexivity). pose proof (units_nonempty r) as Hne. rewrite Forall_forall in Hne. specialize (Hne y Hin).
            unfold v, text. cbn [map concat]. rewrite app_length. destruct (snd y); [congruence|cbn; lia]. }
          assert (length r = length (text u1) + (length (text v) + length (text u3))) by (rewrite Hr, !app_length; reflexivity). lia. }
        { rewrite Hu3. intros g i Hg. apply HF. apply in_or_app. right. right. exact Hg. }
        rewrite C1. cbn [bind]. unfold runes_of in C2. rewrite groups_map, Hu3 in C2. exists (match u1 with [] => [] | _ => [ws1] end ++ ws2 :: wss). split.
        * rewrite concat_app. cbn [concat]. destruct u1; [subst ws1|]; cbn [concat app]; rewrite ?app_nil_r; reflexivity.
        * rewrite map_app. apply Forall2_app; [destruct u1; [constructor|repeat constructor; exact A2]|]. cbn [map fst snd]. constructor; [exact B2|exact C2].
  Qed.
End Blocks2.

(** ** Characters outside the class *)
Lemma ascii_rune : forall s b, In b s -> (bz b < 128)%Z -> In (bz b) (runes_of s).
Proof.
  intros s b Hin Hb. apply in_split in Hin as (x & y & ->). unfold runes_of. rewrite units_sync by (apply ascii_sync; exact Hb). rewrite (units_ascii y Hb), map_app. apply in_or_app. right. left. reflexivity.
Qed.

Lemma units_single : forall E x u, Forall (fun r => han_internal E r = false) (runes_of x) -> In u (units x) -> re_num (string_of_rune (fst u)) = false.
Proof.
  intros E x u H Hin. assert (Hu : han_internal E (fst u) = false) by (rewrite Forall_forall in H; apply H; unfold runes_of; apply in_map; exact Hin).
  assert (Hsc : scalar (fst u) = true) by (pose proof (runes_scalar x) as Hs; rewrite Forall_forall in Hs; apply Hs; unfold runes_of; apply in_map; exact Hin).
  unfold re_num, string_of_rune. rewrite Hsc. destruct (Z.ltb_spec (fst u) 128).
  - unfold enc. destruct (Z.ltb_spec (fst u) 128); [|lia]. cbn [existsb]. unfold han_internal in Hu. apply orb_false_elim in Hu as [Hu Hx]. apply orb_false_elim in Hu as [_ Ha].
    unfold scalar, in_range in Hsc. unfold is_digit_b. rewrite bz_zb by lia. unfold ascii_alnum in Ha. rewrite orb_false_r. apply orb_false_intro; [destruct (ascii_digit (fst u)); [|reflexivity]; rewrite ?orb_true_r in Ha; discriminate|].
    destruct (Byte.eqb (zb (fst u)) x2e) eqn:Eb; [|reflexivity]. apply Byte.byte_dec_bl in Eb. apply (f_equal bz) in Eb. rewrite bz_zb in Eb by lia. rewrite Eb in Hx. discriminate.
  - pose proof (enc_high Hsc H0) as Hh. induction Hh as [|b l Hb Hl IH]; [reflexivity|]. cbn [existsb]. rewrite IH, orb_false_r.
    unfold is_digit_b, ascii_digit, in_range. destruct (Byte.eqb b x2e) eqn:Eb; [apply Byte.byte_dec_bl in Eb; subst b; cbn in Hb; lia|]. lia.
Qed.

Lemma other_chars : forall E x, Forall (fun r => han_internal E r = false) (runes_of x) -> pos_chars x = map (fun r => (string_of_rune r, str "x")) (runes_of x).
Proof.
  intros E x H. unfold pos_chars. apply map_ext_in. intros r Hr. cbv zeta. pose proof Hr as Hr'. unfold runes_of in Hr'. apply in_map_iff in Hr' as (u & <- & Hu). rewrite (units_single H Hu).
  assert (He : re_eng x = false).
  { unfold re_eng. apply not_true_is_false. intro Hx. apply existsb_exists in Hx as (b & Hb & Ha). pose proof (ascii_rune Hb (alnum_ascii Ha)) as Hin. rewrite Forall_forall in H. specialize (H _ Hin).
    unfold han_internal in H. unfold is_alnum_b in Ha. rewrite Ha, orb_true_r in H. discriminate. }
  rewrite He. reflexivity.
Qed.

Definition ws_rune_b (r : rune) : bool := existsb (Z.eqb r) [9; 10; 12; 13; 32]%Z.
Lemma seps_app : forall u v, Forall (fun r => ws_rune_b r = false) u -> seps (u ++ v) = map string_of_rune u ++ seps v.
Proof.
  induction u as [|a u IH]; intros v H; [reflexivity|]. inversion_clear H. cbn [app map]. rewrite <- IH by assumption. cbn [seps].
  assert (Ha : (a =? 13)%Z = false) by (destruct (Z.eqb_spec a 13); [subst; discriminate|reflexivity]). rewrite Ha. cbn [andb]. destruct (u ++ v); reflexivity.
Qed.

Lemma is_ws_rune : forall b, is_ws b = ws_rune_b (bz b).
Proof. destruct b; reflexivity. Qed.
Lemma no_ws_runes : forall s, Forall (fun b => is_ws b = false) s -> Forall (fun r => ws_rune_b r = false) (runes_of s).
Proof.
  intros s H. apply Forall_forall. intros r Hr. destruct (ws_rune_b r) eqn:Ew; [|reflexivity]. unfold runes_of in Hr. apply in_map_iff in Hr as (u & <- & Hu).
  pose proof (units_decode s) as Hd. rewrite Forall_forall in Hd. specialize (Hd u Hu).
  assert (Hsc : (0 <= fst u < 128)%Z). { unfold ws_rune_b in Ew. cbn [existsb] in Ew. lia. }
  assert (Hsub : incl (snd u) s). { intros b Hb. rewrite <- (units_concat s). apply in_concat. exists (snd u). split; [apply in_map; exact Hu|exact Hb]. }
  pose proof (units_nonempty s) as Hne. rewrite Forall_forall in Hne. specialize (Hne u Hu). cbn beta in Hne.
  assert (Hb : exists b l, snd u = b :: l /\ bz b = fst u).
  { destruct (snd u) as [|b l] eqn:Es; [congruence|]. exists b, l. split; [reflexivity|]. destruct (decode_cases (s := b :: l) ltac:(discriminate) Hd) as [[H1 H2]|(H1 & _)]; [|exfalso; rewrite H1 in Hsc; unfold RuneError in Hsc; lia].
    unfold enc in H2. destruct (Z.ltb_spec (fst u) 128); [|lia]. rewrite firstn_all in H2. injection H2 as -> ->. apply bz_zb. lia. }
  destruct Hb as (b & l & Es & Eb). rewrite Forall_forall in H. specialize (H b). rewrite is_ws_rune, Eb, Ew in H. rewrite H; [reflexivity|]. apply Hsub. rewrite Es. left. reflexivity.
Qed.

Lemma first_ws : forall s i, match first_at ws_at s i with
  | None => Forall (fun b => is_ws b = false) s
  | Some (a, b) => exists pre w rest, s = pre ++ w ++ rest /\ Forall (fun b => is_ws b = false) pre /\ a = i + length pre /\ b = a + length w /\
      (w = [x0d; x0a] \/ exists c, w = [c] /\ is_ws c = true /\ (c = x0d -> match rest with y :: _ => y <> x0a | [] => True end)) end.
Proof.
  induction s as [|c s IH]; intro i; [constructor|]. cbn [first_at]. unfold ws_at at 1. destruct (Byte.eqb c x0d && match s with y :: _ => Byte.eqb y x0a | [] => false end) eqn:E1.
  - apply andb_prop in E1 as [E1 E2]. apply Byte.byte_dec_bl in E1. destruct s as [|y s]; [discriminate|]. apply Byte.byte_dec_bl in E2. subst.
    exists [], [x0d; x0a], s. cbn [app length]. rewrite Nat.add_0_r. repeat split; auto.
  - destruct (is_ws c) eqn:E2.
    + exists [], [c], s. cbn [app length]. rewrite Nat.add_0_r. repeat split; auto. right. exists c. repeat split; auto. intros ->. destruct s as [|y s]; [exact I|].
      intros ->. discriminate.
    + specialize (IH (S i)). destruct (first_at ws_at s (S i)) as [[a b]|]; [|constructor; assumption].
      destruct IH as (pre & w & rest & -> & H2 & H3 & H4 & H5). exists (c :: pre), w, rest. cbn [app length]. repeat split; auto. lia.
Qed.

Lemma runes_app_l : forall x y, Forall (fun b => (bz b < 128)%Z) x -> runes_of (x ++ y) = map bz x ++ runes_of y.
Proof.
  intros x y H. unfold runes_of. induction H as [|b x Hb H IH]; [reflexivity|]. cbn [app map]. rewrite (units_ascii _ Hb). cbn [map fst]. rewrite IH. reflexivity.
Qed.
Lemma runes_sync : forall x y, sync y -> runes_of (x ++ y) = runes_of x ++ runes_of y.
Proof. intros x y H. unfold runes_of. rewrite (units_sync _ H), map_app. reflexivity. Qed.

Lemma string_zb : forall b, (bz b < 128)%Z -> string_of_rune (bz b) = [b].
Proof.
  intros b H. unfold string_of_rune. assert (Hs : scalar (bz b) = true) by (unfold scalar, in_range; pose proof (bz_range b); lia). rewrite Hs. unfold enc.
  destruct (Z.ltb_spec (bz b) 128); [|lia]. rewrite zb_bz. reflexivity.
Qed.

Section Others.
  Variable E : env.
  Definition other_words (x : bytes) : list (bytes * bytes) := if matches re_skip_internal x then [(x, str "x")] else pos_chars x.

  Lemma no_ws_match : forall s, Forall (fun b => is_ws b = false) s -> matches re_skip_internal s = false.
  Proof.
    intros s H. unfold matches, re_skip_internal. pose proof (first_ws s 0) as F. destruct (first_at ws_at s 0) as [[a b]|]; [|reflexivity].
    destruct F as (pre & w & rest & -> & _ & _ & _ & Hw). apply Forall_app in H as [_ H]. apply Forall_app in H as [H _]. destruct Hw as [->|(c & -> & Hc & _)]; inversion_clear H; [discriminate|congruence].
  Qed.
  Lemma no_ws_words : forall s, Forall (fun b => is_ws b = false) s -> Forall (fun r => han_internal E r = false) (runes_of s) ->
    other_words s = map (fun r => (string_of_rune r, str "x")) (runes_of s).
  Proof. intros s H1 H2. unfold other_words. rewrite (no_ws_match H1). apply (other_chars H2). Qed.

  Lemma other_block : forall fuel s, length s <= fuel -> Forall (fun r => han_internal E r = false) (runes_of s) ->
    flat_map other_words (split_rec fuel re_skip_internal s) = map (fun w => (w, str "x")) (seps (runes_of s)).
  Proof.
    induction fuel as [|fuel IH]; intros s Hl Hh; [destruct s; [reflexivity|cbn in Hl; lia]|]. cbn [split_rec]. unfold re_skip_internal at 1. pose proof (first_ws s 0) as F.
    destruct (first_at ws_at s 0) as [[a b]|].
    - destruct F as (pre & w & rest & Hs & F1 & F2 & F3 & F4). cbn [plus] in F2. subst a b.
      assert (Hw : Forall (fun b => (bz b < 128)%Z) w /\ w <> []). { destruct F4 as [->|(c & -> & Hc & _)]; split; repeat constructor; try discriminate. destruct c; try discriminate Hc; reflexivity. }
      destruct Hw as [Hw Hne]. assert (Hsy : sync (w ++ rest)) by (destruct w; [congruence|]; inversion_clear Hw; apply ascii_sync; assumption).
      assert (Hr : runes_of s = runes_of pre ++ map bz w ++ runes_of rest) by (rewrite Hs, (runes_sync _ Hsy), (runes_app_l _ Hw); reflexivity).
      assert (Hlw : length s = length pre + (length w + length rest)) by (rewrite Hs, !app_length; reflexivity).
      assert (Hlw0 : 0 < length w) by (destruct w; [congruence|cbn; lia]).
      assert (E1 : firstn (length pre) s = pre) by (rewrite Hs, firstn_app, Nat.sub_diag, firstn_all, firstn_O, app_nil_r; reflexivity).
      assert (E2 : slice s (length pre) (length pre + length w) = w).
      { unfold slice. rewrite Hs, skipn_app, skipn_all, Nat.sub_diag. cbn [skipn app]. replace (length pre + length w - length pre) with (length w) by lia.
        rewrite firstn_app, Nat.sub_diag, firstn_all, firstn_O, app_nil_r. reflexivity. }
      assert (E3 : skipn (length pre + length w) s = rest) by (rewrite Hs, app_assoc, <- app_length, skipn_app, skipn_all, Nat.sub_diag; reflexivity).
      rewrite Hr in *. apply Forall_app in Hh as [Hh1 Hh]. apply Forall_app in Hh as [_ Hh2].
      rewrite E1, E2, E3. cbn [flat_map]. rewrite (no_ws_words F1 Hh1), (IH rest) by (try lia; exact Hh2). rewrite (seps_app _ (no_ws_runes F1)), map_app, map_map. f_equal.
      assert (Em : other_words w = [(w, str "x")]). { unfold other_words. destruct F4 as [->|(c & -> & Hc & _)]; [reflexivity|]. destruct c; try discriminate Hc; reflexivity. }
      rewrite Em. cbn [app]. destruct F4 as [->|(c & -> & Hc & Hn)]; [reflexivity|]. cbn [map app]. inversion_clear Hw. cbn [seps].
      destruct (runes_of rest) as [|y ys] eqn:Ey; [cbn [seps map]; rewrite (string_zb H); reflexivity|].
      assert (Hcr : ((bz c =? 13) && (y =? 10))%Z = false).
      { destruct (Z.eqb_spec (bz c) 13) as [Ec|]; [|reflexivity]. destruct (Z.eqb_spec y 10) as [->|]; [|reflexivity]. exfalso.
        assert (c = x0d) by (destruct c; try discriminate Ec; reflexivity). specialize (Hn H1). destruct rest as [|z rest]; [discriminate|].
        unfold runes_of in Ey. rewrite units_cons in Ey by discriminate. destruct (decode_rune (z :: rest)) as [r n] eqn:Ed. cbn [map fst snd] in Ey. injection Ey as -> _.
        destruct (decode_cases (s := z :: rest) ltac:(discriminate) Ed) as [[_ K]|(K & _)]; [|discriminate]. change (enc 10) with [x0a] in K. destruct n; [discriminate|]. injection K as K _. congruence. }
      rewrite Hcr. cbn [map]. rewrite (string_zb H). reflexivity.
    - cbn [flat_map]. rewrite app_nil_r, (no_ws_words F Hh). rewrite <- (app_nil_r (runes_of s)) at 2. rewrite (seps_app _ (no_ws_runes F)). cbn [seps]. rewrite app_nil_r, map_map. reflexivity.
  Qed.

  Lemma seps_concat : forall n rs, length rs <= n -> concat (seps rs) = string_of_runes rs.
  Proof.
    induction n as [|n IH]; intros [|a [|b t]] H; cbn [length] in H; try lia; try reflexivity. cbn [seps]. destruct ((a =? 13) && (b =? 10))%Z.
    - cbn [concat]. rewrite IH by lia. rewrite <- (string_app [a; b] t). reflexivity.
    - change (concat (string_of_rune a :: seps (b :: t)) = string_of_runes (a :: b :: t)). cbn [concat]. rewrite IH by (cbn; lia). reflexivity.
  Qed.
  Lemma seps_ne : forall n rs, length rs <= n -> Forall (fun w => w <> []) (seps rs).
  Proof.
    assert (Hr : forall a, string_of_rune a <> []) by (intros a; pose proof (@string_nonempty [a] ltac:(discriminate)) as H; unfold string_of_runes in H; cbn in H; rewrite app_nil_r in H; exact H).
    induction n as [|n IH]; intros [|a [|b t]] H; cbn [length] in H; try lia; try (repeat constructor; apply Hr). cbn [seps]. destruct ((a =? 13) && (b =? 10))%Z.
    - constructor; [apply string_nonempty; discriminate|apply IH; lia].
    - change (Forall (fun w => w <> []) (string_of_rune a :: seps (b :: t))). constructor; [apply Hr|apply IH; cbn; lia].
  Qed.
End Others.

(** ** Cut *)
Section CutAll.
  Variable E : env.
  Variable c0 : cfg.
  Variable d : dict E.
  Hypothesis Hi : dict_inv c0 d.
  Variable tb : ptab E.

  Definition plain_raw (g : bool * list rune) (ws : list (bytes * bytes)) : Prop :=
    if fst g then exists tl ps, routes_ok d (lit64 E 0 0) (snd g) tl /\ follows (snd g) tl 0 ps /\ ws = map (plain_group d) (runs eng ps)
    else ws = map (fun w => (w, str "x")) (seps (snd g)).
  Definition hmm_raw (g : bool * list rune) (ws : list (bytes * bytes)) : Prop :=
    if fst g then exists tl ps wss, routes_ok d (lit64 E 0 0) (snd g) tl /\ follows (snd g) tl 0 ps /\ ws = concat wss /\ Forall2 (hmm_group d tb) (runs single ps) wss
    else ws = map (fun w => (w, str "x")) (seps (snd g)).

  Lemma group_units : forall p s g, In g (groups (fun u : rune * bytes => p (fst u)) (units s)) ->
    units (text (snd g)) = snd g /\ runes_of (text (snd g)) = map fst (snd g) /\ matches (reg_run p) (text (snd g)) = fst g /\ Forall (fun r => p r = fst g) (map fst (snd g)).
  Proof.
    intros p s g Hg. assert (Hu : units (text (snd g)) = snd g).
    { pose proof (groups_concat (fun u : rune * bytes => p (fst u)) (units s)) as Hc. apply in_split in Hg as (g1 & g2 & Hg). rewrite Hg, map_app, concat_app in Hc. cbn [map concat] in Hc.
      symmetry in Hc. destruct (units_app Hc) as [_ H2]. assert (H3 : units (concat (map snd (snd g ++ concat (map snd g2)))) = snd g ++ concat (map snd g2)) by exact H2.
      exact (proj1 (units_app H3)). }
    pose proof (groups_flag (fun u : rune * bytes => p (fst u)) (units s)) as Hf. rewrite Forall_forall in Hf. destruct (Hf g Hg) as [F1 F2].
    split; [exact Hu|]. split; [unfold runes_of; rewrite Hu; reflexivity|]. rewrite run_matches. unfold runes_of. rewrite Hu. split; [|apply Forall_map; exact F2].
    destruct g as [b us]. cbn [fst snd] in *. destruct us as [|u us]; [congruence|]. inversion_clear F2. cbn [map existsb]. rewrite H. destruct b; [reflexivity|]. cbn [orb].
    clear -H0. induction H0 as [|v us Hv H IH]; [reflexivity|]. cbn [map existsb]. rewrite Hv. exact IH.
  Qed.

  Lemma other_ok : forall s, Forall (fun r => han_internal E r = false) (runes_of s) ->
    (do xs <- split_by re_skip_internal s ; Ok (flat_map (fun x => if matches re_skip_internal x then [(x, str "x")] else pos_chars x) xs)) =
    Ok (map (fun w => (w, str "x")) (seps (runes_of s))).
  Proof.
    intros s H. destruct ws_wf as [W1 W2]. rewrite (split_rec_ok _ W1 W2). cbn [bind]. f_equal. apply (@other_block E); [lia|exact H].
  Qed.

  Lemma pos_plain : forall od s, exists wss, pos_cut d tb od s false = Ok (concat wss) /\ Forall2 plain_raw (groups (han_internal E) (runes_of s)) wss.
  Proof.
    intros od s. unfold pos_cut. match goal with |- context [map ?F (combine _ _)] => set (FF := F) end.
    destruct (@blocks_ok (han_internal E) FF plain_raw) with (s := s) as (blks & wss & B1 & B2 & B3).
    - intro i. unfold FF. reflexivity.
    - intros g i Hg. destruct (group_units Hg) as (G1 & G2 & G3 & G4). unfold FF, plain_raw. cbn [fst snd]. rewrite G3. destruct (fst g).
      + destruct (pos_nohmm_cut Hi (text (snd g))) as (tl & ps & P1 & P2 & P3). rewrite G2 in *. eauto 8.
      + rewrite other_ok; rewrite G2; [|exact G4]. eauto.
    - rewrite B1. cbn [bind]. exists wss. auto.
  Qed.
End CutAll.

Section CutHmm.
  Variable E : env.
  Variable c0 : cfg.
  Variable d : dict E.
  Hypothesis Hi : dict_inv c0 d.
  Hypothesis HE : ar E = ieee.
  Variable em : Z -> rune -> option (f64 E).
  Hypothesis Hem : emit_ok em.
  Let tb := builtin em.

  Lemma pos_hmm : forall od s, (forall i j k, orders_ok (od i j k)) -> exists wss, pos_cut d tb od s true = Ok (concat wss) /\ Forall2 (hmm_raw d tb) (groups (han_internal E) (runes_of s)) wss.
  Proof.
    intros od s Ho. unfold pos_cut. match goal with |- context [map ?F (combine _ _)] => set (FF := F) end.
    destruct (@blocks_ok (han_internal E) FF (hmm_raw d tb)) with (s := s) as (blks & wss & B1 & B2 & B3).
    - intro i. unfold FF. reflexivity.
    - intros g i Hg. destruct (group_units Hg) as (G1 & G2 & G3 & G4). unfold FF, hmm_raw. cbn [fst snd]. rewrite G3. destruct (fst g).
      + destruct (pos_hmm_cut Hi HE Hem (od := od i) (text (snd g))) as (tl & ps & wss & P1 & P2 & P3 & P4); [apply Ho|]. fold tb in P3. rewrite G2 in *. eauto 10.
      + rewrite (other_ok (E := E)); rewrite G2; [|exact G4]. eauto.
    - rewrite B1. cbn [bind]. exists wss. auto.
  Qed.

  (** *** Nothing is lost *)
  Lemma whole_concat : forall A (f : A -> bytes) l wss, Forall2 (fun a ws => whole (f a) ws) l wss -> whole (concat (map f l)) (concat wss).
  Proof. intros A f l wss H. induction H; [split; [reflexivity|constructor]|]. cbn [map concat]. apply whole_app; assumption. Qed.

  Lemma hmm_group_whole : forall g ws, snd g <> [] -> Forall (fun p => p <> []) (snd g) -> hmm_group d tb g ws -> whole (string_of_runes (concat (snd g))) ws.
  Proof.
    intros g ws Hne Hg H. unfold hmm_group in H. set (t := string_of_runes (concat (snd g))) in *.
    assert (Ht : t <> []) by (apply string_nonempty, concat_ne; assumption).
    assert (T : (exists od, (forall i, orders_ok (od i)) /\ cut_detail tb od t = Ok ws) -> whole t ws).
    { intros (od & Ho & Hc). destruct (cut_detail_ok HE Hem Ho (string_valid (concat (snd g)))) as (ws' & W1 & W2). fold tb t in W1. rewrite Hc in W1. injection W1 as <-. exact W2. }
    assert (O : ws = [(t, word_pos d t)] -> whole t ws) by (intros ->; split; [cbn; apply app_nil_r|repeat constructor; exact Ht]).
    destruct (fst g && (2 <=? length (snd g))); [|auto]. destruct (dict_find d t) as [[[v x] []]| |]; auto. destruct (eqb64 E v (lit64 E 0 0)); [auto|]. subst ws. split.
    - rewrite map_map. cbn [fst]. unfold t. apply string_concat.
    - apply Forall_map. cbn [fst]. eapply Forall_impl; [|exact Hg]. intros q Hq. apply string_nonempty. exact Hq.
  Qed.

  Lemma plain_group_whole : forall g, snd g <> [] -> Forall (fun p => p <> []) (snd g) -> whole (string_of_runes (concat (snd g))) [plain_group d g].
  Proof. intros g Hne Hg. unfold plain_group. split; [cbn; apply app_nil_r|repeat constructor; cbn [fst]; apply string_nonempty, concat_ne; assumption]. Qed.

  Lemma follows_nonempty : forall rs (tl : list (route E)) x ps, follows rs tl x ps -> Forall (fun p => p <> []) ps.
  Proof.
    intros rs tl x ps H. induction H; constructor; auto. apply slice_ne; lia.
  Qed.

  Lemma runs_parts : forall p (ps : list (list rune)), Forall (fun q => q <> []) ps -> Forall (fun g => snd g <> [] /\ Forall (fun q => q <> []) (snd g)) (runs p ps).
  Proof.
    intros p ps H. apply Forall_forall. intros g Hg. split.
    - pose proof (runs_ne p ps) as Hn. rewrite Forall_forall in Hn. apply Hn; exact Hg.
    - apply Forall_forall. intros q Hq. rewrite Forall_forall in H. apply H. rewrite <- (runs_concat p ps). apply in_concat. exists (snd g). split; [apply in_map; exact Hg|exact Hq].
  Qed.

  Lemma runs_text : forall p (ps : list (list rune)), concat (map (fun g : bool * list (list rune) => string_of_runes (concat (snd g))) (runs p ps)) = string_of_runes (concat ps).
  Proof.
    intros p ps. rewrite <- (map_map (fun g : bool * list (list rune) => concat (snd g)) string_of_runes), string_concat. f_equal.
    rewrite <- (runs_concat p ps) at 2. clear. induction (runs p ps) as [|g gs IH]; [reflexivity|]. cbn [map concat]. rewrite concat_app, IH. reflexivity.
  Qed.

  Lemma seps_whole : forall rs, whole (string_of_runes rs) (map (fun w => (w, str "x")) (seps rs)).
  Proof.
    intro rs. split; [rewrite map_map; cbn [fst]; rewrite map_id; apply (@seps_concat (length rs)); lia|].
    apply Forall_map. cbn [fst]. apply (@seps_ne (length rs)). lia.
  Qed.

  Lemma groups_text : forall s, valid s -> concat (map (fun g : bool * list rune => string_of_runes (snd g)) (groups (han_internal E) (runes_of s))) = s.
  Proof.
    intros s Hv. rewrite <- (map_map snd string_of_runes), string_concat, groups_concat. apply roundtrip_iff. exact Hv.
  Qed.

  Lemma raw_whole : forall s (R : bool * list rune -> list (bytes * bytes) -> Prop) wss, valid s -> (forall g ws, R g ws -> whole (string_of_runes (snd g)) ws) ->
    Forall2 R (groups (han_internal E) (runes_of s)) wss -> whole s (concat wss).
  Proof.
    intros s R wss Hv HR H. rewrite <- (groups_text Hv). apply whole_concat. induction H; constructor; auto.
  Qed.

  Lemma hmm_raw_whole : forall g ws, hmm_raw d tb g ws -> whole (string_of_runes (snd g)) ws.
  Proof.
    intros g ws H. unfold hmm_raw in H. destruct (fst g); [|subst ws; apply seps_whole]. destruct H as (tl & ps & wss & H1 & H2 & -> & H4).
    pose proof (follows_concat H2) as Hc. cbn [skipn] in Hc. rewrite <- Hc, <- (runs_text single). apply whole_concat.
    pose proof (runs_parts single (follows_nonempty H2)) as Hp. revert H4 Hp. generalize (runs single ps) as gs. clear -HE Hem. intros gs H. induction H as [|x w gs ws Hx H IH]; intro Hp; constructor.
    - inversion_clear Hp. destruct H0. apply hmm_group_whole; assumption.
    - inversion_clear Hp. auto.
  Qed.
End CutHmm.

Lemma plain_raw_whole : forall E (d : dict E) g ws, plain_raw d g ws -> whole (string_of_runes (snd g)) ws.
Proof.
  intros E d g ws H. unfold plain_raw in H. destruct (fst g); [|subst ws; apply seps_whole]. destruct H as (tl & ps & H1 & H2 & ->).
  pose proof (follows_concat H2) as Hc. cbn [skipn] in Hc. rewrite <- Hc, <- (runs_text eng).
  pose proof (runs_parts eng (follows_nonempty H2)) as Hp. revert Hp. generalize (runs eng ps) as gs. clear. intros gs H.
  induction H as [|g gs [Hg1 Hg2] H IH]; [split; [reflexivity|constructor]|]. cbn [map concat]. apply (whole_app (ws := [plain_group d g])); [apply plain_group_whole; assumption|exact IH].
Qed.

(** C39 *)
Lemma c39_plain : forall E c0 (d : dict E) tb od s, reachable c0 d -> valid s -> exists ws, pos_cut d tb od s false = Ok ws /\ whole s ws.
Proof.
  intros E c0 d tb od s H Hv. apply reachable_inv in H. destruct (pos_plain H tb od s) as (wss & H1 & H2). exists (concat wss). split; [exact H1|].
  eapply raw_whole; [exact Hv| |exact H2]. apply plain_raw_whole.
Qed.
Lemma c39_hmm : forall E c0 (d : dict E) em od s, ar E = ieee -> emit_ok em -> (forall i j k, orders_ok (od i j k)) -> reachable c0 d -> valid s ->
  exists ws, pos_cut d (builtin em) od s true = Ok ws /\ whole s ws.
Proof.
  intros E c0 d em od s HE Hem Ho H Hv. apply reachable_inv in H. destruct (pos_hmm H HE Hem s Ho) as (wss & H1 & H2). exists (concat wss). split; [exact H1|].
  eapply raw_whole; [exact Hv| |exact H2]. intros g ws. apply hmm_raw_whole; assumption.
Qed.

Lemma block_char_eq : forall E r, han_internal E r = block_char E r.
Proof.
  intros E r. unfold han_internal, block_char. rewrite <- orb_assoc. f_equal.
  destruct (Z_lt_dec r 0) as [Hl|Hl]; [|destruct (Z_lt_dec r 128) as [Hu|Hu]].
  - transitivity false; [|symmetry]; apply not_true_is_false; intro K; unfold ascii_alnum, ascii_upper, ascii_lower, ascii_digit, in_range in K; cbn in K; rewrite ?orb_true_iff, ?andb_true_iff, ?Z.leb_le, ?Z.eqb_eq in K; lia.
  - assert (K : forallb (fun n => let r := Z.of_nat n in Bool.eqb (ascii_alnum r || existsb (Z.eqb r) [43; 35; 38; 46; 95]%Z)
      (existsb (Z.eqb r) (map bz (str "0123456789ABCDEFGHIJKLMNOPQRSTUVWXYZabcdefghijklmnopqrstuvwxyz+#&._")))) (seq 0 128) = true) by (vm_compute; reflexivity).
    rewrite forallb_forall in K. specialize (K (Z.to_nat r)). cbv zeta in K. rewrite Z2Nat.id in K by lia. apply Bool.eqb_prop, K, in_seq. lia.
  - transitivity false; [|symmetry]; apply not_true_is_false; intro K; unfold ascii_alnum, ascii_upper, ascii_lower, ascii_digit, in_range in K; cbn in K; rewrite ?orb_true_iff, ?andb_true_iff, ?Z.leb_le, ?Z.eqb_eq in K; lia.
Qed.
Lemma groups_block : forall E rs, groups (han_internal E) rs = groups (block_char E) rs.
Proof. intros E rs. induction rs as [|r rs IH]; [reflexivity|]. cbn [groups]. rewrite IH, block_char_eq. reflexivity. Qed.

(** C41 *)
Section Best.
  Variable E : env.
  Variable c0 : cfg.
  Variable d : dict E.
  Hypothesis HE : ar E = ieee.
  Hypothesis H : reachable c0 d.
  Let T0 := lit64 E 0 0.

  Lemma c41_plain : forall tb od s, comparable d (runes_of s) -> exists wss, pos_cut d tb od s false = Ok (concat wss) /\ Forall2 (plain_block d) (groups (block_char E) (runes_of s)) wss.
  Proof.
    intros tb od s Hc. pose proof (reachable_inv H) as Hi. destruct (pos_plain Hi tb od s) as (wss & H1 & H2). rewrite groups_block in H2. exists wss. split; [exact H1|]. unfold comparable in Hc. revert H2 Hc.
    generalize (groups (block_char E) (runes_of s)) as gs. clear H1. intros gs H2. induction H2 as [|g ws gs wss Hg H2 IH]; intro Hc; constructor; [|apply IH; intros g' k qs Hg'; eapply Hc; right; exact Hg'].
    unfold plain_raw in Hg. unfold plain_block. destruct (fst g); [|exact Hg]. destruct Hg as (tl & ps & G1 & G2 & ->). exists ps. split; [|reflexivity].
    eapply follows_best; [rewrite HE; exact ieee_laws64|exact Hi|exact G1|exact G2|]. intros k qs Hq. eapply Hc; [left; reflexivity|exact Hq].
  Qed.
  Lemma c41_hmm : forall em od s, emit_ok em -> (forall i j k, orders_ok (od i j k)) -> comparable d (runes_of s) ->
    exists wss, pos_cut d (builtin em) od s true = Ok (concat wss) /\ Forall2 (hmm_block d (builtin em)) (groups (block_char E) (runes_of s)) wss.
  Proof.
    intros em od s Hem Ho Hc. pose proof (reachable_inv H) as Hi. destruct (pos_hmm Hi HE Hem s Ho) as (wss & H1 & H2). rewrite groups_block in H2. exists wss. split; [exact H1|]. unfold comparable in Hc. revert H2 Hc.
    generalize (groups (block_char E) (runes_of s)) as gs. clear H1. intros gs H2. induction H2 as [|g ws gs wss Hg H2 IH]; intro Hc; constructor; [|apply IH; intros g' k qs Hg'; eapply Hc; right; exact Hg'].
    unfold hmm_raw in Hg. unfold hmm_block. destruct (fst g); [|exact Hg]. destruct Hg as (tl & ps & wss' & G1 & G2 & -> & G3). exists ps, wss'. split; [|auto].
    eapply follows_best; [rewrite HE; exact ieee_laws64|exact Hi|exact G1|exact G2|]. intros k qs Hq. eapply Hc; [left; reflexivity|exact Hq].
  Qed.
End Best.

(** Weights below multiples of a bound are comparable. *)
Fixpoint times64 (A : arith) (n : nat) (m : f64 A) : f64 A := match n with O => lit64 A 0 0 | S k => add64 A m (times64 k m) end.
Lemma weight_below : forall E (d : dict E) T m, laws64 E -> fin64 m -> (forall w, le64 (edge d T w) m) -> forall ps, (forall n, n <= length ps -> fin64 (times64 n m)) ->
  le64 (weight d T ps) (times64 (length ps) m).
Proof.
  intros E d T m L Hm He. induction ps as [|p ps IH]; intro Hf.
  - apply (le_refl64 L). apply (fin_num64 L). apply (Hf 0). cbn. lia.
  - assert (IH' : le64 (weight d T ps) (times64 (length ps) m)) by (apply IH; intros n Hn; apply Hf; cbn; lia).
    assert (Fp : fin64 (times64 (length ps) m)) by (apply Hf; cbn; lia).
    unfold weight. cbn [fold_right length times64]. fold (weight d T ps).
    assert (N1 : num64 (add64 E (edge d T (string_of_runes p)) (weight d T ps))) by (exact (add_below64 L (He _) Hm IH' Fp)).
    assert (N2 : num64 (add64 E m (weight d T ps))) by (exact (add_below64 L (le_refl64 L (fin_num64 L Hm)) Hm IH' Fp)).
    assert (N3 : num64 (add64 E m (times64 (length ps) m))) by (apply (fin_add64 L); [apply (fin_num64 L), Hm|exact Fp]).
    eapply (le_trans64 L); [apply (add_l64 L); [exact N1|exact N2|apply He]|]. apply (add_r64 L); assumption.
Qed.
Lemma tiles_length : forall E (d : dict E) rs qs, tiles d rs qs -> length qs <= length rs.
Proof. intros E d rs qs H. induction H; [reflexivity| |cbn; lia]. rewrite app_length. destruct p; [congruence|cbn; lia]. Qed.

(** ** Iteration orders, lifted to Cut (C37) *)
Section Orders.
  Variable E : env.
  Hypothesis HE : ar E = ieee.
  Variable d : dict E.
  Variable tb : ptab E.
  Hypothesis Hlog : log_tables tb.

  Lemma detail_internal_order : forall od od' t, orders_ok od -> orders_ok od' -> detail_internal tb od t = detail_internal tb od' t.
  Proof. intros od od' t H H'. unfold detail_internal. rewrite (c37 HE Hlog H H'). reflexivity. Qed.
  Lemma cut_detail_order : forall od od' t, (forall i, orders_ok (od i)) -> (forall i, orders_ok (od' i)) -> cut_detail tb od t = cut_detail tb od' t.
  Proof.
    intros od od' t H H'. unfold cut_detail. destruct (split_by (reg_run (is_han E)) t) as [blks| |]; try reflexivity. cbn [bind]. f_equal. apply map_ext. intros [i blk].
    destruct (matches (reg_run (is_han E)) blk); [|reflexivity]. apply detail_internal_order; auto.
  Qed.
  Lemma pos_flush_order : forall od od' buf, (forall i, orders_ok (od i)) -> (forall i, orders_ok (od' i)) -> pos_flush d tb od buf = pos_flush d tb od' buf.
  Proof.
    intros od od' buf H H'. unfold pos_flush. destruct buf as [|a [|b buf]]; try reflexivity. destruct (seg_find d _) as [r| |]; try reflexivity. cbn [bind].
    destruct (negb (snd r) || _); [|reflexivity]. apply cut_detail_order; assumption.
  Qed.
  Lemma pos_loop_order : forall fuel od od' k k' rs tl x buf out, (forall i j, orders_ok (od i j)) -> (forall i j, orders_ok (od' i j)) ->
    pos_dag_loop d fuel tb od k rs tl x buf out = pos_dag_loop d fuel tb od' k' rs tl x buf out.
  Proof.
    induction fuel as [|fuel IH]; intros od od' k k' rs tl x buf out H H'; cbn [pos_dag_loop]; [reflexivity|]. destruct (length rs <=? x); [reflexivity|].
    destruct (rslice rs x (S (route_index tl x))) as [frag| |]; try reflexivity. cbn [bind]. destruct (S (route_index tl x) - x =? 1); [apply IH; assumption|].
    rewrite (pos_flush_order buf (od := od k) (od' := od' k')) by auto. destruct buf as [|a [|b buf]].
    - destruct (pos_flush d tb (od' k') []); try reflexivity. cbn [bind]. destruct (tagged d (string_of_runes frag)); try reflexivity. cbn [bind]. apply IH; assumption.
    - destruct (pos_flush d tb (od' k') [a]); try reflexivity. cbn [bind]. apply IH; assumption.
    - destruct (pos_flush d tb (od' k') (a :: b :: buf)); try reflexivity. cbn [bind]. destruct (tagged d (string_of_runes frag)); try reflexivity. cbn [bind]. apply IH; assumption.
  Qed.
  Lemma pos_cut_order : forall od od' s h, (forall i j k, orders_ok (od i j k)) -> (forall i j k, orders_ok (od' i j k)) -> pos_cut d tb od s h = pos_cut d tb od' s h.
  Proof.
    intros od od' s h H H'. unfold pos_cut. destruct (split_by (reg_run (han_internal E)) s) as [blks| |]; try reflexivity. cbn [bind]. f_equal. apply map_ext. intros [i blk].
    destruct (matches (reg_run (han_internal E)) blk); [|reflexivity]. destruct h; [|reflexivity]. unfold pos_cut_dag. destruct (pos_calc d (runes_of blk)); try reflexivity. cbn [bind].
    rewrite (@pos_loop_order _ (od i) (od' i) 1 1) by auto. destruct (pos_dag_loop _ _ _ _ _ _ _ _ _ _) as [r| |]; try reflexivity. cbn [bind].
    rewrite (pos_flush_order (fst r) (od := od i 0) (od' := od' i 0)) by auto. reflexivity.
  Qed.
End Orders.

(** ** Dict.Pos (C40) *)
Lemma c40 : forall E c (d : dict E) w, reachable c d ->
  match dict_value d w with
  | None => pos_dict_pos d w = Ok ([], false)
  | Some v => exists t, nth_error (d_tokens d) v = Some t /\ concat (t_text t) = w /\ pos_dict_pos d w = Ok (if v =? 0 then ([], false) else (t_pos t, true))
  end.
Proof.
  intros E c d w H. apply reachable_inv in H. rewrite (pos_dict_ok H). destruct (dict_value d w) as [v|] eqn:Ev; [|reflexivity]. rewrite dict_value_get in Ev.
  destruct (ok_entry (inv_ok H) Ev) as (t & T1 & _ & T3 & _). exists t. split; [exact T1|]. split; [exact T3|]. destruct v; [reflexivity|]. rewrite T1. reflexivity.
Qed.
