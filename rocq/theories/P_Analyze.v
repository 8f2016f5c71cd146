(** Proofs about FindAllOccs and Analyze. *)
From Verif Require Import S_Analyze P_Seg2 P_Hist P_Str.
Set Implicit Arguments. Unset Strict Implicit.

Lemma occurs_skip : forall w s i, occurs_at w s i <-> i <= length s /\ is_prefix w (skipn i s) = true.
Proof.
  intros w s i. split.
  - intros (a & b & -> & <-). split; [rewrite app_length; lia|]. apply is_prefix_spec. exists b. rewrite skipn_app, skipn_all, Nat.sub_diag. reflexivity.
  - intros [Hi H]. apply is_prefix_spec in H as (b & H). exists (firstn i s), b. rewrite <- H, firstn_skipn. split; [reflexivity|]. apply firstn_length_le. exact Hi.
Qed.
Lemma occurs_cons : forall w b s i, occurs_at w (b :: s) (S i) <-> occurs_at w s i.
Proof. intros. rewrite !occurs_skip. cbn [length skipn]. split; intros [? ?]; split; auto; lia. Qed.
Lemma last_index_spec : forall sep s, match last_index s sep with
  | Some i => occurs_at sep s i /\ forall j, occurs_at sep s j -> j <= i
  | None => forall j, ~ occurs_at sep s j
  end.
Proof.
  intros sep. induction s as [|b s IH]; cbn [last_index].
  - destruct sep as [|x sep].
    + split; [exists [], []; auto|]. intros j H. apply occurs_skip in H as [H _]. cbn in H. lia.
    + intros j H. apply occurs_skip in H as [_ H]. rewrite skipn_nil in H. discriminate.
  - destruct (last_index s sep) as [i|].
    + destruct IH as [H1 H2]. split; [apply (proj2 (occurs_cons _ _ _ _)), H1|]. intros [|j] H; [lia|]. apply (proj1 (occurs_cons _ _ _ _)) in H. apply H2 in H. lia.
    + destruct (is_prefix sep (b :: s)) eqn:Ep.
      * split; [apply occurs_skip; split; [lia|exact Ep]|]. intros [|j] H; [lia|]. apply (proj1 (occurs_cons _ _ _ _)) in H. destruct (IH _ H).
      * intros [|j] H; [apply occurs_skip in H as [_ H]; cbn [skipn] in H; congruence|]. apply (proj1 (occurs_cons _ _ _ _)) in H. destruct (IH _ H).
Qed.
Lemma occurs_firstn : forall w s n i, n <= length s -> (occurs_at w (firstn n s) i <-> occurs_at w s i /\ i + length w <= n).
Proof.
  intros w s n i Hn. split.
  - intros (a & b & H & <-). split; [exists a, (b ++ skipn n s); rewrite <- (firstn_skipn n s) at 1; rewrite H, <- !app_assoc; auto|].
    apply (f_equal (@length _)) in H. rewrite !app_length, firstn_length_le in H by exact Hn. lia.
  - intros [(a & b & -> & <-) H]. exists a, (firstn (n - length a - length w) b). split; [|reflexivity].
    rewrite !firstn_app. f_equal; [apply firstn_all2; lia|]. f_equal. apply firstn_all2. lia.
Qed.

(** One inner loop. *)
Lemma occ_loop_ok : forall w data, w <> [] -> forall fuel index m, index <= length data -> index < fuel -> exists l m',
  occ_loop fuel data w index m = Ok m' /\ (forall v, m' v = if beqb v w then m w ++ l else m v) /\ right_occs (firstn index data) w l.
Proof.
  intros w data Hw. assert (Hlen : 0 < length w) by (destruct w; [congruence|cbn; lia]). assert (Hww : beqb w w = true) by (apply beqb_eq; reflexivity).
  induction fuel as [|fuel IH]; intros index m Hi Hf; [lia|]. cbn [occ_loop].
  pose proof (last_index_spec w (firstn index data)) as H. destruct (last_index (firstn index data) w) as [i|].
  - destruct H as [H1 H2]. pose proof H1 as H1'. apply occurs_firstn in H1' as [H3 H4]; [|exact Hi].
    destruct (IH i (occs_set m w (m w ++ [i]))) as (l & m' & L1 & L2 & L3 & L4); [lia|lia|]. exists (i :: l), m'. split; [exact L1|]. split.
    + intro v. rewrite L2. unfold occs_set. rewrite Hww. destruct (beqb v w); [rewrite <- app_assoc|]; reflexivity.
    + assert (Hl : forall j, In j l -> occurs_at w data j /\ j + length w <= i) by (intros j Hj; apply L4 in Hj as [Hj _]; apply occurs_firstn in Hj; [exact Hj|lia]).
      split; [constructor; [exact L3|]; apply Forall_forall; intros j Hj; apply Hl in Hj; lia|]. intro j. cbn [In]. split.
      * intros [<-|Hj]; [split; [exact H1|intros k [<-|Hk] ?; [lia|apply Hl in Hk; lia]]|]. pose proof (Hl j Hj) as [J1 J2]. split; [apply occurs_firstn; [exact Hi|split; [exact J1|lia]]|].
        intros k [<-|Hk] Hlt; [exact J2|]. apply L4 in Hj as [_ Hj]. auto.
      * intros [J1 J2]. pose proof (H2 j J1). destruct (Nat.eq_dec i j) as [|Hne]; [auto|right]. apply L4. apply occurs_firstn in J1 as [J1 _]; [|exact Hi].
        split; [apply occurs_firstn; [lia|split; [exact J1|apply J2; [auto|lia]]]|]. intros k Hk. apply J2. auto.
  - exists [], m. split; [reflexivity|]. split; [intro v; rewrite app_nil_r; destruct (beqb v w) eqn:Ev; [apply beqb_eq in Ev; subst|]; reflexivity|].
    split; [constructor|]. intro i. split; [intros []|intros [K _]; destruct (H i K)].
Qed.
Lemma right_unique : forall data w l l', w <> [] -> right_occs data w l -> right_occs data w l' -> l = l'.
Proof.
  intros data w l l' Hw [S1 M1] [S2 M2].
  assert (Hlen : 0 < length w) by (destruct w; [congruence|cbn; lia]).
  assert (K : forall k i, length data - i <= k -> (In i l <-> In i l')).
  { assert (B : forall i, occurs_at w data i -> i < length data) by (intros i (a & b & -> & <-); rewrite !app_length; lia).
    induction k as [|k IH]; intros i Hk.
    - split; intro H; [apply M1 in H as [H _]|apply M2 in H as [H _]]; apply B in H; lia.
    - rewrite M1, M2. apply and_iff_compat_l. split; intros H j Hj Hlt; apply H; auto; apply IH; auto; try lia. }
  clear M1 M2. assert (K' : forall i, In i l <-> In i l') by (intro i; eapply K; apply le_n). clear K. revert l' S2 K'.
  induction S1 as [|a l S1 IH Ha]; intros l' S2 K; [destruct l' as [|b l']; [reflexivity|]; destruct (proj2 (K b)); left; reflexivity|].
  destruct S2 as [|b l' S2 Hb]; [destruct (proj1 (K a)); left; reflexivity|]. rewrite Forall_forall in Ha, Hb.
  assert (a = b) as <-.
  { destruct (proj1 (K a) (or_introl eq_refl)) as [H|H]; [auto|]. destruct (proj2 (K b) (or_introl eq_refl)) as [H'|H']; [auto|]. apply Hb in H. apply Ha in H'. lia. }
  f_equal. apply IH; [exact S2|]. intro i. split; intro H.
  - destruct (proj1 (K i) (or_intror H)) as [<-|H']; [apply Ha in H; lia|exact H'].
  - destruct (proj2 (K i) (or_intror H)) as [<-|H']; [apply Hb in H; lia|exact H'].
Qed.

Lemma find_occs_ok : forall data fuel searches m, length data < fuel -> Forall (fun w => w <> []) searches -> exists m',
  find_occs fuel data searches m = Ok m' /\ forall w, w <> [] -> exists l, right_occs data w l /\ m' w = m w ++ concat (repeat l (times w searches)).
Proof.
  intros data fuel. induction searches as [|s searches IH]; intros m Hf HF; cbn [find_occs].
  - exists m. split; [reflexivity|]. intros w Hw. destruct (@occ_loop_ok w data Hw fuel (length data) m) as (l & _ & _ & _ & Hl); [lia|lia|]. rewrite firstn_all in Hl. exists l. split; [exact Hl|].
    cbn. rewrite app_nil_r. reflexivity.
  - inversion_clear HF. destruct (@occ_loop_ok s data H fuel (length data) m) as (l & m1 & L1 & L2 & L3); [lia|lia|]. rewrite firstn_all in L3. rewrite L1. cbn [bind].
    destruct (IH m1 Hf H0) as (m' & M1 & M2). exists m'. split; [exact M1|]. intros w Hw. destruct (M2 w Hw) as (l' & K1 & K2). exists l'. split; [exact K1|]. rewrite K2, L2. cbn [times].
    destruct (beqb w s) eqn:Ew; [|reflexivity]. apply beqb_eq in Ew. subst s. assert (l = l') as <- by (eapply right_unique; eauto). cbn [repeat concat Nat.add]. rewrite <- app_assoc. reflexivity.
Qed.
Lemma last_index_nil : forall s, last_index s [] = Some (length s).
Proof. induction s as [|b s IH]; [reflexivity|]. cbn [last_index]. rewrite IH. reflexivity. Qed.
Lemma occ_loop_hang : forall fuel data m, occ_loop fuel data [] (length data) m = Hang.
Proof.
  induction fuel as [|fuel IH]; intros data m; [reflexivity|]. cbn [occ_loop]. rewrite firstn_all, last_index_nil. apply IH.
Qed.
Lemma occ_loop_no_panic : forall fuel data w i m, occ_loop fuel data w i m <> Panic.
Proof. induction fuel as [|fuel IH]; intros data w i m; [discriminate|]. cbn [occ_loop]. destruct (last_index (firstn i data) w); [apply IH|discriminate]. Qed.
Lemma find_occs_hang : forall fuel data searches m, In [] searches -> find_occs fuel data searches m = Hang.
Proof.
  intros fuel data. induction searches as [|s searches IH]; intros m H; [destruct H|]. cbn [find_occs]. destruct (Byte.byte_eq_dec x00 x00) as [_|]; [|congruence].
  destruct s as [|b s]; [rewrite occ_loop_hang; reflexivity|]. destruct H as [H|H]; [discriminate|].
  pose proof (@occ_loop_no_panic fuel data (b :: s) (length data) m). destruct (occ_loop fuel data (b :: s) (length data) m); [apply IH, H|congruence|reflexivity].
Qed.

(** *** Analyze *)
Lemma nth_repeat : forall (l : list nat) n k, k < n -> l <> [] -> exists i, nth_error (concat (repeat l n)) k = Some i /\ nth_error l (k mod length l) = Some i.
Proof.
  intros l n k Hk Hl. assert (L : 0 < length l) by (destruct l; [congruence|cbn; lia]). revert k Hk. induction n as [|n IH]; intros k Hk; [lia|]. cbn [repeat concat].
  destruct (Nat.lt_ge_cases k (length l)) as [H|H].
  - rewrite nth_error_app1 by exact H. rewrite Nat.mod_small by exact H. destruct (nth_error l k) as [i|] eqn:E; [eauto|]. apply nth_error_None in E. lia.
  - rewrite nth_error_app2 by exact H. destruct (IH (k - length l)) as (i & I1 & I2); [lia|]. exists i. split; [exact I1|]. rewrite <- I2. f_equal.
    replace k with ((k - length l) + 1 * length l) at 1 by lia. apply Nat.mod_add. lia.
Qed.
Lemma times_app : forall w a b, times w (a ++ b) = times w a + times w b.
Proof. intros w. induction a as [|v a IH]; intro b; [reflexivity|]. cbn [app times]. rewrite IH. lia. Qed.

Lemma firstn_S_nth : forall A (l : list A) n x, nth_error l n = Some x -> firstn (S n) l = firstn n l ++ [x].
Proof. intros A l n. revert l. induction n as [|n IH]; intros [|y l] x H; try discriminate; [injection H as <-; reflexivity|]. cbn [nth_error] in H. cbn [firstn app]. f_equal. apply IH, H. Qed.

Section Analyze.
  Variable E : env.
  Variables (c0 : cfg) (d : dict E).
  Hypothesis Hr : reachable c0 d.
  Lemma find_total : forall w, exists f, dict_find d w = Ok f.
  Proof.
    intro w. destruct (c14 w Hr) as (f & p & b & H & _). eauto.
  Qed.

  (** Without a text. *)
  Lemma analyze_empty : forall by_ all ex text k start end_ prev az, text <> [] ->
    (k = 0 -> end_ = start + word_len by_ (nth 0 text [])) -> (0 < k -> prev = Some end_) ->
    exists az', analyze_loop d [] by_ all text k start end_ prev ex az = Ok (az ++ az') /\ map (@a_text E) az' = text /\
      map (@a_position E) az' = seq k (length text) /\ Forall (fun t => dict_find d (a_text t) = Ok (a_freq t, a_pos t, true) \/ dict_find d (a_text t) = Ok (a_freq t, a_pos t, false)) az' /\
      (forall n t, nth_error az' n = Some t -> a_start t = (match n with O => if k =? 0 then start else end_ | S n' => match nth_error az' n' with Some u => a_end u | None => 0 end end)
         /\ a_end t = a_start t + word_len by_ (a_text t)).
  Proof.
    intros by_ all ex. induction text as [|v text IH]; intros k start end_ prev az Hne H0 Hk; [congruence|]. cbn [analyze_loop]. change (beqb [] []) with true. rewrite andb_true_r.
    set (st := if k =? 0 then start else end_).
    assert (K : (if 0 <? k then match prev with Some e => Ok (e, e + word_len by_ v) | None => Panic end else Ok (start, end_)) = Ok (st, st + word_len by_ v)).
    { unfold st. destruct k as [|k]; [cbn; rewrite (H0 eq_refl); reflexivity|]. cbn. rewrite Hk by lia. reflexivity. }
    rewrite K. cbn [bind fst snd negb]. destruct (find_total v) as ([[fr po] b] & Hf). rewrite Hf. cbn [bind fst snd].
    destruct text as [|v2 text].
    - cbn [analyze_loop]. eexists. split; [reflexivity|]. split; [reflexivity|]. split; [reflexivity|]. split; [constructor; [cbn; destruct b; auto|constructor]|].
      intros [|[|n]] t Ht; try discriminate. injection Ht as <-. cbn. auto.
    - destruct (IH (S k) st (st + word_len by_ v) (Some (st + word_len by_ v))
         (az ++ [{| a_start := st; a_end := st + word_len by_ v; a_position := k; a_text := v; a_freq := fr; a_pos := po |}])) as (az' & A1 & A2 & A3 & A4 & A5); [discriminate|lia|auto|].
      rewrite A1, <- app_assoc. eexists. split; [reflexivity|]. split; [cbn; rewrite A2; reflexivity|]. split; [cbn [app map length seq a_position]; rewrite A3; reflexivity|].
      split; [constructor; [cbn; destruct b; auto|exact A4]|]. intros [|n] t Ht; [injection Ht as <-; cbn; auto|]. cbn [nth_error app] in Ht. destruct (A5 n t Ht) as [B1 B2]. split; [|exact B2].
      rewrite B1. destruct n as [|n]; [reflexivity|]. reflexivity.
  Qed.

  (** With a text. *)
  Lemma analyze_text : forall T by_ all, T <> [] -> forall whole, (forall w, w <> [] -> exists l, right_occs T w l /\ all w = concat (repeat l (times w whole))) ->
    forall text pre k start end_ prev ex az, whole = pre ++ text -> Forall (fun w => w <> []) text ->
    (forall w, ex w = match times w pre with O => None | S n => Some n end) ->
    exists az', analyze_loop d T by_ all text k start end_ prev ex az = Ok (az ++ az') /\ map (@a_text E) az' = text /\
      map (@a_position E) az' = seq k (length text) /\ Forall (fun t => dict_find d (a_text t) = Ok (a_freq t, a_pos t, true) \/ dict_find d (a_text t) = Ok (a_freq t, a_pos t, false)) az' /\
      (forall n t, nth_error az' n = Some t -> a_end t = a_start t + length (a_text t) /\ exists l, right_occs T (a_text t) l /\
         (l = [] -> a_start t = match n with O => start | S n' => match nth_error az' n' with Some u => a_start u | None => 0 end end) /\
         (l <> [] -> nth_error l (times (a_text t) (pre ++ firstn n text) mod length l) = Some (a_start t))).
  Proof.
    intros T by_ all HT whole Hall. assert (HTb : beqb T [] = false) by (destruct T; [congruence|reflexivity]).
    induction text as [|v text IH]; intros pre k start end_ prev ex az Hw HF Hex; cbn [analyze_loop].
    - exists []. rewrite app_nil_r. repeat split; auto; destruct n; discriminate.
    - rewrite HTb, andb_false_r. cbn [bind negb fst snd]. inversion_clear HF. destruct (Hall v H) as (l & L1 & L2).
      assert (Hn : match ex v with Some n => S n | None => 0 end = times v pre) by (rewrite Hex; destruct (times v pre); reflexivity). rewrite Hn.
      assert (Hvv : beqb v v = true) by (apply beqb_eq; reflexivity).
      assert (Ht : times v pre < times v whole) by (rewrite Hw, times_app; cbn [times]; rewrite Hvv; lia).
      assert (K : exists st, (if 0 <? length (all v) then get (all v) (times v pre) else Ok start) = Ok st /\ (l = [] -> st = start) /\ (l <> [] -> nth_error l (times v pre mod length l) = Some st)).
      { rewrite L2. destruct l as [|i l].
        - replace (concat (repeat [] (times v whole))) with (@nil nat) by (clear; induction (times v whole); [reflexivity|cbn; auto]). exists start. split; [reflexivity|]. split; [auto|congruence].
        - destruct (@nth_repeat (i :: l) _ _ Ht ltac:(discriminate)) as (st & S1 & S2). exists st.
          assert (0 < length (concat (repeat (i :: l) (times v whole)))) by (apply Nat.le_lt_trans with (times v pre); [lia|]; apply nth_error_Some; congruence).
          replace (0 <? length (concat (repeat (i :: l) (times v whole)))) with true by (symmetry; apply Nat.ltb_lt; assumption).
          split; [apply get_Ok; exact S1|]. split; [discriminate|auto]. }
      destruct K as (st & K1 & K2 & K3). rewrite K1. cbn [bind fst snd]. destruct (find_total v) as ([[fr po] b] & Hf). rewrite Hf. cbn [bind fst snd].
      destruct (IH (pre ++ [v]) (S k) st (st + length v) (Some (st + length v)) (fun w => if beqb w v then Some (times v pre) else ex w)
         (az ++ [{| a_start := st; a_end := st + length v; a_position := k; a_text := v; a_freq := fr; a_pos := po |}])) as (az' & A1 & A2 & A3 & A4 & A5).
      { rewrite Hw, <- app_assoc. reflexivity. }
      { exact H0. }
      { intro w. rewrite times_app. cbn [times]. destruct (beqb w v) eqn:Ew; [apply beqb_eq in Ew; subst w; rewrite Nat.add_0_r, Nat.add_comm; reflexivity|]. rewrite Hex, !Nat.add_0_r. reflexivity. }
      rewrite A1, <- app_assoc. eexists. split; [reflexivity|]. split; [cbn; rewrite A2; reflexivity|]. split; [cbn [app map length seq a_position]; rewrite A3; reflexivity|].
      split; [constructor; [cbn; destruct b; auto|exact A4]|]. intros [|n] t Ht'.
      + injection Ht' as <-. cbn [a_start a_end a_text]. split; [reflexivity|]. exists l. split; [exact L1|]. cbn [firstn]. rewrite app_nil_r. auto.
      + cbn [nth_error app] in Ht'. destruct (A5 n t Ht') as [B1 (l' & B2 & B3 & B4)]. split; [exact B1|]. exists l'. split; [exact B2|]. split.
        * intro Hl. rewrite (B3 Hl). destruct n; reflexivity.
        * cbn [firstn]. rewrite <- app_assoc in B4. exact B4.
  Qed.

  Lemma analyze_no_text : forall fuel c text by_, 0 < fuel -> Forall (fun w => w <> []) text -> text <> [] ->
    exists az, analyze d fuel c text [] by_ = Ok az /\ map (@a_text E) az = text /\ map (@a_position E) az = seq 0 (length text) /\
      (forall t, In t az -> exists b, dict_find d (a_text t) = Ok (a_freq t, a_pos t, b)) /\
      forall n t, nth_error az n = Some t -> a_start t = list_sum (map (span by_) (firstn n text)) /\ a_end t = a_start t + span by_ (a_text t).
  Proof.
    intros fuel c text by_ Hf HF Hne. unfold analyze. destruct text as [|v text]; [congruence|]. replace (if c_lower c then to_lower_str E [] else []) with (@nil byte) by (destruct (c_lower c); reflexivity).
    change (beqb [] []) with true. cbn match. unfold find_all_occs. destruct (@find_occs_ok [] fuel (v :: text) (fun _ => [])) as (all & F1 & _); [cbn; lia|exact HF|]. rewrite F1. cbn [bind].
    destruct (@analyze_empty by_ all (fun _ => None) (v :: text) 0 0 (word_len by_ v) None []) as (az & A1 & A2 & A3 & A4 & A5); [discriminate|reflexivity|lia|].
    exists az. split; [exact A1|]. split; [exact A2|]. split; [exact A3|]. split; [intros t Ht; rewrite Forall_forall in A4; destruct (A4 t Ht); eauto|].
    intros n. induction n as [|n IH]; intros t Ht; destruct (A5 _ _ Ht) as [B1 B2]; (split; [|exact B2]); [exact B1|]. rewrite B1.
    destruct (nth_error az n) as [u|] eqn:Eu; [|apply nth_error_None in Eu; assert (nth_error az (S n) <> None) as K by congruence; apply nth_error_Some in K; lia].
    destruct (IH u eq_refl) as [C1 C2]. rewrite C2, C1.
    assert (Hu : nth_error (v :: text) n = Some (a_text u)) by (rewrite <- A2, nth_error_map, Eu; reflexivity).
    rewrite (firstn_S_nth Hu), map_app, list_sum_app. cbn. lia.
  Qed.

  Lemma analyze_with_text : forall fuel c text t1 by_, let T := if c_lower c then to_lower_str E t1 else t1 in
    T <> [] -> length T < fuel -> Forall (fun w => w <> []) text ->
    exists az, analyze d fuel c text t1 by_ = Ok az /\ map (@a_text E) az = text /\ map (@a_position E) az = seq 0 (length text) /\
      (forall t, In t az -> exists b, dict_find d (a_text t) = Ok (a_freq t, a_pos t, b)) /\
      forall n t, nth_error az n = Some t -> a_end t = a_start t + length (a_text t) /\ exists l, right_occs T (a_text t) l /\
         (l = [] -> a_start t = match n with O => 0 | S n' => match nth_error az n' with Some u => a_start u | None => 0 end end) /\
         (l <> [] -> nth_error l (times (a_text t) (firstn n text) mod length l) = Some (a_start t)).
  Proof.
    intros fuel c text t1 by_ T HT Hf HF. unfold analyze. destruct text as [|v text]; [exists []; cbn; repeat split; auto; try (intros ? []); destruct n; discriminate|].
    fold T. unfold find_all_occs. destruct (@find_occs_ok T fuel (v :: text) (fun _ => [])) as (all & F1 & F2); [lia|exact HF|]. rewrite F1. cbn [bind].
    destruct (@analyze_text T by_ all HT (v :: text) F2 (v :: text) [] 0 0 (if beqb t1 [] then word_len by_ v else 0) None (fun _ => None) []) as (az & A1 & A2 & A3 & A4 & A5); [reflexivity|exact HF|reflexivity|].
    exists az. split; [exact A1|]. split; [exact A2|]. split; [exact A3|]. split; [intros t Ht; rewrite Forall_forall in A4; destruct (A4 t Ht); eauto|]. exact A5.
  Qed.
  Lemma analyze_hang : forall fuel c text t1 by_, In [] text -> analyze d fuel c text t1 by_ = Hang.
  Proof. intros fuel c text t1 by_ H. unfold analyze. destruct text as [|v text]; [destruct H|]. unfold find_all_occs. rewrite find_occs_hang by exact H. reflexivity. Qed.
End Analyze.
