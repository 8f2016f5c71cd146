(** The DAG cutters, continued: CutAll, CutSearch, SuggestFreq. *)
From Verif Require Import S_Dag P_Utf8 P_Utf8b P_Dict P_Seg P_Seg2 P_Hist P_Hmm P_Laws64 Ieee P_Dag P_Dag2.
From Coq Require Import Sorting.Sorted.
Set Implicit Arguments. Unset Strict Implicit.

Section Dag3.
  Variable E : env.
  Variable c0 : cfg.
  Variable d : dict E.
  Hypothesis Hi : dict_inv c0 d.

  (** *** cutAll *)
  Definition longs (k : nat) (l : list nat) : list (nat * nat) := map (pair k) (filter (Nat.ltb k) l).

  Lemma all_row_ok : forall rs k l start res,
    all_row rs k l start res = (last_end start (S k) (longs k l), res ++ map (part rs) (longs k l)).
  Proof.
    intros rs k l. unfold longs, last_end. induction l as [|j l IH]; intros start res; cbn [all_row filter map]; [rewrite app_nil_r; reflexivity|].
    destruct (k <? j); [|apply IH]. rewrite IH. cbn [map fold_left fst snd]. destruct (Nat.ltb_spec k (S k)); [|lia]. f_equal.
    rewrite <- app_assoc. reflexivity.
  Qed.

  Lemma last_end_app : forall e k I J, last_end e k (I ++ J) = last_end (last_end e k I) k J.
  Proof. intros. unfold last_end. apply fold_left_app. Qed.
  Lemma last_end_ge : forall I e k, Forall (fun p => k <= fst p) I -> last_end e k I = e.
  Proof.
    induction I as [|p I IH]; intros e k H; [reflexivity|]. inversion_clear H. unfold last_end in *. cbn [fold_left]. destruct (Nat.ltb_spec (fst p) k); [lia|]. auto.
  Qed.
  Lemma last_end_const : forall I e k k1, Forall (fun p => fst p = k) I -> k < k1 -> last_end e k1 I = last_end e (S k) I.
  Proof.
    induction I as [|p I IH]; intros e k k1 H Hlt; [reflexivity|]. inversion_clear H. unfold last_end in *. cbn [fold_left].
    destruct (Nat.ltb_spec (fst p) k1), (Nat.ltb_spec (fst p) (S k)); try lia. eapply IH; eassumption.
  Qed.

  Record all_ok (rs : list rune) (k start : nat) (I : list (nat * nat)) : Prop := {
    ao_sorted : StronglySorted lexlt I;
    ao_range : Forall (fun p => k <= fst p /\ fst p <= snd p < length rs) I;
    ao_long : forall a j, a < j -> (In (a, j) I <-> k <= a /\ long_word d rs a j);
    ao_single : forall a, In (a, a) I <-> k <= a < length rs /\ (forall j, ~ long_word d rs a j) /\ last_end start a I <= a;
    ao_cover : forall i, k <= i < length rs -> i < start \/ exists p, In p I /\ fst p <= i <= snd p
  }.

  (** What one position contributes. *)
  Definition here (k start : nat) (row : list nat) : list (nat * nat) :=
    match row with
    | [j] => if start <=? k then [(k, j)] else longs k row
    | _ => longs k row
    end.

  Lemma all_loop_here : forall rs k row rows start res, all_loop rs k (row :: rows) start res =
    all_loop rs (S k) rows (last_end start (S k) (here k start row)) (res ++ map (part rs) (here k start row)).
  Proof.
    intros rs k row rows start res. cbn [all_loop]. unfold here. rewrite all_row_ok. cbn [fst snd]. destruct row as [|j [|]]; try reflexivity.
    destruct (start <=? k); [|reflexivity]. cbn [map]. unfold last_end. cbn [fold_left fst snd]. destruct (Nat.ltb_spec k (S k)); [reflexivity|lia].
  Qed.

  Lemma longs_in : forall k row p, In p (longs k row) <-> fst p = k /\ k < snd p /\ In (snd p) row.
  Proof.
    intros k row [a j]. unfold longs. rewrite in_map_iff. cbn [fst snd]. split.
    - intros (x & Hx & Hin). apply filter_In in Hin as [Hin Hl]. apply Nat.ltb_lt in Hl. injection Hx as <- <-. auto.
    - intros (-> & Hl & Hin). exists j. split; [reflexivity|]. apply filter_In. split; [exact Hin|]. apply Nat.ltb_lt. exact Hl.
  Qed.

  Lemma longs_sorted : forall k row, StronglySorted lt row -> StronglySorted lexlt (longs k row).
  Proof.
    intros k row H. unfold longs. induction H as [|a l Hs IH Hf]; [constructor|]. cbn [filter]. destruct (k <? a); [|exact IH]. cbn [map]. constructor; [exact IH|].
    apply Forall_map, Forall_forall. intros x Hx. apply filter_In in Hx as [Hx _]. rewrite Forall_forall in Hf. right. cbn. auto.
  Qed.

  Lemma spec_sorted : forall rs k row, dag_spec d rs k row -> StronglySorted lt row.
  Proof. intros rs k row [[_ [H _]]|[-> _]]; [exact H|repeat constructor]. Qed.

  Lemma spec_long : forall rs k row j, dag_spec d rs k row -> k < j -> (In j row <-> long_word d rs k j).
  Proof.
    intros rs k row j [[_ [_ H]]|[-> H]] Hj; unfold long_word, part; cbn [fst snd].
    - rewrite H. split; intros [? ?]; repeat split; auto; lia.
    - split; [intros [->|[]]; lia|]. intros [H1 H2]. exfalso. apply (H j); auto. lia.
  Qed.

  Lemma here_in : forall rs k start row p, k < length rs -> dag_spec d rs k row -> (In p (here k start row) <->
    fst p = k /\ ((long_word d rs k (snd p)) \/ (snd p = k /\ (forall j, ~ long_word d rs k j) /\ start <= k))).
  Proof.
    intros rs k start row p Hk Hs.
    assert (HL : In p (longs k row) <-> fst p = k /\ long_word d rs k (snd p)).
    { rewrite longs_in. split.
      - intros (H1 & H2 & H3). split; [exact H1|]. apply (spec_long Hs H2). exact H3.
      - intros (H1 & H2). split; [exact H1|]. split; [apply H2|]. apply (spec_long Hs); [apply H2|exact H2]. }
    assert (Hrest : (exists j, k < j /\ In j row) \/ (row = [k])).
    { pose proof (spec_ne Hs) as Hne. pose proof (spec_sorted Hs) as Hso. destruct row as [|a [|b row]]; [congruence| |].
      - destruct (spec_range Hk Hs (j := a)) as [Ha _]; [left; reflexivity|]. destruct (Nat.eq_dec a k); [right; congruence|left; exists a; split; [lia|left; reflexivity]].
      - left. exists b. split; [|right; left; reflexivity]. inversion_clear Hso. inversion_clear H0. destruct (spec_range Hk Hs (j := a)) as [Ha _]; [left; reflexivity|]. lia. }
    destruct Hrest as [(j & Hj & Hin)| ->].
    - assert (Hh : here k start row = longs k row \/ (row = [j] /\ here k start row = [(k, j)])).
      { unfold here. destruct row as [|a [|b row]]; auto. destruct (start <=? k); auto. destruct Hin as [->|[]]. auto. }
      assert (Hno : ~ forall j, ~ long_word d rs k j). { intro H. apply (H j). apply (spec_long Hs Hj). exact Hin. }
      assert (HL' : In p (here k start row) <-> In p (longs k row)).
      { destruct Hh as [->|[Hr ->]]; [reflexivity|]. rewrite Hr. unfold longs. cbn [filter]. apply Nat.ltb_lt in Hj. rewrite Hj. reflexivity. }
      rewrite HL', HL. split; [intros [? ?]; auto|]. intros [H1 [H2|(_ & H2 & _)]]; [auto|tauto].
    - assert (Hno : forall j, ~ long_word d rs k j).
      { intros j Hj. assert (k < j) by apply Hj. apply (spec_long Hs) in Hj; [|assumption]. destruct Hj as [->|[]]. lia. }
      unfold here. destruct (Nat.leb_spec start k).
      + split.
        * intros [<-|[]]. cbn. auto.
        * intros [H1 [H2|(H2 & _)]]; [exfalso; eapply Hno; exact H2|]. left. destruct p; cbn in *. congruence.
      + rewrite HL. split; [intros [? ?]; auto|]. intros [H1 [H2|(_ & _ & H2)]]; [auto|lia].
  Qed.

  Lemma here_sorted : forall rs k start row, dag_spec d rs k row -> StronglySorted lexlt (here k start row).
  Proof.
    intros rs k start row H. apply spec_sorted in H. unfold here. destruct row as [|a [|b row]]; try apply longs_sorted; auto.
    destruct (start <=? k); [repeat constructor|apply longs_sorted; auto].
  Qed.

  Lemma lex_app : forall I J, StronglySorted lexlt I -> StronglySorted lexlt J -> (forall p q, In p I -> In q J -> lexlt p q) -> StronglySorted lexlt (I ++ J).
  Proof.
    intros I J H HJ Hc. induction H as [|a l Hs IH Hf]; [exact HJ|]. cbn. constructor.
    - apply IH. intros p q Hp Hq. apply Hc; [right; exact Hp|exact Hq].
    - apply Forall_app. split; [exact Hf|]. apply Forall_forall. intros q Hq. apply Hc; [left; reflexivity|exact Hq].
  Qed.

  Lemma all_loop_ok : forall rs rows k start res, Forall2 (dag_spec d rs) (seq k (length rows)) rows -> k + length rows = length rs ->
    exists I, all_loop rs k rows start res = res ++ map (part rs) I /\ all_ok rs k start I.
  Proof.
    intros rs. induction rows as [|row rows IH]; intros k start res Hf Hl.
    - exists []. split; [cbn; rewrite app_nil_r; reflexivity|]. cbn [length] in Hl. split; [constructor|constructor| | |].
      + intros a j Ha. split; [intros []|]. intros [H1 [H2 _]]. lia.
      + intros a. split; [intros []|]. intros [H1 _]. lia.
      + intros i H. lia.
    - cbn [length seq] in *. inversion_clear Hf as [|? ? ? ? Hs Hf']. assert (Hk : k < length rs) by lia.
      rewrite all_loop_here. set (H := here k start row).
      destruct (IH (S k) (last_end start (S k) H) (res ++ map (part rs) H) Hf' ltac:(lia)) as (I & K1 & K2). clear IH.
      exists (H ++ I). split; [rewrite K1, map_app, app_assoc; reflexivity|].
      assert (Hin : forall p, In p H <-> fst p = k /\ (long_word d rs k (snd p) \/ (snd p = k /\ (forall j, ~ long_word d rs k j) /\ start <= k))) by (intro p; apply here_in; assumption).
      pose proof (ao_range K2) as Hr. rewrite Forall_forall in Hr.
      assert (Hfst : Forall (fun p => fst p = k) H) by (apply Forall_forall; intros p Hp; apply Hin in Hp; apply Hp).
      split.
      + apply lex_app; [eapply here_sorted; eassumption|apply (ao_sorted K2)|]. intros p q Hp Hq. apply Hin in Hp. apply Hr in Hq. left. lia.
      + apply Forall_app. split; [|apply Forall_forall; intros p Hp; apply Hr in Hp; lia].
        apply Forall_forall. intros p Hp. apply Hin in Hp as [H1 [H2|H2]]; [destruct H2|]; lia.
      + intros a j Ha. rewrite in_app_iff, Hin, (ao_long K2 Ha). cbn [fst snd]. split.
        * intros [[-> [H2|H2]]|[H1 H2]]; [auto|lia|split; [lia|exact H2]].
        * intros [H1 H2]. destruct (Nat.eq_dec a k) as [->|]; [left; auto|right; split; [lia|exact H2]].
      + intros a. rewrite in_app_iff, Hin, (ao_single K2), last_end_app. cbn [fst snd]. split.
        * intros [[-> [H2|(_ & H2 & H3)]]|(H1 & H2 & H3)].
          -- destruct H2. lia.
          -- split; [lia|]. split; [exact H2|]. rewrite (@last_end_ge H), last_end_ge; [exact H3| |].
             ++ apply Forall_forall. intros p Hp. apply Hr in Hp. lia.
             ++ eapply Forall_impl; [|exact Hfst]. cbn; intros; lia.
          -- split; [lia|]. split; [exact H2|]. rewrite (last_end_const start Hfst) by lia. exact H3.
        * intros (H1 & H2 & H3). destruct (Nat.eq_dec a k) as [->|].
          -- left. split; [reflexivity|]. right. split; [reflexivity|]. split; [exact H2|]. rewrite (@last_end_ge H), last_end_ge in H3; [exact H3| |].
             ++ apply Forall_forall. intros p Hp. apply Hr in Hp. lia.
             ++ eapply Forall_impl; [|exact Hfst]. cbn; intros; lia.
          -- right. split; [lia|]. split; [exact H2|]. rewrite (last_end_const start Hfst) in H3 by lia. exact H3.
      + intros i Hi'. destruct (Nat.lt_ge_cases i start) as [Hlt|Hge]; [left; exact Hlt|right].
        assert (Hcase : (exists p, In p H /\ fst p <= i <= snd p) \/ (last_end start (S k) H <= i /\ i <> k) \/ (last_end start (S k) H <= start)).
        { destruct H as [|p0 H0] eqn:EH; [right; right; reflexivity|]. rewrite <- EH in *.
          destruct (@exists_last _ H) as (H' & q & Eq); [rewrite EH; discriminate|].
          assert (Hq : In q H) by (rewrite Eq; apply in_app_iff; right; left; reflexivity).
          assert (Hle : last_end start (S k) H = S (snd q)).
          { rewrite Eq, last_end_app. unfold last_end at 1. cbn [fold_left]. rewrite Forall_forall in Hfst. rewrite (Hfst q Hq). destruct (Nat.ltb_spec k (S k)); [reflexivity|lia]. }
          pose proof Hq as Hq'. apply Hin in Hq' as [Hf0 Hq']. assert (k <= snd q) by (destruct Hq' as [[? ?]|[? ?]]; lia).
          destruct (Nat.le_gt_cases i (snd q)); [left; exists q; split; [exact Hq|lia]|]. right; left. lia. }
        destruct Hcase as [(p & P1 & P2)|[(C1 & C2)|C1]].
        * exists p. split; [apply in_app_iff; auto|exact P2].
        * destruct (ao_cover K2 (i := i)) as [C|(p & P1 & P2)]; [lia|lia|]. exists p. split; [apply in_app_iff; auto|exact P2].
        * destruct (Nat.eq_dec i k) as [->|].
          -- (* nothing long begins here, so the single character is emitted *)
             destruct H as [|p0 H0] eqn:EH.
             ++ exfalso. assert (Hno : forall j, ~ long_word d rs k j).
                { intros j Hj. destruct (Hin (k, j)) as [_ Hx]. cbn [fst snd] in Hx. destruct Hx; auto. }
                destruct (Hin (k, k)) as [_ Hx]. cbn [fst snd] in Hx. destruct Hx. split; [reflexivity|]. right. auto.
             ++ exists p0. destruct (Hin p0) as [Hx _]. destruct Hx as [H1 H2]; [left; reflexivity|]. split; [left; reflexivity|].
                destruct H2 as [[? ?]|[? ?]]; lia.
          -- destruct (ao_cover K2 (i := i)) as [C|(p & P1 & P2)]; [lia|lia|]. exists p. split; [apply in_app_iff; auto|exact P2].
  Qed.

  Lemma c28 : forall c s, exists I, cut_all d c s = Ok (map (part (dag_runes E c s)) I) /\ all_ok (dag_runes E c s) 0 0 I.
  Proof.
    intros c s. set (rs := dag_runes E c s). unfold cut_all. fold rs.
    destruct (@dag_rows_ok _ _ d Hi (seq 0 (length rs)) rs) as (dag & H1 & H2). { intros k Hk. apply in_seq in Hk. lia. }
    assert (Hl : length dag = length rs) by (apply F2_length in H2; rewrite seq_length in H2; auto).
    unfold get_dag. rewrite H1. cbn [bind]. rewrite <- Hl in H2.
    destruct (@all_loop_ok rs dag 0 0 [] H2 Hl) as (I & K1 & K2). exists I. cbn [app] in K1. rewrite K1. auto.
  Qed.

  (** *** cutForSearch *)
  Lemma windows_slices : forall A n (l : list A), 0 < n -> n <= length l -> windows n l = map (fun i => slice l i (i + n)) (seq 0 (length l - n + 1)).
  Proof.
    intros A n l Hn. induction l as [|a l IH]; intro Hl; [cbn in Hl; lia|]. cbn [windows]. apply Nat.leb_le in Hl as Hl'. rewrite Hl'.
    cbn [length] in *. replace (S (length l) - n + 1) with (S (length l - n + (if n <=? length l then 1 else 0))) by (destruct (Nat.leb_spec n (length l)); lia).
    cbn [seq map]. f_equal; [unfold slice; cbn [skipn Nat.add]; rewrite Nat.sub_0_r; reflexivity|]. rewrite <- seq_shift, map_map. destruct (Nat.leb_spec n (length l)).
    - rewrite IH by assumption. apply map_ext. intro i. unfold slice. reflexivity.
    - replace (length l - n + 0) with 0 by lia. cbn. destruct l; [reflexivity|]. cbn [windows]. destruct (Nat.leb_spec n (length (a0 :: l))); [lia|reflexivity].
  Qed.

  Lemma grams_ok : forall rs n is res, exists g, grams d rs n is res = Ok (res ++ g) /\
    kept_of (pos_word d) (map (fun i => string_of_runes (slice rs i (i + n))) is) g.
  Proof.
    intros rs n. induction is as [|i is IH]; intro res; [exists []; split; [cbn; rewrite app_nil_r; reflexivity|constructor]|].
    cbn [grams map]. set (w := string_of_runes (slice rs i (i + n))). destruct (find_total Hi w) as (f & p & b & Hf). rewrite Hf. cbn [bind fst snd].
    pose proof (find_pos Hi Hf) as Hp. destruct (b && ltb64 E (lit64 E 0 0) f) eqn:Eb.
    - apply andb_prop in Eb as [_ Eb]. destruct (IH (res ++ [w])) as (g & G1 & G2). exists (w :: g). rewrite G1, <- app_assoc. split; [reflexivity|].
      constructor; [apply Hp; exact Eb|exact G2].
    - destruct (IH res) as (g & G1 & G2). exists g. split; [exact G1|]. constructor; [|exact G2]. intro Hw. pose proof (pos_ok Hi Hf Hw) as ->. apply Hp in Hw. rewrite Hw in Eb. discriminate.
  Qed.

  Lemma grams_of_ok : forall w n res, 0 < n -> exists g, grams_of d (runes_of w) n res = Ok (res ++ g) /\ kept_of (pos_word d) (proper_windows n w) g.
  Proof.
    intros w n res Hn. unfold grams_of, proper_windows. destruct (Nat.leb_spec (length (runes_of w)) n), (Nat.ltb_spec n (length (runes_of w))); try lia.
    - exists []. rewrite app_nil_r. split; [reflexivity|constructor].
    - rewrite windows_slices by lia. rewrite map_map. apply grams_ok.
  Qed.

  Lemma search_loop_ok : forall ws res, exists gss, search_loop d ws res = Ok (res ++ concat gss) /\ Forall2 (search_words d) ws gss.
  Proof.
    induction ws as [|w ws IH]; intro res; [exists []; split; [cbn; rewrite app_nil_r; reflexivity|constructor]|]. cbn [search_loop].
    destruct (@grams_of_ok w 2 res) as (g2 & A1 & A2); [lia|]. rewrite A1. cbn [bind].
    destruct (@grams_of_ok w 3 (res ++ g2)) as (g3 & B1 & B2); [lia|]. rewrite B1. cbn [bind].
    destruct (IH (((res ++ g2) ++ g3) ++ [w])) as (gss & G1 & G2). exists ((g2 ++ g3 ++ [w]) :: gss). rewrite G1. cbn [concat]. split; [rewrite <- !app_assoc; reflexivity|].
    constructor; [|exact G2]. exists g2, g3. auto.
  Qed.

  Lemma c29 : forall c em s h ws, cut d c em s (Some h) = Ok ws -> exists gss, cut_search d c em s (Some h) = Ok (concat gss) /\ Forall2 (search_words d) ws gss.
  Proof.
    intros c em s h ws H. cbn [cut_search]. unfold cut_for_search. rewrite H. cbn [bind]. destruct (search_loop_ok ws []) as (gss & G1 & G2). exists gss. auto.
  Qed.

  (** *** SuggestFreq *)
  Lemma find_reported : forall w f p b, w <> [] -> seg_find d w = Ok (f, p, b) -> forall dflt g, reported d dflt w g -> g = if b then f else dflt.
  Proof.
    intros w f p b Hw H dflt g Hg. unfold seg_find in H. rewrite (find_eq w Hi) in H. unfold reported, stored in Hg.
    assert (Hv : forall w, dict_value d w = t_get (d_trie d) w) by apply dict_value_get.
    assert (Hst : forall w' v, t_get (d_trie d) w' = Some v -> exists g, exists v t, dict_value d w' = Some v /\ nth_error (d_tokens d) v = Some t /\ t_freq t = g).
    { intros w' v Hv'. destruct (ok_entry (inv_ok Hi) Hv') as (t & T1 & _). exists (t_freq t), v, t. rewrite Hv. auto. }
    destruct (t_get (d_trie d) w) as [v|] eqn:Eg.
    - destruct (nth_error (d_tokens d) v) as [t|] eqn:Et; [|discriminate]. injection H as <- <- <-.
      destruct Hg as [(v' & t' & H1 & H2 & H3)|[(H1 & _)|(H1 & _)]].
      + rewrite Hv in H1. congruence.
      + exfalso. destruct (Hst w v Eg) as (g' & Hg'). eapply H1; exact Hg'.
      + exfalso. destruct (Hst w v Eg) as (g' & Hg'). eapply (H1 []). rewrite app_nil_r. exact Hg'.
    - injection H as <- <- <-. destruct w as [|a w]; [congruence|]. destruct Hg as [(v' & t' & H1 & _)|[(_ & (x & g' & v & t & H1 & _) & ->)|(H1 & ->)]].
      + rewrite Hv in H1. congruence.
      + rewrite Hv in H1. apply t_path_key, t_path_prefix in H1. rewrite H1. reflexivity.
      + destruct (t_path (d_trie d) (a :: w)) eqn:Ep; [|reflexivity]. exfalso. apply t_path_spec in Ep as [Ep|(k & v & Hk & Hp)]; [discriminate|].
        apply is_prefix_spec in Hp as (x & ->). destruct (Hst _ _ Hk) as (g' & Hg'). eapply H1; exact Hg'.
  Qed.

  Lemma find_known : forall w f p b, w <> [] -> seg_find d w = Ok (f, p, b) ->
    if b then stored d w f \/ ((forall g, ~ stored d w g) /\ (exists x g, stored d (w ++ x) g) /\ f = lit64 E 0 0) else forall x g, ~ stored d (w ++ x) g.
  Proof.
    intros w f p b Hw H. unfold seg_find in H. rewrite (find_eq w Hi) in H.
    assert (Hv : forall w, dict_value d w = t_get (d_trie d) w) by apply dict_value_get.
    assert (Hst : forall w' v, t_get (d_trie d) w' = Some v -> exists g, stored d w' g).
    { intros w' v Hv'. destruct (ok_entry (inv_ok Hi) Hv') as (t & T1 & _). exists (t_freq t), v, t. rewrite Hv. auto. }
    destruct (t_get (d_trie d) w) as [v|] eqn:Eg.
    - destruct (nth_error (d_tokens d) v) as [t|] eqn:Et; [|discriminate]. injection H as <- <- <-. left. exists v, t. rewrite Hv. auto.
    - injection H as <- <- <-. destruct w as [|a w]; [congruence|]. destruct (t_path (d_trie d) (a :: w)) eqn:Ep.
      + right. apply t_path_spec in Ep as [Ep|(k & v & Hk & Hp)]; [discriminate|]. apply is_prefix_spec in Hp as (x & ->). destruct (Hst _ _ Hk) as (g & Hg).
        split; [|eauto]. intros g' (v' & t' & H1 & _). rewrite Hv in H1. congruence.
      + intros x g (v' & t' & H1 & _). rewrite Hv in H1. apply t_path_key, t_path_prefix in H1. congruence.
  Qed.
  Lemma suggest_loop_product : forall total ws a, Forall (fun w => w <> []) ws -> exists r, suggest_loop d total ws a = Ok r /\ product d total a ws r.
  Proof.
    intros total ws a H. revert a. induction H as [|w ws Hw H IH]; intro a; [eexists; split; [reflexivity|constructor]|]. cbn [suggest_loop].
    destruct (find_total Hi w) as (g & p & b & Hf). rewrite Hf. cbn [bind fst snd]. pose proof (find_known Hw Hf) as Hk.
    destruct (IH (div64 E (if b then mul64 E a g else a) total)) as (r & R1 & R2). exists r. split; [exact R1|].
    destruct b; [eapply pr_known|eapply pr_unknown]; eassumption.
  Qed.
  Lemma suggest_loop_ok : forall total ws f, exists r, suggest_loop d total ws f = Ok r.
  Proof.
    intros total. induction ws as [|w ws IH]; intro f; [eexists; reflexivity|]. cbn [suggest_loop]. destruct (find_total Hi w) as (g & p & b & Hf). rewrite Hf. cbn [bind]. apply IH.
  Qed.

  Lemma edge_reported : forall T w g, w <> [] -> reported d (lit64 E 1 0) w g -> edge d T w = sub64 E (m_log E g) T.
  Proof.
    intros T w g Hw Hg. unfold edge. destruct (find_total Hi w) as (f & p & b & Hf). rewrite (find_reported Hw Hf Hg). unfold seg_find in Hf. rewrite Hf. destruct b; reflexivity.
  Qed.
End Dag3.

Lemma c30_one_value : forall E c0 (d : dict E) c w g, reachable c0 d -> w <> [] -> reported d (lit64 E 1 0) w g ->
  exists segs q, cut d c (@no_model E) w (Some false) = Ok segs /\ product d (d_total d) (lit64 E 1 0) segs q /\
    let x := add64 E (trunc64 E (mul64 E q (d_total d))) (lit64 E 1 0) in suggest_freq d c [w] = Ok (if ltb64 E x g then g else x).
Proof.
  intros E c0 d c w g Hr Hw Hg. apply reachable_inv in Hr as Hi.
  destruct (c23 c w Hr) as (segs & S1 & S2). exists segs. unfold suggest_freq. rewrite S1. cbn [bind].
  destruct (@suggest_loop_product E c0 d Hi (d_total d) segs (lit64 E 1 0)) as (q & Hq & Hp); [tauto|]. exists q. split; [exact S1|]. split; [exact Hp|]. cbv zeta. rewrite Hq. cbn [bind].
  destruct (find_total Hi w) as (f & p & b & Hf). rewrite Hf. cbn [bind fst snd]. rewrite <- (find_reported Hi Hw Hf Hg). reflexivity.
Qed.
Lemma c30_many_value : forall E c0 (d : dict E) c w1 w2 ws g, reachable c0 d -> Forall (fun w => w <> []) (w1 :: w2 :: ws) -> reported d (lit64 E 0 0) (concat (w1 :: w2 :: ws)) g ->
  exists q, product d (d_total d) (lit64 E 1 0) (w1 :: w2 :: ws) q /\
    let x := trunc64 E (mul64 E q (d_total d)) in suggest_freq d c (w1 :: w2 :: ws) = Ok (if ltb64 E g x then g else x).
Proof.
  intros E c0 d c w1 w2 ws g Hr Hw Hg. apply reachable_inv in Hr as Hi.
  destruct (@suggest_loop_product E c0 d Hi (d_total d) (w1 :: w2 :: ws) (lit64 E 1 0) Hw) as (q & Hq & Hp). exists q. split; [exact Hp|]. cbv zeta.
  unfold suggest_freq. rewrite Hq. cbn [bind]. assert (Hc : concat (w1 :: w2 :: ws) <> []).
  { inversion Hw as [|? ? H1 _]; subst. destruct w1; [congruence|discriminate]. }
  destruct (find_total Hi (concat (w1 :: w2 :: ws))) as (f & p & b & Hf). rewrite Hf. cbn [bind fst snd]. rewrite <- (find_reported Hi Hc Hf Hg). reflexivity.
Qed.

Lemma c30_one : forall E c0 (d : dict E) c w g, ar E = ieee -> reachable c0 d -> w <> [] -> reported d (lit64 E 1 0) w g ->
  exists r, suggest_freq d c [w] = Ok r /\ ltb64 E r g = false.
Proof.
  intros E c0 d c w g HE Hr Hw Hg. apply reachable_inv in Hr as Hi. assert (L : laws64 E) by (rewrite HE; exact ieee_laws64).
  destruct (c23 c w Hr) as (segs & S1 & _). unfold suggest_freq. rewrite S1. cbn [bind].
  destruct (suggest_loop_ok Hi (d_total d) segs (lit64 E 1 0)) as (q & Hq). rewrite Hq. cbn [bind].
  destruct (find_total Hi w) as (f & p & b & Hf). rewrite Hf. cbn [bind fst snd]. rewrite <- (find_reported Hi Hw Hf Hg).
  eexists. split; [reflexivity|]. set (x := add64 E _ _). destruct (ltb64 E x g) eqn:El; [apply (lt_irr64 L)|exact El].
Qed.

Lemma c30_many : forall E c0 (d : dict E) c w1 w2 ws g, ar E = ieee -> reachable c0 d -> concat (w1 :: w2 :: ws) <> [] -> reported d (lit64 E 0 0) (concat (w1 :: w2 :: ws)) g ->
  exists r, suggest_freq d c (w1 :: w2 :: ws) = Ok r /\ ltb64 E g r = false.
Proof.
  intros E c0 d c w1 w2 ws g HE Hr Hw Hg. apply reachable_inv in Hr as Hi. assert (L : laws64 E) by (rewrite HE; exact ieee_laws64).
  unfold suggest_freq. destruct (suggest_loop_ok Hi (d_total d) (w1 :: w2 :: ws) (lit64 E 1 0)) as (q & Hq). rewrite Hq. cbn [bind].
  destruct (find_total Hi (concat (w1 :: w2 :: ws))) as (f & p & b & Hf). rewrite Hf. cbn [bind fst snd]. rewrite <- (find_reported Hi Hw Hf Hg).
  eexists. split; [reflexivity|]. set (x := trunc64 E _). destruct (ltb64 E g x) eqn:El; [apply (lt_irr64 L)|exact El].
Qed.
