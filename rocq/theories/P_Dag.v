(** The DAG cutters (C23-C30). *)
From Verif Require Import S_Dag P_Utf8 P_Utf8b P_Dict P_Seg P_Seg2 P_Hist P_Hmm P_Laws64 Ieee.
From Coq Require Import Sorting.Sorted.
Set Implicit Arguments. Unset Strict Implicit.

Section Dag.
  Variable E : env.
  Variable c0 : cfg.
  Variable d : dict E.
  Hypothesis Hi : dict_inv c0 d.
  Variable T : f64 E.

  Lemma find_total : forall w, exists f p b, seg_find d w = Ok (f, p, b).
  Proof.
    intro w. unfold seg_find. rewrite (find_eq w Hi). destruct (t_get (d_trie d) w) as [v|] eqn:Eg.
    - destruct (ok_entry (inv_ok Hi) Eg) as (t & T1 & _). rewrite T1. eauto.
    - eauto.
  Qed.

  Lemma find_pos : forall w f p b, seg_find d w = Ok (f, p, b) -> (ltb64 E (lit64 E 0 0) f = true <-> pos_word d w).
  Proof.
    intros w f p b H. unfold seg_find in H. rewrite (find_eq w Hi) in H. unfold pos_word, stored. setoid_rewrite dict_value_get.
    destruct (t_get (d_trie d) w) as [v|] eqn:Eg.
    - destruct (nth_error (d_tokens d) v) as [t|] eqn:Et; [|discriminate]. injection H as <- <- <-. split.
      + intro H. exists (t_freq t). split; [|exact H]. exists v, t. auto.
      + intros (f & (v' & t' & H1 & H2 & H3) & H4). congruence.
    - injection H as <- <- <-. split; [rewrite zero64_irr; discriminate|]. intros (f & (v' & t' & H1 & _) & _). discriminate.
  Qed.

  Lemma pos_ok : forall w f p b, seg_find d w = Ok (f, p, b) -> pos_word d w -> b = true.
  Proof.
    intros w f p b H (f' & (v & t & H1 & _) & _). rewrite dict_value_get in H1. unfold seg_find in H. rewrite (find_eq w Hi), H1 in H.
    destruct (nth_error (d_tokens d) v); [|discriminate]. congruence.
  Qed.

  Lemma notok_ext : forall w x f p, w <> [] -> seg_find d w = Ok (f, p, false) -> ~ pos_word d (w ++ x).
  Proof.
    intros w x f p Hw H (f' & (v & t & H1 & _) & _). rewrite dict_value_get in H1. unfold seg_find in H. rewrite (find_eq w Hi) in H.
    destruct (t_get (d_trie d) w) as [v'|] eqn:Eg; [destruct (nth_error (d_tokens d) v'); discriminate|].
    destruct w as [|a w]; [congruence|]. assert (Hp : t_path (d_trie d) (a :: w) = false) by congruence. apply t_path_key in H1.
    enough (t_path (d_trie d) (a :: w) = true) by congruence. eapply t_path_prefix; exact H1.
  Qed.

  Lemma str_slice : forall rs k i j, k <= i -> i <= j -> string_of_runes (slice rs k j) = string_of_runes (slice rs k i) ++ string_of_runes (slice rs i j).
  Proof. intros rs k i j H1 H2. rewrite <- (@slice_app _ rs k i j) by lia. unfold string_of_runes. rewrite map_app, concat_app. reflexivity. Qed.

  Lemma slice_ne : forall (rs : list rune) k i, k <= i -> i < length rs -> slice rs k (S i) <> [].
  Proof. intros rs k i H1 H2 H. apply (f_equal (@length _)) in H. rewrite slice_length in H by lia. cbn [length] in H. lia. Qed.

  Notation word rs k i := (string_of_runes (slice rs k (S i))).

  (** *** getDag *)
  Definition row_of (rs : list rune) (k : nat) (acc : list nat) (i : nat) : Prop :=
    StronglySorted lt acc /\ (forall j, In j acc <-> k <= j < i /\ pos_word d (word rs k j)).

  Lemma ssorted_snoc : forall (l : list nat) x, StronglySorted lt l -> (forall y, In y l -> y < x) -> StronglySorted lt (l ++ [x]).
  Proof.
    intros l x H Hx. induction H as [|a l Hs IH Hf]; cbn; [repeat constructor|]. constructor.
    - apply IH. intros y Hy. apply Hx. right; exact Hy.
    - apply Forall_app. split; [exact Hf|]. repeat constructor. apply Hx. left; reflexivity.
  Qed.

  Lemma dag_row_ok : forall fuel rs k i acc, k <= i -> i < length rs -> length rs - i < fuel -> row_of rs k acc i ->
    exists row, dag_row d fuel rs k i acc = Ok row /\ row_of rs k row (length rs).
  Proof.
    induction fuel as [|fuel IH]; intros rs k i acc H1 H2 H3 H4; [lia|]. cbn [dag_row].
    destruct (find_total (word rs k i)) as (f & p & b & Hf). rewrite Hf. cbn [bind fst snd]. destruct H4 as [Hs Hin].
    destruct b; cbn [negb].
    - assert (Hr : row_of rs k (if ltb64 E (lit64 E 0 0) f then acc ++ [i] else acc) (S i)).
      { destruct (ltb64 E (lit64 E 0 0) f) eqn:El.
        - apply (find_pos Hf) in El. split.
          + apply ssorted_snoc; [exact Hs|]. intros y Hy. apply Hin in Hy. lia.
          + intro j. rewrite in_app_iff, Hin. cbn [In]. split.
            * intros [[? ?]|[<-|[]]]; [split; [lia|assumption]|split; [lia|exact El]].
            * intros [? ?]. destruct (Nat.eq_dec i j) as [->|]; [auto|]. left. split; [lia|assumption].
        - split; [exact Hs|]. intro j. rewrite Hin. split; intros [? Hp].
          + split; [lia|exact Hp].
          + split; [|exact Hp]. destruct (Nat.eq_dec i j) as [<-|]; [|lia]. apply (find_pos Hf) in Hp. congruence. }
      destruct (Nat.leb_spec (length rs) (S i)).
      + eexists. split; [reflexivity|]. replace (length rs) with (S i) by lia. exact Hr.
      + apply IH; auto; lia.
    - eexists. split; [reflexivity|]. split; [exact Hs|]. intro j. rewrite Hin. split; intros [Hj Hp].
      + split; [lia|exact Hp].
      + split; [|exact Hp]. destruct (Nat.lt_ge_cases j i); [lia|]. exfalso.
        rewrite (@str_slice rs k (S i) (S j)) in Hp by lia. revert Hp. eapply notok_ext; [|exact Hf]. apply string_nonempty, slice_ne; lia.
  Qed.

  (** What dag[k] is. *)
  Definition dag_spec (rs : list rune) (k : nat) (row : list nat) : Prop :=
    (row <> [] /\ row_of rs k row (length rs)) \/ (row = [k] /\ forall j, k <= j < length rs -> ~ pos_word d (word rs k j)).

  Lemma dag_rows_ok : forall ks rs, (forall k, In k ks -> k < length rs) ->
    exists rows, dag_rows d rs ks = Ok rows /\ Forall2 (dag_spec rs) ks rows.
  Proof.
    induction ks as [|k ks IH]; intros rs H; [exists []; split; [reflexivity|constructor]|]. cbn [dag_rows].
    destruct (@dag_row_ok (S (length rs)) rs k k []) as (row & H1 & H2).
    { lia. } { apply H; left; reflexivity. } { specialize (H k (or_introl eq_refl)). lia. }
    { split; [constructor|]. intro j. split; [intros []|lia]. }
    rewrite H1. cbn [bind]. destruct (IH rs) as (rows & H3 & H4); [intros; apply H; right; assumption|]. rewrite H3. cbn [bind].
    eexists. split; [reflexivity|]. constructor; [|exact H4]. destruct row as [|x row].
    - right. split; [reflexivity|]. intros j Hj Hp. destruct H2 as [_ H2]. apply (proj2 (H2 j)). split; auto.
    - left. split; [discriminate|exact H2].
  Qed.

  Lemma F2_nth : forall A B (R : A -> B -> Prop) l l', Forall2 R l l' -> forall i a, nth_error l i = Some a -> exists b, nth_error l' i = Some b /\ R a b.
  Proof. intros A B R l l' H. induction H; intros [|i] z Hz; try discriminate; cbn in *; [injection Hz as <-; eauto|eauto]. Qed.

  Lemma F2_length : forall A B (R : A -> B -> Prop) l l', Forall2 R l l' -> length l = length l'.
  Proof. intros A B R l l' H. induction H; cbn; auto. Qed.

  Lemma seq_nth_error : forall n s i, i < n -> nth_error (seq s n) i = Some (s + i).
  Proof. induction n as [|n IH]; intros s [|i] H; try lia; cbn; [f_equal; lia|]. rewrite IH by lia. f_equal; lia. Qed.

  Lemma get_dag_ok : forall rs, exists dag, get_dag d rs = Ok dag /\ length dag = length rs /\
    forall k, k < length rs -> exists row, nth_error dag k = Some row /\ dag_spec rs k row.
  Proof.
    intro rs. destruct (@dag_rows_ok (seq 0 (length rs)) rs) as (dag & H1 & H2). { intros k Hk. apply in_seq in Hk. lia. }
    exists dag. split; [exact H1|]. split; [apply F2_length in H2; rewrite seq_length in H2; auto|].
    intros k Hk. destruct (F2_nth H2 (seq_nth_error 0 Hk)) as (row & H3 & H4). eauto.
  Qed.

  Lemma spec_range : forall rs k row j, k < length rs -> dag_spec rs k row -> In j row -> k <= j < length rs.
  Proof. intros rs k row j Hk [[_ [_ H]]|[-> H]] Hj; [apply H in Hj; lia|]. destruct Hj as [<-|[]]. lia. Qed.
  Lemma spec_ne : forall rs k row, dag_spec rs k row -> row <> [].
  Proof. intros rs k row [[H _]|[-> _]]; [exact H|discriminate]. Qed.

  (** *** calc *)
  Definition best_of (l : list (route E)) : route E :=
    match l with [] => (lit64 E 0 0, 0) | x :: t => fold_left (fun a b => better (Some a) b) t x end.
  Definition cand (rs : list rune) (tl : list (route E)) (idx i : nat) : route E :=
    (add64 E (edge d T (word rs idx i)) (fst (nth (i - idx) tl (lit64 E 0 0, 0))), i).

  Lemma calc_row_ok : forall rs idx row tl cur,
    calc_row d rs T idx row tl cur =
      Ok (match cur with
          | Some x => Some (fold_left (fun a b => better (Some a) b) (map (cand rs tl idx) row) x)
          | None => match row with [] => None | _ => Some (best_of (map (cand rs tl idx) row)) end
          end).
  Proof.
    intros rs idx row tl. induction row as [|i row IH]; intro cur; [destruct cur; reflexivity|]. cbn [calc_row].
    destruct (find_total (word rs idx i)) as (f & p & b & Hf). rewrite Hf. cbn [bind fst snd].
    assert (He : (if b then sub64 E (m_log E f) T else sub64 E (m_log E (lit64 E 1 0)) T) = edge d T (word rs idx i)).
    { unfold edge. unfold seg_find in Hf. rewrite Hf. destruct b; reflexivity. }
    rewrite IH. f_equal. destruct cur as [x|]; cbn [map fold_left best_of better]; change (cand rs tl idx i) with (add64 E (edge d T (word rs idx i)) (fst (nth (i - idx) tl (lit64 E 0 0, 0))), i); rewrite <- He; reflexivity.
  Qed.

  Lemma calc_rows_ok : forall rs rows idx, exists tl, calc_rows d rs T idx rows = Ok tl /\ length tl = S (length rows) /\
    nth_error tl (length rows) = Some (lit64 E 0 0, 0) /\
    forall i row, nth_error rows i = Some row -> exists r, nth_error tl i = Some r /\ r = best_of (map (cand rs (skipn (S i) tl) (idx + i)) row).
  Proof.
    induction rows as [|row rows IH]; intro idx.
    - eexists. split; [reflexivity|]. split; [reflexivity|]. split; [reflexivity|]. intros [|i] row H; discriminate.
    - destruct (IH (S idx)) as (tl & H1 & H2 & H3 & H4). cbn [calc_rows]. rewrite H1. cbn [bind]. rewrite calc_row_ok. cbn [bind].
      eexists. split; [reflexivity|]. split; [cbn; lia|]. split; [exact H3|]. intros [|i] row' Hr; cbn [nth_error] in *.
      + injection Hr as ->. eexists. split; [reflexivity|]. rewrite Nat.add_0_r. cbn [skipn]. destruct row'; reflexivity.
      + destruct (H4 i row' Hr) as (r & G1 & G2). exists r. split; [exact G1|]. cbn [skipn]. rewrite Nat.add_succ_r, <- Nat.add_succ_l. exact G2.
  Qed.

  (** The routes, as a function. *)
  Definition rt (tl : list (route E)) (x : nat) : route E := nth x tl (lit64 E 0 0, 0).
  Definition cand' (rs : list rune) (tl : list (route E)) (i j : nat) : route E := (add64 E (edge d T (word rs i j)) (fst (rt tl (S j))), j).

  Record routes_ok (rs : list rune) (tl : list (route E)) : Prop := {
    ro_end : rt tl (length rs) = (lit64 E 0 0, 0);
    ro_step : forall i, i < length rs -> exists row, dag_spec rs i row /\ rt tl i = best_of (map (cand' rs tl i) row)
  }.

  Lemma nth_skip : forall A (l : list A) n i (a : A), nth i (skipn n l) a = nth (n + i) l a.
  Proof. intros A l n. revert l; induction n as [|n IH]; intros [|x l] i a; cbn; auto; destruct i; auto. Qed.

  Lemma calc_ok : forall rs, exists tl, calc_with d T rs = Ok tl /\ routes_ok rs tl.
  Proof.
    intro rs. destruct (get_dag_ok rs) as (dag & H1 & H2 & H3). unfold calc_with. rewrite H1. cbn [bind].
    destruct (calc_rows_ok rs dag 0) as (tl & K1 & K2 & K3 & K4). exists tl. split; [exact K1|]. constructor.
    - unfold rt. rewrite <- H2. apply nth_error_nth. exact K3.
    - intros i Hlt. destruct (H3 i Hlt) as (row & R1 & R2). destruct (K4 i row R1) as (r & G1 & G2). exists row. split; [exact R2|].
      unfold rt at 1. rewrite (nth_error_nth tl i (lit64 E 0 0, 0) G1), G2. f_equal. apply map_ext_in. intros j Hj. pose proof (spec_range Hlt R2 Hj).
      unfold cand, cand', rt. cbn [plus]. rewrite nth_skip. do 4 f_equal. lia.
  Qed.

  Lemma fold_better_in : forall (l : list (route E)) x, let r := fold_left (fun a b => better (Some a) b) l x in r = x \/ In r l.
  Proof.
    induction l as [|y l IH]; intros x r; subst r; [auto|]. cbn [fold_left]. destruct (IH (better (Some x) y)) as [H|H]; [|right; right; exact H].
    rewrite H. unfold better. destruct (_ || _); [right; left|left]; reflexivity.
  Qed.

  Lemma route_in : forall rs tl i, routes_ok rs tl -> i < length rs ->
    exists row j, dag_spec rs i row /\ In j row /\ rt tl i = cand' rs tl i j /\ i <= j < length rs /\ route_index tl i = j.
  Proof.
    intros rs tl i H Hlt. destruct (ro_step H Hlt) as (row & R1 & R2).
    assert (exists j, In j row /\ rt tl i = cand' rs tl i j) as (j & Hj & He).
    { pose proof (spec_ne R1) as Hne. destruct row as [|j0 row]; [congruence|]. rewrite R2. cbn [map best_of].
      destruct (fold_better_in (map (cand' rs tl i) row) (cand' rs tl i j0)) as [Hx|Hx]; [exists j0; split; [left; reflexivity|exact Hx]|].
      apply in_map_iff in Hx as (j & Hj & Hin). exists j. split; [right; exact Hin|]. symmetry; exact Hj. }
    exists row, j. pose proof (spec_range Hlt R1 Hj). repeat split; auto; try lia. unfold route_index. unfold rt in He. rewrite He. reflexivity.
  Qed.

  (** The pieces the loops walk through. *)
  Inductive follows (rs : list rune) (tl : list (route E)) : nat -> list (list rune) -> Prop :=
  | fo_end : follows rs tl (length rs) []
  | fo_step : forall x ps, x < length rs -> x <= route_index tl x < length rs -> follows rs tl (S (route_index tl x)) ps ->
      follows rs tl x (slice rs x (S (route_index tl x)) :: ps).

  Lemma follows_ex : forall rs tl, routes_ok rs tl -> forall n x, length rs - x <= n -> x <= length rs -> exists ps, follows rs tl x ps.
  Proof.
    intros rs tl H. induction n as [|n IH]; intros x Hn Hx.
    - replace x with (length rs) by lia. exists []. constructor.
    - destruct (Nat.eq_dec x (length rs)) as [->|]; [exists []; constructor|].
      destruct (route_in H (i := x)) as (row & j & _ & _ & _ & Hj & He); [lia|].
      destruct (IH (S j)) as (ps & Hps); [lia|lia|]. exists (slice rs x (S (route_index tl x)) :: ps). constructor; rewrite ?He; auto; lia.
  Qed.

  Lemma follows_concat : forall rs tl x ps, follows rs tl x ps -> concat ps = skipn x rs.
  Proof.
    intros rs tl x ps H. induction H as [|x ps H1 H2 H3 IH]; [rewrite skipn_all; reflexivity|]. cbn [concat]. rewrite IH.
    rewrite <- (slice_to_end rs (S (route_index tl x))), <- (slice_to_end rs x). apply slice_app; lia.
  Qed.

  Lemma follows_ne : forall rs tl x ps, follows rs tl x ps -> Forall (fun p => p <> []) ps.
  Proof. intros rs tl x ps H. induction H; constructor; auto. apply slice_ne; lia. Qed.

  Lemma skip_slice : forall (rs : list rune) i j, i <= j -> skipn i rs = slice rs i j ++ skipn j rs.
  Proof. intros rs i j H. unfold slice. rewrite <- (firstn_skipn (j - i) (skipn i rs)) at 1. f_equal. rewrite skipn_skipn. f_equal. lia. Qed.

  (** Tilings of a suffix are routes of the DAG. *)
  Lemma row_tile : forall rs i row j ps, i < length rs -> dag_spec rs i row -> In j row -> tiles d (skipn (S j) rs) ps ->
    tiles d (skipn i rs) (slice rs i (S j) :: ps).
  Proof.
    intros rs i row j ps Hi' Hs Hj Ht. pose proof (spec_range Hi' Hs Hj) as Hr. rewrite (@skip_slice rs i (S j)) by lia.
    destruct Hs as [[_ [_ Hin]]|[-> Hno]].
    - apply tiles_word; [apply slice_ne; lia|apply Hin; exact Hj|exact Ht].
    - destruct Hj as [<-|[]]. assert (Hlen : length (slice rs i (S i)) = 1) by (rewrite slice_length by lia; lia).
      destruct (slice rs i (S i)) as [|a [|]] eqn:Es; try discriminate. cbn [app]. apply tiles_char; [|exact Ht].
      intros q t Hq Hqn Hp. assert (Hqs : skipn i rs = q ++ t) by (transitivity (slice rs i (S i) ++ skipn (S i) rs); [apply skip_slice; lia|rewrite Es; exact Hq]).
      destruct q as [|b q]; [congruence|]. apply (Hno (i + length q)).
      + apply (f_equal (@length _)) in Hqs. rewrite skipn_length, app_length in Hqs. cbn [length] in Hqs. lia.
      + replace (slice rs i (S (i + length q))) with (b :: q); [exact Hp|]. unfold slice. rewrite Hqs. replace (S (i + length q) - i) with (length (b :: q)) by (cbn [length]; lia).
        rewrite firstn_app, firstn_all, Nat.sub_diag, firstn_O, app_nil_r. reflexivity.
  Qed.

  Lemma tile_row : forall rs i row qs, i < length rs -> dag_spec rs i row -> tiles d (skipn i rs) qs ->
    exists j ps, qs = slice rs i (S j) :: ps /\ In j row /\ tiles d (skipn (S j) rs) ps.
  Proof.
    intros rs i row qs Hi' Hs Ht. remember (skipn i rs) as l eqn:El. destruct Ht as [|p rest ps Hp Hw Ht|a rest ps Hno Ht].
    - apply (f_equal (@length _)) in El. rewrite skipn_length in El. cbn in El. lia.
    - destruct p as [|b p]; [congruence|]. exists (i + length p), ps.
      assert (Hsl : slice rs i (S (i + length p)) = b :: p).
      { unfold slice. rewrite <- El. replace (S (i + length p) - i) with (length (b :: p)) by (cbn [length]; lia).
        rewrite firstn_app, firstn_all, Nat.sub_diag, firstn_O, app_nil_r. reflexivity. }
      assert (Hlen : i + length p < length rs).
      { apply (f_equal (@length _)) in El. rewrite skipn_length, app_length in El. cbn [length] in El. lia. }
      split; [rewrite Hsl; reflexivity|]. split.
      + destruct Hs as [[_ [_ Hin]]|[-> Hno]].
        * apply Hin. rewrite Hsl. split; [lia|exact Hw].
        * exfalso. apply (Hno (i + length p)); [lia|]. rewrite Hsl. exact Hw.
      + replace (skipn (S (i + length p)) rs) with rest; [exact Ht|].
        replace (S (i + length p)) with (length (b :: p) + i) by (cbn [length]; lia). rewrite <- skipn_skipn, <- El, skipn_app, skipn_all, Nat.sub_diag. reflexivity.
    - exists i, ps.
      assert (Hsl : slice rs i (S i) = [a]). { unfold slice. rewrite <- El. replace (S i - i) with 1 by lia. reflexivity. }
      split; [rewrite Hsl; reflexivity|]. split.
      + destruct Hs as [[Hne [_ Hin]]|[-> _]]; [|left; reflexivity]. exfalso. destruct row as [|j row]; [congruence|].
        destruct (proj1 (Hin j) (or_introl eq_refl)) as [Hj Hp]. revert Hp. apply (Hno _ (skipn (S j) rs)); [|apply slice_ne; lia].
        rewrite El. apply skip_slice; lia.
      + replace (skipn (S i) rs) with rest; [exact Ht|]. replace (S i) with (1 + i) by lia. rewrite <- skipn_skipn, <- El. reflexivity.
  Qed.

  Lemma follows_tiles : forall rs tl x ps, routes_ok rs tl -> follows rs tl x ps -> tiles d (skipn x rs) ps /\ weight d T ps = fst (rt tl x).
  Proof.
    intros rs tl x ps Hr H. induction H as [|x ps H1 H2 H3 [IH1 IH2]].
    - rewrite skipn_all, (ro_end Hr). split; [constructor|reflexivity].
    - destruct (route_in Hr H1) as (row & j & R1 & R2 & R3 & R4 & R5). rewrite R5 in *. split.
      + eapply row_tile; eauto.
      + unfold weight. cbn [fold_right]. fold (weight d T ps). rewrite IH2, R3. reflexivity.
  Qed.
End Dag.
