(** Package pos: RegexpSplit and the regular expressions. *)
From Verif Require Import S_Pos P_Utf8 P_Utf8b P_Hmm.
Set Implicit Arguments. Unset Strict Implicit.

(** ** RegexpSplit *)
Fixpoint pieces (s : bytes) (b : nat) (ms : list (nat * nat)) : list bytes :=
  match ms with
  | [] => [skipn b s]
  | (m0, m1) :: t => slice s b m0 :: slice s m0 m1 :: pieces s m1 t
  end.

Lemma firstn_slice : forall A (s : list A) b m, b <= m -> firstn b s ++ slice s b m = firstn m s.
Proof. intros A s b m H. rewrite <- (slice0 s b), <- (slice0 s m). apply slice_app; lia. Qed.

Lemma loop_cap : forall n s ms b e strs, ordered (length s) b ms -> b <= length s -> e <= b -> concat strs = firstn b s ->
  exists b' e' strs', rsplit_loop true n s ms b e strs = Ok (b', e', strs') /\ b' <= length s /\ e' <= b' /\ concat strs' = firstn b' s.
Proof.
  intros n s. induction ms as [|(m0, m1) ms IH]; intros b e strs Ho Hb He Hc; cbn [rsplit_loop].
  - exists b, e, strs. auto.
  - cbn [ordered] in Ho. destruct Ho as (H1 & H2 & H3). destruct ((0 <? n)%Z && (n - 1 <=? Z.of_nat (length strs))%Z); [exists b, e, strs; auto|].
    rewrite (@gslice_ok _ s m0 m1) by lia. cbn [bind]. destruct (Nat.eqb_spec m1 0) as [->|Hm]; cbn [bind].
    + apply IH; auto; try lia. rewrite concat_app, Hc. cbn [concat]. rewrite app_nil_r. replace b with 0 by lia. replace m0 with 0 by lia. reflexivity.
    + rewrite (@gslice_ok _ s b m0) by lia. cbn [bind]. apply IH; auto; try lia.
      rewrite !concat_app, Hc. cbn [concat]. rewrite !app_nil_r. rewrite firstn_slice by lia. apply firstn_slice. lia.
Qed.

Lemma c38 : forall s n ms, n <> 0%Z -> ordered (length s) 0 ms -> exists l, regexp_split true true s n ms = Ok l /\ concat l = s.
Proof.
  intros s n ms Hn Ho. unfold regexp_split. destruct (Z.eqb_spec n 0) as [|_]; [contradiction|]. destruct s as [|a s']; [exists [[]]; auto|].
  set (s := a :: s') in *. destruct (@loop_cap n s ms 0 0 []) as (b & e & strs & H1 & H2 & H3 & H4); auto; try lia. rewrite H1. cbn [bind].
  destruct (Nat.eqb_spec e (length s)) as [He|He].
  - exists strs. split; [reflexivity|]. rewrite H4. replace b with (length s) by lia. apply firstn_all.
  - rewrite gslice_ok by lia. cbn [bind]. eexists. split; [reflexivity|]. rewrite concat_app, H4. cbn [concat]. rewrite app_nil_r, firstn_slice by lia. apply firstn_all.
Qed.

(** Without limit, no empty match. *)
Lemma loop_pieces : forall n s ms b e strs, (n < 0)%Z -> ordered (length s) b ms -> Forall (fun m => fst m < snd m) ms -> b <= length s -> e < length s ->
  exists b' e' strs', rsplit_loop true n s ms b e strs = Ok (b', e', strs') /\ e' < length s /\ b' <= length s /\ strs' ++ [skipn b' s] = strs ++ pieces s b ms.
Proof.
  intros n s. induction ms as [|(m0, m1) ms IH]; intros b e strs Hn Ho Hf Hb He; cbn [rsplit_loop].
  - exists b, e, strs. auto.
  - cbn [ordered] in Ho. destruct Ho as (H1 & H2 & H3). inversion_clear Hf. cbn [fst snd] in H.
    destruct (Z.ltb_spec 0 n); [lia|]. cbn [andb]. destruct (Nat.eqb_spec m1 0); [lia|].
    rewrite !gslice_ok by lia. cbn [bind].
    destruct (IH m1 m0 ((strs ++ [slice s b m0]) ++ [slice s m0 m1])) as (b' & e' & strs' & K1 & K2 & K3 & K4); auto; try lia.
    exists b', e', strs'. split; [exact K1|]. split; [exact K2|]. split; [exact K3|]. rewrite K4. cbn [pieces]. rewrite <- !app_assoc. reflexivity.
Qed.

Lemma split_pieces : forall s ms n, (n < 0)%Z -> ordered (length s) 0 ms -> Forall (fun m => fst m < snd m) ms ->
  regexp_split true true s n ms = Ok (pieces s 0 ms).
Proof.
  intros s ms n Hn Ho Hf. unfold regexp_split. destruct (Z.eqb_spec n 0) as [|_]; [lia|]. destruct s as [|a s'].
  - destruct ms as [|(m0, m1) ms]; [reflexivity|]. cbn in Ho. inversion_clear Hf. cbn in H. lia.
  - set (s := a :: s') in *. assert (0 < length s) by (cbn; lia).
    destruct (@loop_pieces n s ms 0 0 [] Hn Ho Hf) as (b & e & strs & H1 & H2 & H3 & H4); try lia. rewrite H1. cbn [bind].
    destruct (Nat.eqb_spec e (length s)); [lia|]. rewrite gslice_ok by lia. cbn [bind]. rewrite slice_to_end, H4. reflexivity.
Qed.

Lemma pieces_at : forall s ms b, ordered (length s) b ms -> b <= length s ->
  length (pieces s b ms) = 2 * length ms + 1 /\ concat (pieces s b ms) = skipn b s /\
  forall i m0 m1, nth_error ms i = Some (m0, m1) ->
    nth_error (pieces s b ms) (2 * i + 1) = Some (slice s m0 m1) /\ b + length (concat (firstn (2 * i + 1) (pieces s b ms))) = m0.
Proof.
  intros s. induction ms as [|(m0, m1) ms IH]; intros b Ho Hb.
  - cbn. rewrite app_nil_r. repeat split; destruct i; discriminate.
  - cbn [ordered] in Ho. destruct Ho as (H1 & H2 & H3). destruct (IH m1 H3 H2) as (K1 & K2 & K3). cbn [pieces length concat]. split; [lia|]. split.
    { rewrite K2, app_assoc, slice_app by lia. rewrite <- (slice_to_end s m1), <- (slice_to_end s b). apply slice_app; lia. }
    intros [|i] p q Hp.
    + injection Hp as <- <-. cbn [Nat.mul Nat.add nth_error firstn concat]. split; [reflexivity|]. rewrite app_nil_r, slice_length by lia. lia.
    + cbn [nth_error] in Hp. destruct (K3 i p q Hp) as [L1 L2]. replace (2 * S i + 1) with (S (S (2 * i + 1))) by lia. cbn [nth_error firstn concat].
      split; [exact L1|]. rewrite !app_length, !slice_length by lia. lia.
Qed.

Lemma c38_pieces : forall s n ms, (n < 0)%Z -> ordered (length s) 0 ms -> Forall (fun m => fst m < snd m) ms ->
  exists l, regexp_split true true s n ms = Ok l /\ length l = 2 * length ms + 1 /\ concat l = s /\
    forall i m0 m1, nth_error ms i = Some (m0, m1) -> nth_error l (2 * i + 1) = Some (slice s m0 m1) /\ length (concat (firstn (2 * i + 1) l)) = m0.
Proof.
  intros s n ms Hn Ho Hf. exists (pieces s 0 ms). split; [apply split_pieces; auto|]. destruct (@pieces_at s ms 0 Ho ltac:(lia)) as (H1 & H2 & H3). auto.
Qed.

(** Length of the result with a limit. *)
Lemma loop_len : forall cap n s ms b e strs b' e' strs', (0 < n)%Z -> rsplit_loop cap n s ms b e strs = Ok (b', e', strs') ->
  (Z.of_nat (length strs) <= n - 1 + (if cap then 1 else 0))%Z -> (Z.of_nat (length strs') <= n - 1 + (if cap then 1 else 0))%Z.
Proof.
  intros cap n s. induction ms as [|(m0, m1) ms IH]; intros b e strs b' e' strs' Hn H Hl; cbn [rsplit_loop] in H.
  - injection H as <- <- <-. exact Hl.
  - destruct (Z.ltb_spec 0 n); [|lia]. cbn [andb] in H. destruct (Z.leb_spec (n - 1) (Z.of_nat (length strs))); [injection H as <- <- <-; exact Hl|].
    assert (G : forall A (x : A) l, Z.of_nat (length (l ++ [x])) = (Z.of_nat (length l) + 1)%Z) by (intros; rewrite app_length; cbn; lia).
    destruct (m1 =? 0); cbn [bind] in H.
    + destruct cap.
      * destruct (gslice s m0 m1); try discriminate. cbn [bind] in H. eapply IH; [exact Hn|exact H|]. rewrite G. lia.
      * cbn [bind] in H. eapply IH; eauto.
    + destruct (gslice s b m0); try discriminate. cbn [bind] in H. destruct cap.
      * destruct (gslice s m0 m1); try discriminate. cbn [bind] in H. eapply IH; [exact Hn|exact H|]. rewrite !G. lia.
      * cbn [bind] in H. eapply IH; [exact Hn|exact H|]. rewrite !G. lia.
Qed.

Lemma split_len : forall ne cap s n ms l, (0 < n)%Z -> regexp_split ne cap s n ms = Ok l -> (Z.of_nat (length l) <= n + (if cap then 1 else 0))%Z.
Proof.
  intros ne cap s n ms l Hn H. unfold regexp_split in H. destruct (Z.eqb_spec n 0) as [|_]; [lia|].
  assert (G : forall (e : nat) r, (do r <- rsplit_loop cap n s ms 0 0 [] ; let '(b, e, strs) := r in
      if e =? length s then Ok strs else do x <- gslice s b (length s) ; Ok (strs ++ [x])) = Ok r -> (Z.of_nat (length r) <= n + (if cap then 1 else 0))%Z).
  { intros _ r Hr. destruct (rsplit_loop cap n s ms 0 0 []) as [[[b e] strs]| |] eqn:El; try discriminate. cbn [bind] in Hr.
    apply loop_len in El; [|lia|cbn; destruct cap; lia]. destruct (e =? length s); [injection Hr as <-; lia|].
    destruct (gslice s b (length s)); try discriminate. injection Hr as <-. rewrite app_length. cbn [length]. lia. }
  destruct s as [|a s]; [|apply (G 0); exact H]. destruct ne; [injection H as <-; cbn; destruct cap; lia|apply (G 0); exact H].
Qed.

(** ** FindAll *)
Lemma find_all_ok : forall m, wf_matcher m -> nonempty_matcher m -> forall fuel s off, off <= length s ->
  ordered (length s) off (find_all fuel m (skipn off s) off) /\ Forall (fun p => fst p < snd p) (find_all fuel m (skipn off s) off).
Proof.
  intros m Hw Hn. induction fuel as [|fuel IH]; intros s off Ho; cbn [find_all]; [split; [exact I|constructor]|].
  destruct (m (skipn off s)) as [[a b]|] eqn:Em; [|split; [exact I|constructor]].
  pose proof (Hw _ _ _ Em) as W. pose proof (Hn _ _ _ Em) as N. rewrite skipn_length in W. rewrite skipn_skipn. replace (b + off) with (off + b) by lia.
  destruct (IH s (off + b)) as [K1 K2]; [lia|]. cbn [ordered]. split; [repeat split; try lia; exact K1|]. constructor; [cbn; lia|exact K2].
Qed.

Lemma split_by_ok : forall m s, wf_matcher m -> nonempty_matcher m -> exists l, split_by m s = Ok l /\ concat l = s /\
  (rune_matcher m -> valid s -> Forall valid l).
Proof.
  intros m s Hw Hn. unfold split_by. destruct (find_all_ok Hw Hn (length s) (s := s) (off := 0)) as [H1 H2]; [lia|]. cbn [skipn] in H1, H2.
  exists (pieces s 0 (find_all (length s) m s 0)). split; [apply split_pieces; auto; lia|]. split; [destruct (@pieces_at s _ 0 H1 ltac:(lia)) as (_ & H & _); exact H|].
  intros Hr Hv. clear H1 H2. assert (G : forall fuel off, valid (skipn off s) -> Forall valid (pieces s off (find_all fuel m (skipn off s) off))).
  { induction fuel as [|fuel IH]; intros off Ho; cbn [find_all]; [repeat constructor; exact Ho|].
    destruct (m (skipn off s)) as [[a b]|] eqn:Em; cbn [pieces]; [|repeat constructor; exact Ho].
    destruct (Hr _ _ _ Ho Em) as (V1 & V2 & V3). constructor; [rewrite slice_skipn; exact V1|]. constructor.
    - replace (slice s (off + a) (off + b)) with (slice (skipn off s) a b); [exact V2|]. unfold slice. rewrite skipn_skipn. f_equal; [lia|f_equal; lia].
    - rewrite skipn_skipn in V3 |- *. rewrite Nat.add_comm in V3. replace (b + off) with (off + b) by lia. apply IH. exact V3. }
  apply (G (length s) 0). exact Hv.
Qed.

(** ** Classes of runes *)
Section Run.
  Variable p : rune -> bool.
  Lemma run_split : forall s a b, reg_run p s = Some (a, b) -> exists u1 u2 u3, units s = u1 ++ u2 ++ u3 /\ u2 <> [] /\
    a = length (concat (map snd u1)) /\ b = a + length (concat (map snd u2)) /\ Forall (fun u => p (fst u) = true) u2.
  Proof.
    intros s a b H. unfold reg_run in H. set (np := fun u : rune * bytes => negb (p (fst u))) in *. set (q := fun u : rune * bytes => p (fst u)) in *.
    destruct (tw_split np (units s)) as (r & H1 & H2 & H3). set (pre := take_while np (units s)) in *.
    assert (Hsk : skipn (length pre) (units s) = r) by (rewrite H1, skipn_app, skipn_all, Nat.sub_diag; reflexivity). rewrite Hsk in H.
    destruct (tw_split q r) as (r' & G1 & G2 & _). remember (take_while q r) as run eqn:Er. clear Er.
    destruct run as [|u run]; [discriminate|]. injection H as <- <-.
    exists pre, (u :: run), r'. rewrite <- G1. repeat split; auto. discriminate.
  Qed.

  Lemma run_wf : wf_matcher (reg_run p) /\ nonempty_matcher (reg_run p).
  Proof.
    split; intros s a b H; destruct (run_split H) as (u1 & u2 & u3 & H1 & H2 & -> & -> & H5).
    - split; [lia|]. rewrite <- (units_concat s), H1, !map_app, !concat_app, !app_length. lia.
    - pose proof (@units_len_pos u2 s) as Hp. assert (incl u2 (units s)) by (rewrite H1; intros x Hx; apply in_or_app; right; apply in_or_app; auto).
      specialize (Hp H0 H2). lia.
  Qed.

  Lemma run_rune : rune_matcher (reg_run p).
  Proof.
    intros s a b Hv H. destruct (run_split H) as (u1 & u2 & u3 & H1 & H2 & -> & -> & H5).
    apply valid_units in Hv. rewrite H1 in Hv. apply Forall_app in Hv as [V1 Hv]. apply Forall_app in Hv as [V2 V3].
    assert (Hs : s = concat (map snd u1) ++ concat (map snd u2) ++ concat (map snd u3)) by (rewrite <- (units_concat s), H1, !map_app, !concat_app; reflexivity).
    set (x := concat (map snd u1)) in *. set (y := concat (map snd u2)) in *. set (z := concat (map snd u3)) in *.
    assert (Vx : valid x) by exact (valid_of_units V1). assert (Vy : valid y) by exact (valid_of_units V2). assert (Vz : valid z) by exact (valid_of_units V3). clearbody x y z. subst s.
    rewrite slice_skipn. rewrite firstn_app, firstn_all, Nat.sub_diag, firstn_O, app_nil_r.
    assert (Hx : skipn (length x) (x ++ y ++ z) = y ++ z) by (rewrite skipn_app, skipn_all, Nat.sub_diag; reflexivity).
    rewrite Hx, firstn_app, firstn_all, Nat.sub_diag, firstn_O, app_nil_r. split; [assumption|]. split; [assumption|].
    rewrite Nat.add_comm, <- skipn_skipn, Hx, skipn_app, skipn_all, Nat.sub_diag. assumption.
  Qed.

  Lemma run_matches : forall s, matches (reg_run p) s = existsb p (runes_of s).
  Proof.
    intro s. unfold matches, reg_run, runes_of. induction (units s) as [|u us IH]; [reflexivity|]. cbn [take_while map existsb].
    destruct (p (fst u)) eqn:Ep; cbn [negb orb length skipn take_while].
    - rewrite Ep. reflexivity.
    - rewrite <- IH. destruct (take_while _ (skipn _ us)); reflexivity.
  Qed.
End Run.

(** ** Matches of ASCII characters *)
Section First.
  Variable len : bytes -> nat.
  Hypothesis Hlen : forall s, len s <= length s.
  Hypothesis Hasc : forall s, Forall (fun b => (bz b < 128)%Z) (firstn (len s) s).

  Lemma first_split : forall s i a b, first_at len s i = Some (a, b) -> exists k, a = i + k /\ b = a + len (skipn k s) /\ 0 < len (skipn k s) /\ k + len (skipn k s) <= length s.
  Proof.
    induction s as [|c s IH]; intros i a b H; cbn [first_at] in H.
    - destruct (len []) eqn:El; [discriminate|]. pose proof (Hlen []). cbn in H0. lia.
    - destruct (len (c :: s)) as [|n] eqn:El.
      + destruct (IH _ _ _ H) as (k & -> & -> & H3 & H4). exists (S k). cbn [skipn length]. repeat split; auto; lia.
      + injection H as <- <-. exists 0. cbn [skipn]. rewrite El. pose proof (Hlen (c :: s)). repeat split; lia.
  Qed.

  Lemma first_wf : wf_matcher (fun s => first_at len s 0) /\ nonempty_matcher (fun s => first_at len s 0).
  Proof. split; intros s a b H; destruct (first_split H) as (k & -> & -> & H3 & H4); lia. Qed.

  Lemma first_rune : rune_matcher (fun s => first_at len s 0).
  Proof.
    intros s a b Hv H. destruct (first_split H) as (k & -> & -> & H3 & H4). cbn [plus] in *. clear H.
    assert (Hsy : sync (skipn k s)).
    { pose proof (Hasc (skipn k s)) as Ha. destruct (skipn k s) as [|x t]; [exact I|]. apply ascii_sync. destruct (len (x :: t)); [lia|]. inversion_clear Ha. assumption. }
    rewrite slice_skipn, Nat.add_comm, <- skipn_skipn.
    rewrite <- (firstn_skipn k s) in Hv. apply (valid_split Hsy) in Hv as [V1 V2]. split; [exact V1|].
    rewrite <- (firstn_skipn (len (skipn k s)) (skipn k s)) in V2. apply (valid_strip (Hasc _)) in V2. exact V2.
  Qed.
End First.

Lemma skip_at_len : forall s, skip_at s <= length s.
Proof.
  intro s. unfold skip_at. pose proof (tw_length skip_a s). destruct (take_while skip_a s) as [|x l]; [|exact H].
  destruct s as [|b s]; [lia|]. destruct (skip_b b); [|lia]. pose proof (tw_length (Byte.eqb x5d) s). destruct (take_while (Byte.eqb x5d) s); cbn [length] in *; lia.
Qed.
Lemma skip_at_ascii : forall s, Forall (fun b => (bz b < 128)%Z) (firstn (skip_at s) s).
Proof.
  assert (Ha : forall b, skip_a b = true -> (bz b < 128)%Z) by (intro b; destruct b; intro H; first [reflexivity|discriminate H]).
  assert (Hb : forall b, skip_b b = true -> (bz b < 128)%Z) by (intro b; destruct b; intro H; first [reflexivity|discriminate H]).
  assert (Hc : forall b, Byte.eqb x5d b = true -> (bz b < 128)%Z) by (intro b; destruct b; intro H; first [reflexivity|discriminate H]).
  intro s. unfold skip_at. pose proof (tw_firstn skip_a s) as F. pose proof (@tw_ascii skip_a s Ha) as G. destruct (take_while skip_a s) as [|x l]; [|rewrite F; exact G].
  destruct s as [|b s]; [constructor|]. destruct (skip_b b) eqn:Eb; [|constructor]. pose proof (tw_firstn (Byte.eqb x5d) s) as F2. pose proof (@tw_ascii (Byte.eqb x5d) s Hc) as G2.
  destruct (take_while (Byte.eqb x5d) s) as [|y l]; [constructor|]. cbn [firstn]. constructor; [auto|]. rewrite F2. exact G2.
Qed.
Lemma ws_at_len : forall s, ws_at s <= length s.
Proof. intros [|b [|c t]]; cbn [ws_at length]; try lia; destruct (Byte.eqb b x0d); cbn [andb]; try destruct (Byte.eqb c x0a); try destruct (is_ws b); lia. Qed.
Lemma ws_at_ascii : forall s, Forall (fun b => (bz b < 128)%Z) (firstn (ws_at s) s).
Proof.
  assert (Ha : forall b, is_ws b = true -> (bz b < 128)%Z) by (intro b; destruct b; intro H; first [reflexivity|discriminate H]).
  intros [|b t]; [constructor|]. cbn [ws_at]. destruct (Byte.eqb b x0d) eqn:Eb; cbn [andb].
  - apply Byte.byte_dec_bl in Eb. subst b. destruct t as [|c t]; [repeat constructor|]. destruct (Byte.eqb c x0a) eqn:Ec; [|repeat constructor].
    apply Byte.byte_dec_bl in Ec. subst c. repeat constructor.
  - destruct (is_ws b) eqn:Ew; [repeat constructor; auto|constructor].
Qed.

Definition skip_detail_wf := first_wf skip_at_len skip_at_ascii.
Definition skip_detail_rune := first_rune skip_at_len skip_at_ascii.
Definition ws_wf := first_wf ws_at_len ws_at_ascii.
Definition ws_rune := first_rune ws_at_len ws_at_ascii.
