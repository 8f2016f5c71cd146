(** The built-in tables of package pos. *)
From Verif Require Import S_Pos P_Laws64 P_Pos2 P_Pos3 Ieee.
Set Implicit Arguments. Unset Strict Implicit.

Definition row (x : Z) : list (Z * Z * Z) := match assoc trans_tab x with Some l => l | None => [] end.
Definition live (x : Z) : bool := match row x with [] => false | _ => true end.
Definition tgt (t : Z * Z * Z) : Z := fst (fst t).
Fixpoint nodupb (l : list Z) : bool := match l with [] => true | a :: t => negb (inZ a t) && nodupb t end.
Definition state_ok (y : Z) : bool := ((100 <=? y) && (y <? 500))%Z && (Z.to_nat (y mod 100) <? length poss).
Definition leb64 (A : arith) (x y : f64 A) : bool := eqb64 A x x && eqb64 A y y && negb (ltb64 A y x).
Definition hst_eqb (a b : hst) : bool := match a, b with HB, HB | HE, HE | HM, HM | HS, HS => true | _, _ => false end.
Definition legalb (a b : hst) : bool :=
  match a, b with HB, HM | HB, HE | HM, HM | HM, HE | HE, HB | HE, HS | HS, HB | HS, HS => true | _, _ => false end.
Definition next_ok (x y : Z) : bool :=
  legalb (state_hst x) (state_hst y) && (if legalb HB (state_hst y) then (x mod 100 =? y mod 100)%Z else true).

Lemma rows_nodup : forallb (fun r => nodupb (map tgt (snd r))) trans_tab = true. Proof. vm_compute. reflexivity. Qed.
Lemma rows_live : forallb (fun r => forallb (fun t => live (tgt t)) (snd r)) trans_tab = true. Proof. vm_compute. reflexivity. Qed.
Lemma rows_next : forallb (fun r => forallb (fun t => next_ok (fst r) (tgt t)) (snd r)) trans_tab = true. Proof. vm_compute. reflexivity. Qed.
Lemma rows_states : forallb (fun r => state_ok (fst r) && forallb (fun t => state_ok (tgt t)) (snd r)) trans_tab = true. Proof. vm_compute. reflexivity. Qed.
Lemma rows_values : forallb (fun r => forallb (fun t => leb64 (lit64 ieee (-1) 4) (lit64 ieee (snd (fst t)) (snd t)) && leb64 (lit64 ieee (snd (fst t)) (snd t)) (lit64 ieee 0 0)) (snd r)) trans_tab = true.
Proof. vm_compute. reflexivity. Qed.
Lemma start_values : forallb (fun t => leb64 (lit64 ieee (-8081665415464805) 281) (lit64 ieee (snd (fst t)) (snd t)) && leb64 (lit64 ieee (snd (fst t)) (snd t)) (lit64 ieee 0 0)) start_tab = true.
Proof. vm_compute. reflexivity. Qed.
Lemma chars_live : forallb (fun c => existsb live (snd c)) char_states = true. Proof. vm_compute. reflexivity. Qed.
Definition state_in (y : Z) : bool :=
  ((y <? 300) && (if y <? 200 then (100 <=? y) && (y <? 164) else y <? 264) || (300 <=? y) && (if y <? 400 then y <? 364 else y <? 464))%Z.
Lemma state_in_ok : forall y, state_in y = true -> state_ok y = true.
Proof.
  intros y H. unfold state_in in H. unfold state_ok. change (length poss) with 64. assert (K : exists k, (1 <= k < 5 /\ 0 <= y - 100 * k < 64)%Z).
  { destruct (Z.ltb_spec y 300) as [E1|E1]; destruct (Z.ltb_spec y 200) as [E2|E2]; destruct (Z.ltb_spec y 400) as [E3|E3]; try lia.
    - exists 1%Z. lia.
    - exists 2%Z. lia.
    - exists 3%Z. lia.
    - exists 4%Z. lia. }
  destruct K as (k & K1 & K2). assert (Hm : (y mod 100 = y - 100 * k)%Z) by (symmetry; apply Z.mod_unique with (q := k); lia). rewrite Hm.
  assert (H2 : Z.to_nat (y - 100 * k) < 64) by lia. apply Nat.ltb_lt in H2. rewrite H2. lia.
Qed.
Lemma chars_in : forallb (fun c => forallb state_in (snd c)) char_states = true. Proof. vm_compute. reflexivity. Qed.
Lemma chars_states : forallb (fun c => forallb state_ok (snd c)) char_states = true.
Proof.
  pose proof chars_in as C. rewrite forallb_forall in *. intros c Hc. specialize (C c Hc). rewrite forallb_forall in *. intros y Hy. apply state_in_ok, C, Hy.
Qed.
Lemma keys_live : existsb live (map fst trans_tab) = true. Proof. vm_compute. reflexivity. Qed.

Lemma leb_le : forall A (x y : f64 A), leb64 x y = true -> le64 x y.
Proof. intros A x y H. unfold leb64 in H. apply andb_prop in H as [H H3]. apply andb_prop in H as [H1 H2]. apply negb_true_iff in H3. split; [exact H1|]. split; [exact H2|exact H3]. Qed.

Lemma nodupb_ok : forall l, nodupb l = true -> NoDup l.
Proof.
  induction l as [|a l IH]; intro H; [constructor|]. cbn [nodupb] in H. apply andb_prop in H as [H1 H2]. constructor; [|auto].
  intro Hi. apply inZ_In in Hi. rewrite Hi in H1. discriminate.
Qed.

Lemma row_in : forall x, row x = [] \/ In (x, row x) trans_tab.
Proof. intro x. unfold row. destruct (assoc trans_tab x) eqn:Ea; [right; exact (assoc_in Ea)|left; reflexivity]. Qed.

Section B.
  Variable E : env.
  Hypothesis HE : ar E = ieee.
  Variable em : Z -> rune -> option (f64 E).
  Let tb := builtin em.

  Lemma builtin_row : forall x, p_trans tb x = map (fun t => (tgt t, lit64 E (snd (fst t)) (snd t))) (row x).
  Proof. intro x. unfold tb, row. cbn [builtin p_trans]. destruct (assoc trans_tab x); reflexivity. Qed.

  Lemma trans_row : forall x y v, trans tb x y v -> exists t, In t (row x) /\ tgt t = y /\ v = lit64 E (snd (fst t)) (snd t) /\ In (x, row x) trans_tab.
  Proof.
    intros x y v H. unfold trans in H. rewrite builtin_row in H. apply in_map_iff in H as (t & Ht & Hin). injection Ht as <- <-. exists t. repeat split; auto.
    destruct (row_in x) as [Hr|Hr]; [rewrite Hr in Hin; destruct Hin|exact Hr].
  Qed.

  Lemma live_ok : forall y, live y = true -> p_trans tb y <> [].
  Proof. intros y H. rewrite builtin_row. unfold live in H. destruct (row y); discriminate. Qed.

  Lemma allowed_state : forall o y, allowed tb o y -> state_ok y = true.
  Proof.
    intros o y H. unfold allowed, tb in H. cbn [builtin p_char p_keys] in H. destruct (assoc char_states o) as [l|] eqn:Ea.
    - apply assoc_in in Ea. pose proof chars_states as C. rewrite forallb_forall in C. specialize (C _ Ea). cbn [snd] in C. rewrite forallb_forall in C. auto.
    - pose proof rows_states as C. rewrite forallb_forall in C. apply in_map_iff in H as (r & <- & Hr). specialize (C r Hr). apply andb_prop in C. tauto.
  Qed.
  Lemma trans_facts : forall x y v, trans tb x y v -> live y = true /\ next_ok x y = true /\ state_ok y = true.
  Proof.
    intros x y v H. destruct (trans_row H) as (t & H1 & H2 & _ & H3).
    pose proof rows_live as C1. pose proof rows_next as C2. pose proof rows_states as C3. rewrite forallb_forall in C1, C2, C3. specialize (C1 _ H3). specialize (C2 _ H3). specialize (C3 _ H3).
    apply andb_prop in C3 as [_ C3]. cbn [fst snd] in *. rewrite forallb_forall in C1, C2, C3. specialize (C1 _ H1). specialize (C2 _ H1). specialize (C3 _ H1). rewrite H2 in *. auto.
  Qed.

  Lemma next_state_ok : forall x y, next_ok x y = true -> next_state x y.
  Proof.
    intros x y H. unfold next_ok in H. apply andb_prop in H as [H1 H2]. split.
    - unfold legalb in H1. unfold legal. destruct (state_hst x), (state_hst y); try discriminate; exact I.
    - intro H. assert (Hl : legalb HB (state_hst y) = true) by (destruct H as [-> | ->]; reflexivity). rewrite Hl in H2. apply Z.eqb_eq in H2. unfold state_pos. rewrite H2. reflexivity.
  Qed.

  Hypothesis Hem : emit_ok em.

  Lemma builtin_ok : tab_ok tb.
  Proof.
    constructor.
    - intro x. rewrite builtin_row, map_map. cbn [fst]. destruct (row_in x) as [->|H]; [constructor|].
      pose proof rows_nodup as C. rewrite forallb_forall in C. apply nodupb_ok. exact (C _ H).
    - intro o. unfold allowed, tb. cbn [builtin p_char p_keys]. fold tb. destruct (assoc char_states o) as [l|] eqn:Ea.
      + apply assoc_in in Ea. pose proof chars_live as C. rewrite forallb_forall in C. specialize (C _ Ea). apply existsb_exists in C as (y & H1 & H2). exists y. split; [exact H1|apply live_ok; exact H2].
      + pose proof keys_live as C. apply existsb_exists in C as (y & H1 & H2). exists y. split; [exact H1|apply live_ok; exact H2].
    - intros x y v H. apply live_ok. apply (trans_facts H).
    - intros x y v H. destruct (trans_row H) as (t & H1 & _ & -> & H3). pose proof rows_values as C. rewrite forallb_forall in C. specialize (C _ H3). cbn [snd] in C. rewrite forallb_forall in C. specialize (C _ H1).
      apply andb_prop in C as [C1 C2]. unfold between, neg64, tlow. rewrite HE. split; apply leb_le; assumption.
    - intro y. unfold tb. cbn [builtin p_start]. destruct (find _ start_tab) as [t|] eqn:Ef.
      + apply find_some in Ef as [Ef _]. pose proof start_values as C. rewrite forallb_forall in C. specialize (C _ Ef). apply andb_prop in C as [C1 C2].
        unfold between, neg64, min_float. rewrite HE. split; apply leb_le; assumption.
      + split; [|apply (consts HE)]. unfold min_float. rewrite HE. apply leb_le. vm_compute. reflexivity.
    - intros y o v H. exact (Hem H).
  Qed.

  Lemma vpath_facts : forall os p w, vpath tb os p w -> length p = length os /\ Forall (fun y => state_ok y = true) p /\ linked (fun y x => next_state x y /\ exists v, trans tb x y v) p.
  Proof.
    intros os p w H. induction H as [o y Hs|o y os x p w v H (IH1 & IH2 & IH3) Hs Ht].
    - split; [reflexivity|]. split; [|exact I]. repeat constructor. exact (allowed_state Hs).
    - destruct (trans_facts Ht) as (_ & F2 & F3). split; [cbn [length] in *; lia|]. split; [constructor; auto|]. split; [|exact IH3]. split; [apply next_state_ok; exact F2|eauto].
  Qed.

  Lemma linked_snoc : forall R p x y, linked R (p ++ [x]) -> R x y -> linked R (p ++ [x; y]).
  Proof.
    intro R. induction p as [|a p IH]; intros x y H1 H2; [cbn; auto|]. destruct p as [|b p]; [cbn in *; tauto|].
    cbn [app linked] in *. destruct H1 as [H1 H3]. split; [exact H1|]. apply (IH x y H3 H2).
  Qed.
  Lemma linked_rev : forall (R : Z -> Z -> Prop) p, linked (fun y x => R x y) p -> linked R (rev p).
  Proof.
    intros R p. induction p as [|y p IH]; intro H; [exact I|]. destruct p as [|x p]; [exact I|]. cbn [linked] in H. destruct H as [H1 H2]. specialize (IH H2).
    cbn [rev] in *. rewrite <- app_assoc. apply linked_snoc; assumption.
  Qed.
  Lemma linked_impl : forall (R R' : Z -> Z -> Prop) p, (forall x y, R x y -> R' x y) -> linked R p -> linked R' p.
  Proof. intros R R' p H. induction p as [|x p IH]; intro Hc; [exact I|]. destruct p as [|y p]; [exact I|]. destruct Hc as [H1 H2]. split; auto. Qed.

  Lemma c36 : forall od obs, orders_ok od -> obs <> [] -> exists path, pos_viterbi tb od obs = Ok path /\ length path = length obs /\
    Forall (fun y => (100 <= y < 500)%Z /\ Z.to_nat (y mod 100) < length poss) path /\
    linked (fun x y => exists l m e, In (x, l) trans_tab /\ In (y, m, e) l) path /\ linked next_state path.
  Proof.
    intros od obs Ho Hne. destruct (viterbi_ok HE builtin_ok Ho Hne) as (path & w & H1 & H2 & _). exists path. split; [exact H1|].
    destruct (vpath_facts H2) as (F1 & F2 & F3). rewrite !rev_length in F1. split; [exact F1|]. apply Forall_rev in F2. rewrite rev_involutive in F2.
    split. { eapply Forall_impl; [|exact F2]. intros y Hy. unfold state_ok in Hy. apply andb_prop in Hy as [Hy1 Hy2]. apply Nat.ltb_lt in Hy2. lia. }
    apply (@linked_rev (fun x y => next_state x y /\ exists v, trans tb x y v)) in F3. rewrite rev_involutive in F3.
    split; eapply linked_impl; try exact F3; cbn beta; [|tauto].
    intros x y [_ (v & Ht)]. destruct (trans_row Ht) as (t & T1 & T2 & _ & T3). exists (row x), (snd (fst t)), (snd t). split; [exact T3|]. rewrite <- T2. destruct t as [[? ?] ?]. exact T1.
  Qed.
End B.
