(** Checks of the built-in emission tables. *)
From Verif Require Import S_Emit P_Laws64 P_PosTab P_Rank2 Ieee P_Ieee.
From Verif Require Export M_Emit.
From Coq Require Import MSets.MSetPositive Reals Lra Lia.
From Flocq Require Import Core IEEE754.BinarySingleNaN.
Set Implicit Arguments. Unset Strict Implicit.
Local Open Scope Z_scope.

(** ** Literals *)
Lemma hex_chars_acc : forall f h acc r, 0 <= h < 2 ^ (16 * Z.of_nat f) -> (In r (hex_chars f h acc) <-> in_hex h r \/ In r acc).
Proof.
  induction f as [|f IH]; intros h acc r Hh.
  - cbn [hex_chars]. split; [auto|]. intros [(k & Hk & H & _)|H]; [|exact H]. change (2 ^ (16 * Z.of_nat 0)) with 1 in Hh. assert (0 < 2 ^ (16 * k)) by (apply Z.pow_pos_nonneg; lia). lia.
  - cbn [hex_chars]. destruct (Z.eqb_spec h 0) as [->|Hne].
    + split; [auto|]. intros [(k & Hk & H & _)|H]; [|exact H]. assert (0 < 2 ^ (16 * k)) by (apply Z.pow_pos_nonneg; lia). lia.
    + rewrite IH.
      * change (Z.land h 65535) with (Z.land h (Z.ones 16)). rewrite Z.land_ones, Z.shiftr_div_pow2 by lia. cbn [In]. split.
        -- intros [(k & Hk & H1 & H2)|[H|H]]; [left|left|right; exact H].
           ++ exists (k + 1). split; [lia|]. replace (16 * (k + 1)) with (16 + 16 * k) by lia. rewrite Z.pow_add_r by lia. split.
              ** apply Z.le_trans with (2 ^ 16 * (h / 2 ^ 16)); [nia|]. apply Z.mul_div_le. lia.
              ** rewrite <- Z.div_div by (try apply Z.pow_nonzero; try apply Z.pow_pos_nonneg; lia). exact H2.
           ++ exists 0. split; [lia|]. cbn [Z.mul]. rewrite Z.pow_0_r, Z.div_1_r. split; [lia|exact H].
        -- intros [(k & Hk & H1 & H2)|H]; [|right; right; exact H]. destruct (Z.eq_dec k 0) as [->|Hk0].
           ++ right. left. cbn [Z.mul] in H2. rewrite Z.pow_0_r, Z.div_1_r in H2. exact H2.
           ++ left. exists (k - 1). split; [lia|]. replace (16 * k) with (16 + 16 * (k - 1)) in H1, H2 by lia. rewrite Z.pow_add_r in H1, H2 by lia. split.
              ** apply Z.div_le_lower_bound; lia.
              ** rewrite Z.div_div by (try apply Z.pow_nonzero; try apply Z.pow_pos_nonneg; lia). exact H2.
      * rewrite Z.shiftr_div_pow2 by lia. split; [apply Z.div_pos; lia|]. apply Z.div_lt_upper_bound; [lia|]. rewrite <- Z.pow_add_r by lia. replace (16 + 16 * Z.of_nat f) with (16 * Z.of_nat (S f)) by lia. apply Hh.
Qed.
Definition hex_ok (h : Z) : bool := (0 <=? h) && (Z.log2 h <? 384).
(** Just below T * 2^j the nearest float of 53 bits has the next exponent. *)
Definition edges : list Z := [1600000000000000000; 800000000000000000; 400000000000000000; 200000000000000000; 100000000000000000; 50000000000000000; 25000000000000000].
Definition near_ok (n : Z) : bool :=
  (0 <=? n) && (n <=? 1734000000000000000) &&
  ((Z.land n 32767 <? 32660) || forallb (fun b => (n <=? b - 100) || (b <=? n)) edges).
Definition rows_ok (tab : list (Z * list Z)) : bool := forallb (fun row => near_ok (fst row) && forallb hex_ok (snd row)) tab.
Definition chars (tab : list (Z * list Z)) : list Z := flat_map (fun row => chars_of (snd row)) tab.
(** No character twice. *)
Fixpoint distinct (l : list Z) (seen : PositiveSet.t) : bool :=
  match l with
  | [] => true
  | Zpos r :: l' => negb (PositiveSet.mem r seen) && distinct l' (PositiveSet.add r seen)
  | _ :: _ => false
  end.
Lemma distinct_ok : forall l seen, distinct l seen = true -> NoDup l /\ forall r, In (Zpos r) l -> PositiveSet.mem r seen = false.
Proof.
  induction l as [|x l IH]; intros seen H; [split; [constructor|intros r []]|]. cbn [distinct] in H. destruct x as [|p|p]; try discriminate.
  apply andb_prop in H as [H1 H2]. apply negb_true_iff in H1. destruct (IH _ H2) as [I1 I2]. split.
  - constructor; [|exact I1]. intro Hp. specialize (I2 p Hp). assert (PositiveSet.In p (PositiveSet.add p seen)) by (apply PositiveSet.add_spec; left; reflexivity).
    unfold PositiveSet.In in *. congruence.
  - intros r [Hr|Hr]; [injection Hr as <-; exact H1|]. specialize (I2 r Hr). destruct (PositiveSet.mem r seen) eqn:Em; [|reflexivity].
    assert (PositiveSet.In r (PositiveSet.add p seen)) by (apply PositiveSet.add_spec; right; exact Em). unfold PositiveSet.In in *. congruence.
Qed.

Lemma hmm_ok : forallb (fun y => rows_ok (hmm_table y) && distinct (chars (hmm_table y)) PositiveSet.empty) [HB; HE; HM; HS] = true.
Proof. vm_compute. reflexivity. Qed.
Lemma pos_ok : forallb (fun p => rows_ok (snd p) && distinct (chars (snd p)) PositiveSet.empty) pos_emit_tab = true.
Proof. vm_compute. reflexivity. Qed.
Lemma pos_keys_ok : distinct (map fst pos_emit_tab) PositiveSet.empty = true.
Proof. vm_compute. reflexivity. Qed.
(** The states listed for a character have an emission. *)
Definition set_of (l : list Z) : PositiveSet.t := fold_left (fun s r => match r with Zpos p => PositiveSet.add p s | _ => s end) l PositiveSet.empty.
Definition emit_sets : list (Z * PositiveSet.t) := map (fun p => (fst p, set_of (chars (snd p)))) pos_emit_tab.
Definition state_has (sets : list (Z * PositiveSet.t)) (r y : Z) : bool :=
  match r, assoc sets y with
  | Zpos p, Some s => PositiveSet.mem p s || ((r =? 0x8ddb) && (y =? 400))
  | _, _ => false
  end.
Lemma states_ok : (let sets := emit_sets in forallb (fun c => forallb (state_has sets (fst c)) (snd c)) char_states) = true.
Proof. vm_compute. reflexivity. Qed.
Lemma set_of_ok : forall l s r, PositiveSet.In r (fold_left (fun s r => match r with Zpos p => PositiveSet.add p s | _ => s end) l s) -> PositiveSet.In r s \/ In (Zpos r) l.
Proof.
  induction l as [|x l IH]; intros s r H; [left; exact H|]. cbn [fold_left] in H. destruct (IH _ _ H) as [G|G]; [|right; right; exact G].
  destruct x as [|p|p]; auto. apply PositiveSet.add_spec in G as [->|G]; [right; left; reflexivity|auto].
Qed.
Lemma hex_keys : forallb (fun c => (0 <=? snd c) && (Z.log2 (snd c) <? 1200)) char_hex = true.
Proof. vm_compute. reflexivity. Qed.
