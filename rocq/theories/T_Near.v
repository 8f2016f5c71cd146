(** Segment against exact sums of path lengths (C102), the HMM cut against exact sums of the constants of the source (C103). *)
From Verif Require Import M_Dict M_Seg S_Seg S_Near P_Hist P_Ieee P_Near P_Near2 M_Emit S_Miss Ieee Demo T_Split T_Seg T_Exact T_Miss.
From Coq Require Import Reals Lra.
From Flocq Require Import Core BinarySingleNaN.
Local Open Scope lit_scope.

(** The path lengths are added in float32, but the error stays small: the segmentation returned is longer than the shortest one by a factor
    of at most 1 + n/2^22, where n is the number of units of the text (at most 2^20), lengths being added exactly. *)
Theorem C102_nearly_shortest : forall (E : env) c (d : dict E) s m ws segs (H : ar E = ieee), reachable c d ->
  (forall w v t, dict_value d w = Some v -> nth_error (d_tokens d) v = Some t -> ltb32 E (lit32 E 0 0) (t_dist t) = true) ->
  split_words E c s = Ok ws -> internal_segment c (Some d) s m = Ok segs -> (m = true -> 2 <= length ws) -> (INR (length ws) <= 2 ^ 20)%R ->
  forall rs r, tiling d ws rs -> (m = true -> length rs <> 1) -> exact_length H d rs r -> (r <= 2 ^ 127)%R ->
  exists r0, exact_length H d (map sg_tok segs) r0 /\ (r0 <= r * (1 + INR (length ws) / 2 ^ 22))%R.
Proof. exact c102. Qed.
Print Assumptions C102_nearly_shortest.

(** 甲 1, 乙丙 24, 甲乙 2, 丙 12 of a total of 64: after the unknown 世 (length 32) the float32 sums of 甲|乙丙 and 甲乙|丙 are equal, the
    exact ones are not, and the longer one is returned. *)
Definition os_102 : list (dop demo) := [add (str "甲") 1 []; add (str "乙丙") 24 []; add (str "甲乙") 2 []; add (str "丙") 12 []; add (str "世界") 25 []; @OpCalc demo].
Definition d_102 : dict demo := dict_of cfg0 os_102.
Lemma positive_102 : forall w v t, dict_value d_102 w = Some v -> nth_error (d_tokens d_102) v = Some t -> ltb32 demo (lit32 demo 0 0) (t_dist t) = true.
Proof.
  intros w v t _ H.
  assert (HF : forallb (fun t => ltb32 demo (lit32 demo 0 0) (t_dist t)) (d_tokens d_102) = true) by (vm_compute; reflexivity).
  rewrite forallb_forall in HF. apply HF. eapply nth_error_In. exact H.
Qed.
Lemma real32_value : forall (x : f32 demo) m e, @B2SF 24 128 x = SpecFloat.S754_finite false m e -> real32 (A := ar demo) eq_refl x = Some (IZR (Zpos m) * bpow radix2 e)%R.
Proof.
  intros x m e H. change (binary_float 24 128) in x. unfold real32. cbn [eq_rect]. destruct x as [s|s| |s m' e' B]; cbn [B2SF] in H; try discriminate H.
  injection H as -> -> ->. reflexivity.
Qed.
Notation ws_102 := (map str ["世"; "甲"; "乙"; "丙"]).
Notation chosen_102 := [Fallback (str "世"); InDict 0; InDict 1].
Notation other_102 := [Fallback (str "世"); InDict 2; InDict 3].
Lemma length_102 : forall i m e, nth_error (map (fun t : token demo => @B2SF 24 128 (t_dist t)) (d_tokens d_102)) i = Some (SpecFloat.S754_finite false m e) ->
  real32 (A := ar demo) eq_refl (dist_of d_102 (InDict i)) = Some (IZR (Zpos m) * bpow radix2 e)%R.
Proof.
  intros i m e H. unfold dist_of, deref, get. rewrite nth_error_map in H. destruct (nth_error (d_tokens d_102) i) as [t|]; [|discriminate H]. cbn [option_map] in H.
  apply real32_value. injection H as H. exact H.
Qed.
Lemma length_unknown : real32 (A := ar demo) eq_refl (dist_of d_102 (Fallback (str "世"))) = Some (IZR 8388608 * bpow radix2 (-18))%R.
Proof. apply real32_value. vm_compute. reflexivity. Qed.
Lemma other_tiling : tiling d_102 ws_102 other_102.
Proof.
  exists [[str "世"]; map str ["甲"; "乙"]; [str "丙"]]. split; [reflexivity|]. constructor; [apply piece_fallback; vm_compute; reflexivity|].
  constructor; [apply piece_dict; [discriminate|vm_compute; reflexivity]|]. constructor; [apply piece_dict; [discriminate|vm_compute; reflexivity]|constructor].
Qed.
Lemma other_length : exact_length (E := demo) eq_refl d_102 other_102 (IZR (32 * 2 ^ 23 + 5 * 2 ^ 23 + 2 * 10129401) / 2 ^ 23).
Proof.
  exists [IZR 8388608 * bpow radix2 (-18); IZR 10485760 * bpow radix2 (-21); IZR 10129401 * bpow radix2 (-22)]%R.
  split; [constructor; [apply length_unknown|constructor; [apply length_102; vm_compute; reflexivity|constructor; [apply length_102; vm_compute; reflexivity|constructor]]]|].
  cbn [fold_right]. change (bpow radix2 (-18)) with (/ 262144)%R. change (bpow radix2 (-21)) with (/ 2097152)%R. change (bpow radix2 (-22)) with (/ 4194304)%R. cbn -[IZR Rmult]. lra.
Qed.
Lemma chosen_length : exact_length (E := demo) eq_refl d_102 chosen_102 (IZR (32 * 2 ^ 23 + 5 * 2 ^ 23 + 2 * 10129402) / 2 ^ 23).
Proof.
  exists [IZR 8388608 * bpow radix2 (-18); IZR 12582912 * bpow radix2 (-21); IZR 11870196 * bpow radix2 (-23)]%R.
  split; [constructor; [apply length_unknown|constructor; [apply length_102; vm_compute; reflexivity|constructor; [apply length_102; vm_compute; reflexivity|constructor]]]|].
  cbn [fold_right]. change (bpow radix2 (-18)) with (/ 262144)%R. change (bpow radix2 (-21)) with (/ 2097152)%R. change (bpow radix2 (-23)) with (/ 8388608)%R. cbn -[IZR Rmult]. lra.
Qed.
Theorem C102_shortest_refuted : exists (d : dict demo) s ws segs rs r r0, reachable cfg0 d /\
  (forall w v t, dict_value d w = Some v -> nth_error (d_tokens d) v = Some t -> ltb32 demo (lit32 demo 0 0) (t_dist t) = true) /\
  split_words demo cfg0 s = Ok ws /\ internal_segment cfg0 (Some d) s false = Ok segs /\
  tiling d ws rs /\ exact_length (E := demo) eq_refl d rs r /\ exact_length (E := demo) eq_refl d (map sg_tok segs) r0 /\ (r < r0)%R.
Proof.
  exists d_102, (str "世甲乙丙"), ws_102, [{| sg_start := 0; sg_end := 3; sg_tok := Fallback (str "世") |}; {| sg_start := 3; sg_end := 6; sg_tok := InDict 0 |}; {| sg_start := 6; sg_end := 12; sg_tok := InDict 1 |}],
    other_102, (IZR (32 * 2 ^ 23 + 5 * 2 ^ 23 + 2 * 10129401) / 2 ^ 23)%R, (IZR (32 * 2 ^ 23 + 5 * 2 ^ 23 + 2 * 10129402) / 2 ^ 23)%R.
  split; [apply dict_of_reachable|]. split; [exact positive_102|]. split; [vm_compute; reflexivity|]. split; [vm_compute; reflexivity|].
  split; [exact other_tiling|]. split; [exact other_length|]. split; [exact chosen_length|].
  apply Rmult_lt_compat_r; [apply Rinv_0_lt_compat; lra|]. apply IZR_lt. reflexivity.
Qed.
Print Assumptions C102_shortest_refuted.

(** The bound on this text: 4 units, so at most a factor of 1 + 2^-20. *)
Example C102_ex : exists r0, exact_length (E := demo) eq_refl d_102 chosen_102 r0 /\ (r0 <= IZR (32 * 2 ^ 23 + 5 * 2 ^ 23 + 2 * 10129401) / 2 ^ 23 * (1 + 4 / 2 ^ 22))%R.
Proof.
  destruct (@C102_nearly_shortest demo cfg0 d_102 (str "世甲乙丙") false ws_102
    [{| sg_start := 0; sg_end := 3; sg_tok := Fallback (str "世") |}; {| sg_start := 3; sg_end := 6; sg_tok := InDict 0 |}; {| sg_start := 6; sg_end := 12; sg_tok := InDict 1 |}]
    eq_refl) with (rs := other_102) (r := (IZR (32 * 2 ^ 23 + 5 * 2 ^ 23 + 2 * 10129401) / 2 ^ 23)%R) as (r0 & H1 & H2).
  - apply dict_of_reachable.
  - exact positive_102.
  - vm_compute. reflexivity.
  - vm_compute. reflexivity.
  - discriminate.
  - cbn [length map INR]. lra.
  - exact other_tiling.
  - discriminate.
  - exact other_length.
  - cbn -[pow]. lra.
  - exists r0. split; [exact H1|]. replace 4%R with (INR (length ws_102)) by (cbn [length map INR]; lra). exact H2.
Qed.

(** C103: the log-probabilities are rounded to float64 and added in float64. Against the exact sum of the decimal constants (in units of
    10^-17) the path found by Viterbi loses at most a factor of 1 + N/2^50, where N is the number of characters. *)
Theorem C103_nearly_most_probable : forall (E : env) obs q n, ar E = ieee -> (Z.of_nat (length obs) <= 2 ^ 48)%Z ->
  last_state q = Some HE \/ last_state q = Some HS -> exact_prob obs q n 0 ->
  exists p path n0, viterbi (def_emit E) obs all_states = Ok (p, path) /\ exact_prob obs path n0 0 /\
    (n * (2 ^ 50 + Z.of_nat (length obs)) <= n0 * 2 ^ 50)%Z.
Proof. intros E obs q n HA. exact (@c103 E HA obs q n). Qed.
Print Assumptions C103_nearly_most_probable.

Lemma ny_constants : listed (hmm_rows HB) 32445 942425820147769900 /\ listed (hmm_rows HE) 32422 735315407192058000 /\
  listed (hmm_rows HS) 32445 1127762383716874500 /\ listed (hmm_rows HS) 32422 699194684055459000.
Proof. repeat split; apply found; vm_compute; reflexivity. Qed.
(** 纽约: as one word -17.55..., as two -20.40... *)
Example C103_ex : exact_prob [32445; 32422]%Z [HB; HE] (-1755092450525676916) 0 /\ exact_prob [32445; 32422]%Z [HS; HS] (-2040069716245692400) 0 /\
  match viterbi (def_emit demo) [32445; 32422]%Z all_states with Ok (_, path) => path | _ => [] end = [HB; HE] /\
  exists p path n0, viterbi (def_emit demo) [32445; 32422]%Z all_states = Ok (p, path) /\ exact_prob [32445; 32422]%Z path n0 0 /\
    (-1755092450525676916 * (2 ^ 50 + 2) <= n0 * 2 ^ 50)%Z.
Proof.
  destruct ny_constants as (C1 & C2 & C3 & C4).
  assert (X : exact_prob [32445; 32422]%Z [HB; HE] (-1755092450525676916) 0).
  { exists (-26268660809250016)%Z, 942425820147769900%Z, (0 + -51082562376599000 - 735315407192058000)%Z. split; [reflexivity|]. split; [exact C1|]. split; [|reflexivity].
    apply ex_known; [exact C2|reflexivity|constructor]. }
  split; [exact X|]. split.
  { exists (-146526333985376780)%Z, 1127762383716874500%Z, (0 + -66586314487982120 - 699194684055459000)%Z. split; [reflexivity|]. split; [exact C3|]. split; [|reflexivity].
    apply ex_known; [exact C4|reflexivity|constructor]. }
  split; [vm_compute; reflexivity|]. apply (C103_nearly_most_probable demo [32445; 32422]%Z [HB; HE]); [reflexivity|cbn [length]; lia|left; reflexivity|exact X].
Qed.
