(** Theorems about characters without emission in the HMM cut (C99, C100). *)
From Verif Require Import M_Env Ieee S_Miss M_Emit P_Emit P_Hmm P_Miss P_Miss2 T_Hmm T_Emit Demo.
Local Open Scope lit_scope.

(** C99 *)
Theorem C99_builtin_probabilities : forall (E : env), ar E = ieee -> probs_ok (def_emit E).
Proof. exact def_probs. Qed.
Print Assumptions C99_builtin_probabilities.
(** If some state path has all its emissions, so has the chosen one. *)
Theorem C99_missing_emissions_avoided : forall (E : env) (em : emits E) obs q, ar E = ieee -> probs_ok em -> obs <> [] ->
  length q = length obs -> legal_path q -> last_state q = Some HE \/ last_state q = Some HS -> starts q -> known_along em obs q ->
  exists p path, viterbi em obs all_states = Ok (p, path) /\ starts path /\ known_along em obs path.
Proof. intros E em obs q HE Hem. exact (@c99_path E HE em Hem obs q). Qed.
Print Assumptions C99_missing_emissions_avoided.
(** A character the table has only as a word of its own becomes one. *)
Theorem C99_only_single : forall (E : env) s a x b, ar E = ieee -> Forall (fun r => is_han E r = true) (runes_of s) -> runes_of s = a ++ x :: b ->
  Forall (has_emission HS) (a ++ x :: b) -> (forall y, has_emission y x -> y = HS) ->
  exists l r, hmm_cut (def_emit E) s [] = Ok (map string_of_runes (l ++ [x] :: r)) /\ concat l = a /\ concat r = b.
Proof. exact c99_alone. Qed.
Print Assumptions C99_only_single.

Lemma found : forall y r n, emit_find (hmm_table y) r = Some n -> listed (hmm_rows y) r n.
Proof. intros y r n H. destruct (hmm_table_ok y) as [H1 H2]. apply (proj1 (find_listed H1 H2)). exact H. Qed.
Lemma not_found : forall y r, emit_find (hmm_table y) r = None -> ~ has_emission y r.
Proof. intros y r H (n & Hn). destruct (hmm_table_ok y) as [H1 H2]. apply (proj1 (find_listed H1 H2)) in Hn. congruence. Qed.
Definition knows (y : hst) (r : rune) : bool := match emit_find (hmm_table y) r with Some _ => true | None => false end.
Lemma knows_ok : forall y r, knows y r = true -> has_emission y r.
Proof. intros y r H. unfold knows in H. destruct (emit_find (hmm_table y) r) as [n|] eqn:Ef; [|discriminate H]. exists n. apply found. exact Ef. Qed.
(** 亀 (U+4E80) is such a character. *)
Example C99_ex : Forall (has_emission HS) (runes_of (str "纽约亀时代广场")) /\ (forall y, has_emission y 0x4e80 -> y = HS) /\
  hmm_cut (def_emit demo) (str "纽约亀时代广场") [] = Ok (map str ["纽约"; "亀"; "时代广场"]).
Proof.
  split; [|split].
  - assert (H : forallb (knows HS) (runes_of (str "纽约亀时代广场")) = true) by (vm_compute; reflexivity). rewrite forallb_forall in H. apply Forall_forall. intros r Hr. apply knows_ok, H, Hr.
  - intros y H. destruct y; [| | |reflexivity]; exfalso; revert H; apply not_found; vm_compute; reflexivity.
  - vm_compute. reflexivity.
Qed.

(** C100 *)
Theorem C100_unknown_character : forall (E : env) u x w, ar E = ieee -> (forall y, ~ has_emission y x) -> Forall (has_emission HS) u ->
  Forall (fun o => has_emission HS o \/ forall y, ~ has_emission y o) w ->
  exists p q, viterbi (def_emit E) (u ++ x :: w) all_states = Ok (p, q ++ repeat HS (S (length w))) /\ length q = length u /\
    (u <> [] -> legal_path q /\ last_state q = Some HS /\
      forall q', length q' = length u -> legal_path q' -> last_state q' = Some HS -> le64 (path_prob (def_emit E) u q') (path_prob (def_emit E) u q)).
Proof. exact c100_builtin. Qed.
Print Assumptions C100_unknown_character.
(** From the character before an unknown one to the end of the run every character is a word of its own. *)
Theorem C100_unknown_character_cut : forall (E : env) s u x w, ar E = ieee -> Forall (fun r => is_han E r = true) (runes_of s) -> runes_of s = u ++ x :: w ->
  (forall y, ~ has_emission y x) -> Forall (has_emission HS) u -> Forall (fun o => has_emission HS o \/ forall y, ~ has_emission y o) w ->
  exists l, hmm_cut (def_emit E) s [] = Ok (map string_of_runes (l ++ map (fun c => [c]) (x :: w))) /\ concat l = u /\
    (forall u' z, u = u' ++ [z] -> exists l', l = l' ++ [[z]]).
Proof. exact c100_cut. Qed.
Print Assumptions C100_unknown_character_cut.
(** 両 (U+4E21) is unknown. *)
Example C100_ex : (forall y, ~ has_emission y 0x4e21) /\
  hmm_cut (def_emit demo) (str "纽约时代广场") [] = Ok (map str ["纽约"; "时代广场"]) /\
  hmm_cut (def_emit demo) (str "纽约両时代广场") [] = Ok (map str ["纽"; "约"; "両"; "时"; "代"; "广"; "场"]) /\
  hmm_cut (def_emit demo) (str "纽约时代広広场") [] = Ok (map str ["纽约"; "时"; "代"; "広"; "広"; "场"]).
Proof. split; [|split; [|split]; vm_compute; reflexivity]. intros []; apply not_found; vm_compute; reflexivity. Qed.

(** So the chosen path need not be the most probable one of the model: with the same number of missing emissions the constants of the
    source give another path a greater sum. *)
Theorem C100_most_probable_refuted : exists obs p path n k q n',
  viterbi (def_emit demo) obs all_states = Ok (p, path) /\ exact_prob obs path n k /\
  legal_path q /\ last_state q = Some HS /\ exact_prob obs q n' k /\ (n < n')%Z.
Proof.
  set (obs := [32445; 32422; 0x4e21]%Z). destruct (@c31 demo (def_emit demo) obs ltac:(discriminate)) as (p & path & H & _).
  assert (Hp : path = [HS; HS; HS]).
  { assert (G : match viterbi (def_emit demo) obs all_states with Ok (_, q) => q | _ => [] end = [HS; HS; HS]) by (vm_compute; reflexivity). rewrite H in G. exact G. }
  assert (U : forall y, ~ has_emission y 0x4e21) by (intros []; apply not_found; vm_compute; reflexivity).
  assert (L : forall y, exists a b, listed (hmm_rows y) 32445 a /\ listed (hmm_rows y) 32422 b /\ match y with
    | HB => a = 942425820147769900%Z | HE => b = 735315407192058000%Z | HM => True | HS => (a, b) = (1127762383716874500, 699194684055459000)%Z end).
  { intros []; eexists _, _; (split; [apply found; vm_compute; reflexivity|]); (split; [apply found; vm_compute; reflexivity|reflexivity || exact I]). }
  destruct (L HB) as (a1 & _ & A1 & _ & ->), (L HE) as (_ & b1 & _ & B1 & ->), (L HS) as (a2 & b2 & A2 & B2 & G). injection G as -> ->.
  exists obs, p, path, (-2106656030733674520)%Z, 1%nat, [HB; HE; HS], (-1835944955272376286)%Z.
  split; [exact H|]. subst path. split; [|split; [exact (conj I (conj I I))|split; [reflexivity|split; [|lia]]]].
  - exists (-146526333985376780)%Z, 1127762383716874500%Z, (0 + -66586314487982120 + -66586314487982120 - 699194684055459000)%Z. split; [reflexivity|]. split; [exact A2|]. split; [|reflexivity].
    apply ex_known; [exact B2|reflexivity|]. apply ex_missing; [apply U|reflexivity|constructor].
  - exists (-26268660809250016)%Z, 942425820147769900%Z, (0 + -80852504746699370 + -51082562376599000 - 735315407192058000)%Z. split; [reflexivity|]. split; [exact A1|]. split; [|reflexivity].
    apply ex_known; [exact B1|reflexivity|]. apply ex_missing; [apply U|reflexivity|constructor].
Qed.
Print Assumptions C100_most_probable_refuted.
