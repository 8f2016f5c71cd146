(** Theorems about the built-in emission tables (C98). *)
From Verif Require Import S_Emit P_Laws64 M_Emit S_Hmm S_Pos P_Hmm P_PosTab T_Hmm T_Pos P_Emit Ieee Demo.
Local Open Scope lit_scope.

(** C98 *)
Theorem C98_hmm_emissions : forall (E : env) y r,
  (forall n, listed (hmm_rows y) r n -> (0 < n <= 1734 * 10 ^ 15)%Z /\ (forall n', listed (hmm_rows y) r n' -> n' = n) /\
    exists m e, def_emit E y r = Some (lit64 E m e) /\ nearest (- n) m e) /\
  ((forall n, ~ listed (hmm_rows y) r n) -> def_emit E y r = None).
Proof. exact c98_hmm. Qed.
Print Assumptions C98_hmm_emissions.

Theorem C98_pos_emissions : forall (E : env) y r,
  (forall n, pos_listed y r n -> (0 <= n <= 1734 * 10 ^ 15)%Z /\ (forall n', pos_listed y r n' -> n' = n) /\
    exists m e, pos_def_emit E y r = Some (lit64 E m e) /\ (n = 0%Z /\ m = 0%Z \/ nearest (- n) m e)) /\
  ((forall n, ~ pos_listed y r n) -> pos_def_emit E y r = None).
Proof. exact c98_pos. Qed.
Print Assumptions C98_pos_emissions.

(** Every state the char-state table lists for a character has an emission for it; U+8DDB (state 400) is the only exception. *)
Theorem C98_states_have_emissions : forall r y, state_listed r y -> ((exists n, pos_listed y r n) <-> (r, y) <> (0x8ddb, 400)%Z).
Proof. exact c98_states. Qed.
Print Assumptions C98_states_have_emissions.
Theorem C98_exception : state_listed 0x8ddb 400 /\ (forall E, p_emit (builtin (E := E) (pos_def_emit E)) 400 0x8ddb = None).
Proof. exact c98_exception. Qed.
Print Assumptions C98_exception.

(** The other theorems hold for the built-in tables as they are. *)
Theorem C98_hmm_most_probable : forall (E : env) obs, ar E = ieee -> obs <> [] ->
  exists p path, viterbi (def_emit E) obs all_states = Ok (p, path) /\ length path = length obs /\ legal_path path /\
    (last_state path = Some HE \/ last_state path = Some HS) /\ p = path_prob (def_emit E) obs path /\
    forall q, length q = length obs -> legal_path q -> (last_state q = Some HE \/ last_state q = Some HS) -> le64 (path_prob (def_emit E) obs q) p.
Proof. exact c98_hmm_best. Qed.
Print Assumptions C98_hmm_most_probable.
Theorem C98_tagger_most_probable : forall (E : env) od obs, ar E = ieee -> orders_ok od -> obs <> [] -> let tb := builtin (E := E) (pos_def_emit E) in
  exists path w, pos_viterbi tb od obs = Ok path /\ vpath tb (rev obs) (rev path) w /\
    (forall q v, vpath tb (rev obs) q v -> le64 v w) /\
    (forall od', orders_ok od' -> pos_viterbi tb od' obs = Ok path).
Proof. exact c98_pos_best. Qed.
Print Assumptions C98_tagger_most_probable.

(** The emissions of a state are not a distribution: two characters have probability one. *)
Theorem C98_distribution_refuted : exists y r r', r <> r' /\ pos_listed y r 0 /\ pos_listed y r' 0.
Proof. exact c98_two. Qed.
Print Assumptions C98_distribution_refuted.
(** A character with emissions can be missing in the char-state table; then all 256 states are tried for it. *)
Theorem C98_states_of_emissions_refuted : exists y r n, pos_listed y r n /\ (forall y', ~ state_listed r y') /\
  forall (E : env) em z, allowed (builtin (E := E) em) r z <-> In z (map fst trans_tab).
Proof. exact c98_missing. Qed.
Print Assumptions C98_states_of_emissions_refuted.

(** The cases of hmm_seg_test.go with the table of prob_emit.go itself: the states and their probability -43.124804533979976 (within 1e-10). *)
Example C98_ex_viterbi : match viterbi (def_emit demo) (runes_of (str "纽约时代广场")) all_states with
  | Ok (p, path) => path = [HB; HE; HB; HM; HM; HE] /\
      (ltb64 demo (lit64 demo (-431248045341) 0) (mul64 demo p (lit64 demo 10000000000 0)) && ltb64 demo (mul64 demo p (lit64 demo 10000000000 0)) (lit64 demo (-431248045338) 0))%bool = true
  | _ => False end.
Proof. vm_compute. auto. Qed.
Example C98_ex_cut : hmm_cut (def_emit demo) (str "西雅图太空针, 纽约时代广场, New York City.") [] =
  Ok (map str ["西雅图"; "太空针"; ", "; "纽约"; "时代广场"; ", "; "New"; " "; "York"; " "; "City"; "."]).
Proof. vm_compute. reflexivity. Qed.
(** 'B': 0x4e00: -3.6544978750449433 of prob_emit.go. *)
Example C98_ex_entry : listed (hmm_rows HB) 0x4e00 365449787504494330.
Proof. apply (proj1 (find_listed (proj1 (hmm_table_ok HB)) (proj2 (hmm_table_ok HB)))). vm_compute. reflexivity. Qed.
Example C98_ex_tags : pos_viterbi (builtin (E := demo) (pos_def_emit demo)) id_orders (runes_of (str "纽约")) = Ok [130; 230]%Z /\
  pos_viterbi (builtin (E := demo) (pos_def_emit demo)) id_orders (runes_of (str "㐀")) = Ok [461%Z].
Proof. vm_compute. auto. Qed.
