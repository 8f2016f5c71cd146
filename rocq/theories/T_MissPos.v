(** Theorems about impossible starts and missing emissions in the part-of-speech tagger (C101). *)
From Verif Require Import M_Env Ieee S_MissPos M_Emit P_Emit P_PosTab P_MissPos T_Pos T_Emit T_Miss Demo.
Local Open Scope lit_scope.

(** C101 *)
Theorem C101_builtin_probabilities : forall (E : env), ar E = ieee -> tag_probs_ok (pos_def_emit E).
Proof. exact tag_def_probs. Qed.
Print Assumptions C101_builtin_probabilities.
(** If some candidate path has a possible start and all its emissions, so has the chosen one, and then it begins with the first or only character of a word. *)
Theorem C101_missing_emissions_avoided : forall (E : env) em od obs q v, ar E = ieee -> tag_probs_ok em -> orders_ok od ->
  vpath (builtin (E := E) em) (rev obs) (rev q) v -> clean_path (builtin em) obs q ->
  exists path, pos_viterbi (builtin em) od obs = Ok path /\ clean_path (builtin em) obs path /\
    (forall y ys, path = y :: ys -> state_hst y = HB \/ state_hst y = HS).
Proof. intros E em od obs q v HE Hem. exact (@c101 E HE em Hem od obs q v). Qed.
Print Assumptions C101_missing_emissions_avoided.
(** A possible state of a single character decides its tag's position. *)
Theorem C101_single : forall (E : env) em od o y, ar E = ieee -> tag_probs_ok em -> orders_ok od ->
  allowed (builtin (E := E) em) o y -> can_start (builtin em) y -> em y o <> None ->
  exists z, pos_viterbi (builtin em) od [o] = Ok [z] /\ can_start (builtin em) z /\ em z o <> None /\ (state_hst z = HB \/ state_hst z = HS).
Proof.
  intros E em od o y HE Hem Ho Ha Hs He. destruct (@c101 E HE em Hem od [o] [y] _ Ho (vp_one Ha)) as (path & H1 & [(z & zs & -> & H2) H3] & H4).
  - split; [exists y, []; auto|]. constructor; [exact He|constructor].
  - inversion H3 as [|? ? ? ? G1 G2]; subst. inversion G2; subst. exists z. split; [exact H1|]. split; [exact H2|]. split; [exact G1|]. exact (H4 _ _ eq_refl).
Qed.
Print Assumptions C101_single.
Definition dtab : ptab demo := builtin (E := demo) (pos_def_emit demo).
Lemma tag_known : forall y o, match emit_find (pos_table y) o with Some _ => true | None => false end = true -> p_emit dtab y o <> None.
Proof. intros y o H. unfold dtab. cbn [builtin p_emit]. unfold pos_def_emit, emit_lit. destruct (emit_find (pos_table y) o); [discriminate|discriminate H]. Qed.
Lemma can_start_ok : forall y, ltb64 demo (min_float demo) (p_start dtab y) = true -> can_start dtab y.
Proof. intros y H. exact H. Qed.
(** "The path begins where a word can begin" is false: 囡 (U+56E1) is only known as the end of a word. *)
Theorem C101_first_state_refuted : exists (E : env) od o path, ar E = ieee /\ orders_ok od /\ pos_viterbi (builtin (E := E) (pos_def_emit E)) od o = Ok path /\
  exists y ys, path = y :: ys /\ state_hst y = HE.
Proof.
  exists demo, id_orders, [0x56e1; 0x6211]%Z, [225; 438]%Z. split; [reflexivity|]. split; [exact id_orders_ok|]. split; [vm_compute; reflexivity|]. exists 225%Z, [438%Z]. split; reflexivity.
Qed.
Print Assumptions C101_first_state_refuted.
(** "The path ends where a word can end" is false, unlike in package hmm (C31): the last state is not restricted. 伢 (U+4F22) is only known as the beginning of a word. *)
Theorem C101_last_state_refuted : exists (E : env) od o path, ar E = ieee /\ orders_ok od /\ pos_viterbi (builtin (E := E) (pos_def_emit E)) od o = Ok path /\
  clean_path (builtin (pos_def_emit E)) o path /\ exists ys y, path = ys ++ [y] /\ state_hst y = HB.
Proof.
  exists demo, id_orders, [0x6211; 0x4f22]%Z, [438; 125]%Z. split; [reflexivity|]. split; [exact id_orders_ok|]. split; [vm_compute; reflexivity|].
  split; [|exists [438%Z], 125%Z; split; reflexivity].
  fold dtab. split; [exists 438%Z, [125%Z]; split; [reflexivity|]; apply can_start_ok; vm_compute; reflexivity|]. repeat constructor; apply tag_known; vm_compute; reflexivity.
Qed.
Print Assumptions C101_last_state_refuted.

(** 纽约 as the name of a person, [129; 229], is a candidate with a possible start and all emissions; [130; 230] is chosen. *)
Example C101_ex : rev (runes_of (str "纽约")) = [32422; 32445]%Z /\ (exists v, vpath dtab [32422; 32445]%Z [229; 129]%Z v) /\ clean_path dtab [32445; 32422]%Z [129; 229]%Z /\
  pos_viterbi dtab id_orders (runes_of (str "纽约")) = Ok [130; 230]%Z /\ clean_path dtab [32445; 32422]%Z [130; 230]%Z.
Proof.
  split; [vm_compute; reflexivity|]. split; [|split; [|split; [exact (proj1 C98_ex_tags)|]]].
  - eexists. apply two_states; [apply has_allowed|apply has_allowed|apply get_trans]; vm_compute; reflexivity.
  - split; [exists 129%Z, [229%Z]; split; [reflexivity|]; apply can_start_ok; vm_compute; reflexivity|]. repeat constructor; apply tag_known; vm_compute; reflexivity.
  - split; [exists 130%Z, [230%Z]; split; [reflexivity|]; apply can_start_ok; vm_compute; reflexivity|]. repeat constructor; apply tag_known; vm_compute; reflexivity.
Qed.
