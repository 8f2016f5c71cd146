(** C36-C41, C64, C65: package pos. *)
From Verif Require Import S_Pos P_Utf8 P_Utf8b P_Seg2 P_Laws64 P_Hist P_Hmm P_Dag P_Dag2 P_Pos P_Pos2 P_Pos3 P_PosTab P_Pos4 P_Pos5 P_Pos6 Ieee Demo T_Split T_Seg T_Hmm T_Dag.
Local Open Scope lit_scope.

(** Entries of hmm/pos/prob_emit.go for the characters of the examples (tools/demo_pos_emit.py). *)
Definition demo_ptab : list (Z * Z * Z * Z) := [
  (100, 24191, -5423627723737591, -50);
  (100, 26102, -142166985730887, -44);
  (104, 24191, -4993086338659029, -50);
  (104, 26102, -6053197050882275, -49);
  (107, 20195, -850256030687793, -46);
  (107, 24191, -4790996435065365, -49);
  (107, 26102, -6934579687138319, -50);
  (107, 32422, -4637008475552697, -49);
  (112, 22330, -1273187425621407, -47);
  (115, 20195, -4853389828618619, -49);
  (115, 24191, -2581519194183443, -48);
  (115, 26102, -3969436129422139, -49);
  (115, 32422, -4249548990745637, -49);
  (117, 20195, -2951930482472951, -48);
  (117, 24191, -6846197139915383, -50);
  (120, 20195, -8907896857328939, -50);
  (120, 24191, -243705191877847, -45);
  (120, 26102, -1674267212394019, -48);
  (122, 22330, -7750565419910993, -49);
  (125, 20195, -3425420438269007, -49);
  (125, 22330, -8477645201127685, -50);
  (125, 24191, -33321267852641, -42);
  (125, 26102, -2610772662520301, -49);
  (125, 32422, -5424059786638571, -49);
  (125, 32445, -5636739666215283, -49);
  (127, 20195, -1027053895669087, -47);
  (127, 24191, -462826422135487, -46);
  (127, 26102, -8506602463365097, -50);
  (127, 32422, -3091931966571093, -48);
  (128, 20195, -690913697661401, -46);
  (128, 26102, -8769000224323037, -51);
  (129, 20195, -1170507543233197, -47);
  (129, 24191, -8368536926571975, -50);
  (129, 26102, -1275668621409711, -47);
  (129, 32422, -1381204820308891, -48);
  (129, 32445, -4277200101061641, -49);
  (130, 20195, -6100945963662999, -49);
  (130, 24191, -4854151648771797, -50);
  (130, 26102, -1568886916526259, -47);
  (130, 32422, -1094982158864593, -47);
  (130, 32445, -6693030025353823, -50);
  (131, 24191, -5699174139067523, -50);
  (131, 26102, -4746498752765435, -49);
  (131, 32422, -5652531750604705, -49);
  (131, 32445, -3063816974473421, -49);
  (132, 20195, -2706531676550735, -48);
  (132, 24191, -2738974537792233, -49);
  (132, 26102, -2611823161583997, -48);
  (132, 32422, -7982409060866529, -50);
  (135, 22330, -4383641552398699, -49);
  (142, 22330, -5969402292873151, -50);
  (143, 24191, -6122082132660043, -49);
  (143, 26102, -4471966746268379, -49);
  (152, 20195, -4077045987273661, -49);
  (152, 24191, -166148900566641, -44);
  (152, 26102, -626282355538879, -46);
  (152, 32422, -1202324208589127, -47);
  (156, 20195, -1795896938065931, -48);
  (156, 24191, -3782739896943797, -49);
  (156, 32422, -6861496177648011, -50);
  (162, 26102, -578310316235671, -46);
  (200, 22330, -1556582330193743, -47);
  (200, 24191, -8976727101317173, -50);
  (200, 26102, -8335095464284153, -50);
  (200, 32422, -2440357648756821, -48);
  (201, 26102, -3951932632880551, -50);
  (204, 20195, -8284517417733605, -50);
  (204, 22330, -2504097091834935, -48);
  (204, 26102, -2330041605965929, -49);
  (206, 26102, -6378980536497803, -51);
  (207, 22330, -8273588096879649, -50);
  (207, 26102, -4760674669850545, -50);
  (207, 32422, -794254063507009, -47);
  (212, 20195, -4573522357015151, -49);
  (215, 20195, -1911736501497221, -48);
  (215, 22330, -4557225744788253, -49);
  (215, 24191, -2242630977125537, -48);
  (215, 26102, -3523530717375379, -49);
  (215, 32422, -2500543889540005, -48);
  (217, 20195, -7914480832561173, -50);
  (217, 22330, -4808410937173155, -49);
  (217, 24191, -6809057643768377, -50);
  (217, 26102, -8601370502845341, -50);
  (217, 32422, -6258089636341327, -50);
  (220, 20195, -8049803443728305, -50);
  (220, 22330, -7297894415358607, -50);
  (220, 26102, -965737778144319, -47);
  (220, 32422, -4979917770326859, -49);
  (220, 32445, -3639405454616053, -49);
  (222, 20195, -828038858620939, -47);
  (222, 22330, -1568889973479683, -48);
  (222, 26102, -36011381048973, -42);
  (224, 20195, -1743772783296341, -48);
  (224, 22330, -6351020450764855, -51);
  (224, 26102, -5879084830709823, -50);
  (225, 20195, -6621388899669937, -50);
  (225, 22330, -1246888416679147, -48);
  (225, 24191, -247274224660085, -44);
  (225, 26102, -8005395143368649, -50);
  (225, 32422, -3895516269798269, -49);
  (225, 32445, -2466690582260399, -48);
  (227, 20195, -8148055437165053, -50);
  (227, 22330, -7279313960914933, -49);
  (227, 24191, -8639214372238261, -50);
  (227, 26102, -71813245672471, -43);
  (227, 32422, -4965097710557679, -49);
  (227, 32445, -3216296830228841, -48);
  (228, 24191, -3932352261222121, -49);
  (228, 26102, -3715243585612667, -49);
  (229, 20195, -4277200101061641, -49);
  (229, 24191, -5559187613085761, -49);
  (229, 26102, -8583645999844905, -50);
  (229, 32422, -4354437466027009, -49);
  (229, 32445, -185918587065503, -44);
  (230, 22330, -1974853333684053, -48);
  (230, 24191, -7625442698236063, -49);
  (230, 26102, -1983193943225201, -48);
  (230, 32422, -6825501205533991, -50);
  (231, 20195, -2631162288797185, -48);
  (231, 22330, -646943182445719, -46);
  (231, 24191, -1470197078582041, -47);
  (232, 20195, -5700632614206947, -49);
  (232, 22330, -1677325880987769, -47);
  (232, 24191, -1581138227163869, -48);
  (232, 32422, -5538682004920071, -49);
  (235, 22330, -4383641552398699, -49);
  (235, 26102, -6854751783967105, -50);
  (238, 22330, -2208530291611987, -48);
  (238, 26102, -4566977375704249, -50);
  (242, 22330, -2471308986033563, -49);
  (243, 20195, -6360204981192947, -51);
  (243, 26102, -7090320165279981, -51);
  (252, 20195, -4080166651461927, -49);
  (252, 22330, -8703430980717337, -50);
  (252, 24191, -4500134264608695, -49);
  (252, 26102, -4698301081398719, -49);
  (252, 32422, -8019625295312713, -50);
  (256, 20195, -5685168889102987, -49);
  (256, 22330, -6574883354409661, -49);
  (256, 26102, -1556598815217853, -47);
  (256, 32422, -5232347249988095, -49);
  (262, 32422, -5613920268849697, -50);
  (304, 20195, -5443962443542165, -49);
  (304, 26102, -4794953101435487, -50);
  (304, 32422, -6506124775993343, -50);
  (307, 26102, -8160137284454345, -51);
  (315, 20195, -3667875018277555, -49);
  (315, 22330, -5006135768179829, -49);
  (315, 24191, -4091721226630693, -49);
  (315, 26102, -3516471789247787, -49);
  (315, 32422, -2071995608239793, -48);
  (317, 20195, -7779265329963693, -50);
  (317, 22330, -2961199367856547, -48);
  (317, 24191, -2961199367856547, -48);
  (320, 20195, -4055407242499887, -49);
  (320, 22330, -263355650775583, -45);
  (320, 24191, -4665652585779535, -49);
  (320, 26102, -2991995420919421, -49);
  (320, 32422, -4986840787278647, -49);
  (322, 20195, -4830164508289161, -49);
  (322, 22330, -2589326300913705, -48);
  (322, 26102, -748316671061835, -46);
  (324, 20195, -3287479590739395, -49);
  (325, 20195, -1838839654221755, -48);
  (325, 22330, -895394784182823, -47);
  (325, 24191, -3019823385480103, -48);
  (325, 26102, -7464229402958067, -50);
  (325, 32422, -1045232351650389, -47);
  (327, 20195, -8195769044388811, -50);
  (327, 22330, -739543468159479, -46);
  (327, 24191, -7474110633001399, -50);
  (327, 26102, -3561449242778113, -49);
  (327, 32422, -1175553720449215, -47);
  (327, 32445, -5311449724081039, -49);
  (328, 20195, -1287307221463011, -47);
  (328, 24191, -4243195888012773, -49);
  (328, 26102, -4759021712841709, -49);
  (329, 20195, -1851398958121967, -48);
  (329, 32422, -2355734412994031, -48);
  (329, 32445, -2613647325408499, -48);
  (330, 20195, -4677922984450443, -49);
  (330, 22330, -5253061506661397, -49);
  (330, 24191, -1037921408796983, -47);
  (330, 26102, -6328038370842107, -49);
  (330, 32422, -7991321739203547, -50);
  (331, 20195, -7741225931130045, -50);
  (331, 22330, -1355815766017793, -47);
  (331, 24191, -7832719894816083, -50);
  (331, 26102, -8462791258320237, -50);
  (331, 32422, -3481780518398835, -49);
  (331, 32445, -1275518715643015, -47);
  (332, 20195, -1368355195507815, -48);
  (332, 22330, -1263389313354675, -47);
  (332, 24191, -440798270905495, -46);
  (332, 26102, -1775462700600959, -48);
  (332, 32422, -5443764426429035, -49);
  (332, 32445, -4606051517387487, -49);
  (338, 26102, -674366334015943, -48);
  (343, 26102, -4558138989254721, -50);
  (352, 20195, -8117606052959133, -50);
  (352, 22330, -4710217204176171, -50);
  (352, 26102, -292329172700835, -45);
  (352, 32422, -5295730499947153, -49);
  (356, 20195, -3937058143874493, -51);
  (356, 32422, -5774765070221835, -50);
  (362, 26102, -8594446507954929, -50);
  (362, 32422, -371466543814629, -46);
  (400, 24191, -375957222266285, -46);
  (407, 32422, -4844901280980539, -50);
  (417, 24191, -1179504343359713, -47);
  (417, 32445, -7001582741131883, -50);
  (422, 20195, -4661869336589681, -49);
  (422, 22330, -4807014221661957, -49);
  (426, 26102, -8841499482755911, -52);
  (435, 20195, -1418102432066375, -48);
  (435, 22330, -2868825775771387, -49)
]%Z.
Definition demo_pemit : Z -> rune -> option (f64 demo) := fun y r =>
  match find (fun t : Z * Z * Z * Z => let '(a, b, _, _) := t in ((a =? y) && (b =? r))%Z) demo_ptab with
  | Some (_, _, m, e) => Some (lit_64 m e)
  | None => None
  end.
Lemma demo_pemit_ok : emit_ok (E := demo) demo_pemit.
Proof.
  intros y o v H. unfold demo_pemit in H. destruct (find _ demo_ptab) as [[[[a b] m] e]|] eqn:Ef; [|discriminate]. injection H as <-. apply find_some in Ef as [Hin _].
  assert (Ha : forallb (fun t : Z * Z * Z * Z => let '(_, _, m, e) := t in let v := lit_64 m e in
    eqb64 ieee v v && negb (ltb64 ieee v (min_float demo)) && negb (ltb64 ieee (lit_64 0 0) v)) demo_ptab = true) by (vm_compute; reflexivity).
  rewrite forallb_forall in Ha. specialize (Ha _ Hin). cbn beta iota zeta in Ha. apply andb_prop in Ha as [Ha H3]. apply andb_prop in Ha as [H1 H2]. apply negb_true_iff in H2, H3.
  refine (conj (conj _ (conj _ _)) (conj _ (conj _ _))); auto; vm_compute; reflexivity.
Qed.
Definition id_orders : orders := {| o_keys := fun l => l; o_prev := fun _ l => l; o_next := fun _ l => l; o_last := fun l => l |}.
Definition rev_orders : orders := {| o_keys := @rev _; o_prev := fun _ => @rev _; o_next := fun _ => @rev _; o_last := @rev _ |}.
Lemma id_orders_ok : orders_ok id_orders.
Proof. repeat split; intros; apply Permutation_refl. Qed.
Lemma rev_orders_ok : orders_ok rev_orders.
Proof. repeat split; intros; apply Permutation_rev. Qed.

Definition ntab := builtin (E := demo) demo_pemit.

(** C36 *)
Theorem C36_pos_viterbi_never_stuck : forall E em od obs, ar E = ieee -> emit_ok (E := E) em -> orders_ok od -> obs <> [] ->
  exists path, pos_viterbi (builtin em) od obs = Ok path /\ length path = length obs /\
    Forall (fun y => (100 <= y < 500)%Z /\ Z.to_nat (y mod 100) < length poss) path /\
    linked (fun x y => exists l m e, In (x, l) trans_tab /\ In (y, m, e) l) path /\
    linked (fun x y => legal (state_hst x) (state_hst y) /\ (state_hst y = HE \/ state_hst y = HM -> state_pos x = state_pos y)) path.
Proof. intros E em od obs HE Hem Ho Hne. exact (c36 HE Hem Ho Hne). Qed.
Print Assumptions C36_pos_viterbi_never_stuck.
Example C36_ex : pos_viterbi ntab id_orders (runes_of (str "纽约")) = Ok [130; 230]%Z /\ state_hst 130 = HB /\ state_hst 230 = HE /\ state_pos 130 = str "ns" /\ state_pos 230 = str "ns".
Proof. vm_compute. auto. Qed.
(** C37 *)
Theorem C37_pos_viterbi_order_independent : forall E (tb : ptab E) od od' obs, ar E = ieee -> log_tables tb -> orders_ok od -> orders_ok od' ->
  pos_viterbi tb od obs = pos_viterbi tb od' obs.
Proof. intros E tb od od' obs HE Hl Ho Ho'. exact (c37 HE Hl Ho Ho' obs). Qed.
Print Assumptions C37_pos_viterbi_order_independent.
Theorem C37_pos_cut_order_independent : forall E (d : dict E) tb od od' s h, ar E = ieee -> log_tables tb ->
  (forall i j k, orders_ok (od i j k)) -> (forall i j k, orders_ok (od' i j k)) -> pos_cut d tb od s h = pos_cut d tb od' s h.
Proof. intros E d tb od od' s h HE Hl. exact (pos_cut_order HE d Hl s h). Qed.
Print Assumptions C37_pos_cut_order_independent.
Theorem C37_builtin_tables : forall E em, ar E = ieee -> emit_ok (E := E) em -> log_tables (builtin em).
Proof. intros E em HE Hem. exact (tab_log (builtin_ok HE Hem)). Qed.
Print Assumptions C37_builtin_tables.
Example C37_ex : pos_viterbi ntab rev_orders (runes_of (str "纽约")) = Ok [130; 230]%Z.
Proof. vm_compute. reflexivity. Qed.

(** C64 *)
Theorem C64_pos_viterbi_optimal : forall E em od obs, ar E = ieee -> emit_ok (E := E) em -> orders_ok od -> obs <> [] ->
  exists path w, pos_viterbi (builtin em) od obs = Ok path /\ vpath (builtin em) (rev obs) (rev path) w /\
    forall q v, vpath (builtin em) (rev obs) q v -> le64 v w /\ (eqb64 E v w = true -> (hd 0 q <= hd 0 (rev path))%Z).
Proof. intros E em od obs HE Hem Ho Hne. exact (viterbi_ok HE (builtin_ok HE Hem) Ho Hne). Qed.
Print Assumptions C64_pos_viterbi_optimal.
(** Another candidate: 纽约 as the name of a person, states 129 and 229; it is less probable. *)
Definition path_sum (y1 o1 y2 o2 : Z) : f64 demo :=
  add64 demo (add64 demo (add64 demo (emission ntab y1 o1) (p_start ntab y1)) (trans_get ntab y1 y2)) (emission ntab y2 o2).
Lemma two_states : forall (tb : ptab demo) o1 o2 y1 y2 v, allowed tb o1 y1 -> allowed tb o2 y2 -> trans tb y1 y2 v ->
  vpath tb [o2; o1] [y2; y1] (add64 demo (add64 demo (add64 demo (emission tb y1 o1) (p_start tb y1)) v) (emission tb y2 o2)).
Proof.
  intros tb o1 o2 y1 y2 v A1 A2 Ht. apply vp_cons; [apply vp_one; exact A1| |exact Ht].
  refine (conj _ (or_introl A2)). exists y1, v. exact (conj A1 Ht).
Qed.
Definition has (o : option (list Z)) (y : Z) : bool := match o with Some l => inZ y l | None => false end.
Lemma has_allowed : forall (tb : ptab demo) o y, has (p_char tb o) y = true -> allowed tb o y.
Proof. intros tb o y H. unfold has in H. unfold allowed. destruct (p_char tb o); [|discriminate]. apply inZ_In. exact H. Qed.
Lemma get_trans : forall (tb : ptab demo) x y, match assoc (p_trans tb x) y with Some _ => true | None => false end = true -> trans tb x y (trans_get tb x y).
Proof. intros tb x y H. unfold trans_get. destruct (assoc (p_trans tb x) y) as [v|] eqn:Ea; [|discriminate]. exact (assoc_in Ea). Qed.
Example C64_ex : vpath ntab [32422; 32445]%Z [229; 129]%Z (path_sum 129 32445 229 32422) /\ rev (runes_of (str "纽约")) = [32422; 32445]%Z /\
  ltb64 demo (path_sum 129 32445 229 32422) (path_sum 130 32445 230 32422) = true.
Proof.
  split; [|split; vm_compute; reflexivity]. unfold path_sum. apply two_states; [apply has_allowed|apply has_allowed|apply get_trans]; vm_compute; reflexivity.
Qed.

(** C38 *)
Theorem C38_regexp_split_lossless : forall s n ms, n <> 0%Z -> ordered (length s) 0 ms ->
  exists l, regexp_split true true s n ms = Ok l /\ concat l = s.
Proof. intros s n ms Hn Ho. exact (c38 Hn Ho). Qed.
Print Assumptions C38_regexp_split_lossless.
Theorem C38_regexp_split_positions : forall s n ms, (n < 0)%Z -> ordered (length s) 0 ms -> Forall (fun m => fst m < snd m) ms ->
  exists l, regexp_split true true s n ms = Ok l /\ length l = 2 * length ms + 1 /\ concat l = s /\
    forall i m0 m1, nth_error ms i = Some (m0, m1) -> nth_error l (2 * i + 1) = Some (slice s m0 m1) /\ length (concat (firstn (2 * i + 1) l)) = m0.
Proof. intros s n ms Hn Ho Hf. exact (c38_pieces Hn Ho Hf). Qed.
Print Assumptions C38_regexp_split_positions.
Example C38_ex : regexp_split true true (str "ab12c3") (-1) [(2, 4); (5, 6)] = Ok (map str ["ab"; "12"; "c"; "3"; ""]).
Proof. reflexivity. Qed.

(** C65 *)
Theorem C65_regexp_split_limit : forall cap s n ms l, (0 < n)%Z -> regexp_split true cap s n ms = Ok l ->
  (Z.of_nat (length l) <= n + if cap then 1 else 0)%Z.
Proof. intros cap s n ms l Hn H. exact (split_len Hn H). Qed.
Print Assumptions C65_regexp_split_limit.
(** With a group the limit is exceeded: at most 2 pieces were asked for. *)
Theorem C65_limit_exceeded_refuted : exists s ms l, ordered (length s) 0 ms /\ Forall (fun m => fst m < snd m) ms /\
  regexp_split true true s 2 ms = Ok l /\ (2 < Z.of_nat (length l))%Z.
Proof.
  exists (str "ab12c3"), [(2, 4); (5, 6)], (map str ["ab"; "12"; "c3"]). cbn. repeat split; try lia. repeat constructor; cbn; lia.
Qed.
Print Assumptions C65_limit_exceeded_refuted.
Example C65_ex : regexp_split true false (str "ab12c3") 2 [(2, 4); (5, 6)] = Ok (map str ["ab"; "c3"]).
Proof. reflexivity. Qed.

(** C39 *)
Theorem C39_pos_cut_preserves_text : forall E c (d : dict E) tb od s, reachable c d -> valid s ->
  exists ws, pos_cut d tb od s false = Ok ws /\ concat (map fst ws) = s /\ Forall (fun w => fst w <> []) ws.
Proof. intros E c d tb od s. apply c39_plain. Qed.
Print Assumptions C39_pos_cut_preserves_text.
Theorem C39_pos_cut_hmm_preserves_text : forall E c (d : dict E) em od s, ar E = ieee -> emit_ok (E := E) em -> (forall i j k, orders_ok (od i j k)) ->
  reachable c d -> valid s -> exists ws, pos_cut d (builtin em) od s true = Ok ws /\ concat (map fst ws) = s /\ Forall (fun w => fst w <> []) ws.
Proof. intros E c d em od s. apply c39_hmm. Qed.
Print Assumptions C39_pos_cut_hmm_preserves_text.
(** A run of Han characters the dictionary leaves to the tagger becomes the words of the most probable path. *)
Theorem C39_tagger_words : forall E em od t, ar E = ieee -> emit_ok (E := E) em -> (forall i, orders_ok (od i)) -> t <> [] ->
  Forall (fun r => is_han E r = true) (runes_of t) ->
  exists path, pos_viterbi (builtin em) (od 1) (runes_of t) = Ok path /\ cut_detail (builtin em) od t = Ok (path_words (runes_of t) path).
Proof. intros E em od t HE Hem Ho Hne H. exact (cut_detail_han HE Hem Ho Hne H). Qed.
Print Assumptions C39_tagger_words.
(** Any text: the Han runs as above, other runs in pieces tagged by their characters. *)
Theorem C39_tagger_text : forall E em od t, ar E = ieee -> emit_ok (E := E) em -> (forall i, orders_ok (od i)) -> valid t ->
  exists wss, cut_detail (builtin em) od t = Ok (concat wss) /\ Forall2 (tagger_block (builtin em)) (groups (is_han E) (runes_of t)) wss.
Proof. intros E em od t HE Hem Ho Hv. exact (tagger_ok HE Hem Ho Hv). Qed.
Print Assumptions C39_tagger_text.
Theorem C39_tagger_pieces_unique : forall s ps qs, skip_pieces s ps -> skip_pieces s qs -> ps = qs.
Proof. exact skip_unique. Qed.
Print Assumptions C39_tagger_pieces_unique.
Example C39_ex_tagger : cut_detail ntab (fun _ => id_orders) (str "a3.5[x]纽约 n]go") =
  Ok (map (fun p => (str (fst p), str (snd p))) [("a", "eng"); ("3.5[", "m"); ("x]", "eng"); ("纽约", "ns"); (" ", "x"); ("n]", "eng"); ("go", "eng")]).
Proof. vm_compute. reflexivity. Qed.
Definition ods (i j k : nat) : orders := id_orders.
Definition sp (l : list (lit * lit)) : list (bytes * bytes) := map (fun p => (str (fst p), str (snd p))) l.
Example C39_ex : pos_cut d_dag ntab ods (str "你好世界, 3aGo啊") false =
  Ok (sp [("你好", "l"); ("世界", "x"); (",", "x"); (" ", "x"); ("3aGo", "eng"); ("啊", "x")]).
Proof. vm_compute. reflexivity. Qed.
Example C39_ex_hmm : pos_cut d_dag ntab ods (str "你好纽约go") true = Ok (sp [("你好", "l"); ("纽约", "ns"); ("go", "e")]).
Proof. vm_compute. reflexivity. Qed.

(** C40 *)
Theorem C40_dict_pos : forall E c (d : dict E) w, reachable c d ->
  match dict_value d w with
  | None => pos_dict_pos d w = Ok ([], false)
  | Some v => exists t, nth_error (d_tokens d) v = Some t /\ concat (t_text t) = w /\ pos_dict_pos d w = Ok (if v =? 0 then ([], false) else (t_pos t, true))
  end.
Proof. intros E c d w. apply c40. Qed.
Print Assumptions C40_dict_pos.
Theorem C40_at_most_one_word_lost : forall E c (d : dict E) w w' t, reachable c d -> dict_value d w <> None -> dict_value d w' <> None ->
  pos_dict_pos d w = Ok (t, false) -> pos_dict_pos d w' = Ok (t, false) -> w = w'.
Proof.
  intros E c d w w' t H Hw Hw' H1 H2. pose proof (c40 w H) as K. pose proof (c40 w' H) as K'.
  destruct (dict_value d w) as [v|]; [|congruence]. destruct (dict_value d w') as [v'|]; [|congruence].
  destruct K as (a & A1 & A2 & A3). destruct K' as (b & B1 & B2 & B3). rewrite H1 in A3. rewrite H2 in B3.
  destruct v; [|discriminate]. destruct v'; [|discriminate]. congruence.
Qed.
Print Assumptions C40_at_most_one_word_lost.
Lemma stored_witness : forall E c (d : dict E) w v p, reachable c d -> dict_value d w = Some v ->
  match nth_error (d_tokens d) v with Some t => t_pos t | None => [] end = p -> pos_dict_pos d w = Ok ([], false) -> p <> [] ->
  exists c d w v t, reachable (E := E) c d /\ dict_value d w = Some v /\ nth_error (d_tokens d) v = Some t /\ t_pos t = p /\ pos_dict_pos d w = Ok ([], false).
Proof.
  intros E c d w v p Hr Hv H Hp Hne. destruct (nth_error (d_tokens d) v) as [t|] eqn:Et; [|congruence]. exists c, d, w, v, t. auto.
Qed.
Theorem C40_stored_pos_refuted : exists c (d : dict demo) w v t, reachable c d /\ dict_value d w = Some v /\ nth_error (d_tokens d) v = Some t /\
  t_pos t = str "n" /\ pos_dict_pos d w = Ok ([], false).
Proof.
  assert (H : match nth_error (d_tokens d_dag) 0 with Some t => t_pos t | None => [] end = str "n") by (vm_compute; reflexivity).
  assert (Hv : dict_value d_dag (str "世界") = Some 0) by (vm_compute; reflexivity).
  assert (Hp : pos_dict_pos d_dag (str "世界") = Ok ([], false)) by (vm_compute; reflexivity).
  apply (stored_witness _ _ _ _ _ _ (dict_of_reachable cfg0 os_dag : reachable cfg0 d_dag) Hv H Hp). discriminate.
Qed.
Print Assumptions C40_stored_pos_refuted.
Example C40_ex : pos_dict_pos d_dag (str "你好") = Ok (str "l", true).
Proof. vm_compute. reflexivity. Qed.

(** C41 *)
Theorem C41_pos_cut_plain : forall E c (d : dict E) tb od s, ar E = ieee -> reachable c d -> comparable d (runes_of s) ->
  exists wss, pos_cut d tb od s false = Ok (concat wss) /\ Forall2 (plain_block d) (groups (block_char E) (runes_of s)) wss.
Proof. intros E c d tb od s HE H. apply (c41_plain HE H tb od). Qed.
Print Assumptions C41_pos_cut_plain.
Theorem C41_pos_cut_hmm : forall E c (d : dict E) em od s, ar E = ieee -> reachable c d -> emit_ok (E := E) em -> (forall i j k, orders_ok (od i j k)) ->
  comparable d (runes_of s) ->
  exists wss, pos_cut d (builtin em) od s true = Ok (concat wss) /\ Forall2 (hmm_block d (builtin em)) (groups (block_char E) (runes_of s)) wss.
Proof. intros E c d em od s HE H Hem Ho. apply (c41_hmm HE H Hem Ho). Qed.
Print Assumptions C41_pos_cut_hmm.
(** The hypothesis: for instance when no word weighs more than [m] and the multiples of [m] do not overflow. *)
Theorem C41_comparable : forall E (d : dict E) m rs, ar E = ieee -> fin64 m -> (forall w, le64 (edge d (lit64 E 0 0) w) m) ->
  (forall n, n <= length rs -> fin64 (times64 n m)) -> comparable d rs.
Proof.
  intros E d m rs HE Hm He Hf g k qs Hg Hq. assert (L : laws64 E) by (rewrite HE; exact ieee_laws64).
  enough (K : le64 (weight d (lit64 E 0 0) qs) (times64 (length qs) m)) by apply K. apply weight_below; auto. intros n Hn. apply Hf.
  apply tiles_length in Hq. rewrite skipn_length in Hq. assert (length (snd g) <= length rs); [|lia].
  apply in_split in Hg as (g1 & g2 & Hg). rewrite <- (groups_concat (block_char E) rs), Hg, map_app, concat_app. cbn [map concat]. rewrite !app_length. lia.
Qed.
Print Assumptions C41_comparable.

Definition os_41 : list (dop demo) := [add (str "世") 50 (str "n"); add (str "界") 50 (str "n"); add (str "世界") 1000 (str "n"); OpCalc].
Theorem C41_most_probable_refuted : exists c (d : dict demo) s ps qs, reachable c d /\ tiles d (runes_of s) ps /\ tiles d (runes_of s) qs /\
  (forall h, match pos_cut d ntab ods s h with Ok ws => map fst ws = map string_of_runes ps | _ => False end) /\
  cut d c demo_emit s (Some false) = Ok (map string_of_runes qs) /\
  ltb64 demo (weight d (m_log demo (d_total d)) ps) (weight d (m_log demo (d_total d)) qs) = true /\
  ltb64 demo (weight d (lit64 demo 0 0) qs) (weight d (lit64 demo 0 0) ps) = true.
Proof.
  exists cfg0, (dict_of cfg0 os_41), (str "世界"), (cs (map str ["世"; "界"])), (cs (map str ["世界"])).
  assert (W : forall w v, dict_value (dict_of cfg0 os_41) w = Some v ->
    match nth_error (d_tokens (dict_of cfg0 os_41)) v with Some t => ltb64 demo (lit64 demo 0 0) (t_freq t) | None => false end = true ->
    pos_word (dict_of cfg0 os_41) w).
  { intros w v H1 H2. destruct (nth_error (d_tokens (dict_of cfg0 os_41)) v) as [t|] eqn:Et; [|discriminate]. exists (t_freq t). split; [exists v, t; auto|exact H2]. }
  split; [apply dict_of_reachable|]. split; [|split; [|split; [intros []; vm_compute; reflexivity|split; [|split]; vm_compute; reflexivity]]].
  - change (runes_of (str "世界")) with (runes_of (str "世") ++ runes_of (str "界") ++ []). apply tiles_word; [discriminate| |apply tiles_word; [discriminate| |constructor]].
    + apply W with (v := 0); vm_compute; reflexivity.
    + apply W with (v := 1); vm_compute; reflexivity.
  - change (runes_of (str "世界")) with (runes_of (str "世界") ++ []). apply tiles_word; [discriminate| |constructor]. apply W with (v := 2); vm_compute; reflexivity.
Qed.
Print Assumptions C41_most_probable_refuted.
(** The hypothesis of C41_pos_cut_plain holds for this dictionary and every text of at most 100 characters. *)
Lemma C41_ex_hyp : forall rs, length rs <= 100 -> comparable (dict_of cfg0 os_41) rs.
Proof.
  intros rs Hl. set (m := lit64 demo 16 0). set (ok := fun x : f64 demo => eqb64 demo x x && negb (ltb64 demo m x)).
  assert (Hok : forall x, ok x = true -> le64 (A := demo) x m).
  { intros x H. unfold ok in H. apply andb_prop in H as [H1 H2]. apply negb_true_iff in H2. refine (conj H1 (conj _ H2)). vm_compute. reflexivity. }
  apply (@C41_comparable demo _ m); [reflexivity|vm_compute; reflexivity| |].
  - intro w. apply Hok. unfold edge. set (d := dict_of cfg0 os_41). pose proof (find_eq w (reachable_inv (dict_of_reachable cfg0 os_41))) as Hf. fold d in Hf. rewrite Hf.
    destruct (t_get (d_trie d) w) as [v|].
    + assert (Ha : forallb (fun t => ok (sub64 demo (m_log demo (t_freq t)) (lit64 demo 0 0))) (d_tokens d) = true) by (vm_compute; reflexivity).
      destruct (nth_error (d_tokens d) v) as [t|] eqn:Et; [|vm_compute; reflexivity]. rewrite forallb_forall in Ha. apply Ha. eapply nth_error_In; exact Et.
    + destruct w; [vm_compute; reflexivity|]. destruct (t_path (d_trie d) (b :: w)); vm_compute; reflexivity.
  - intros n Hn. assert (Ha : forallb (fun n => eqb64 demo (sub64 demo (times64 n m) (times64 n m)) (lit64 demo 0 0)) (seq 0 101) = true) by (vm_compute; reflexivity).
    rewrite forallb_forall in Ha. apply Ha. apply in_seq. lia.
Qed.
