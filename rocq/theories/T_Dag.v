(** C23-C30: the DAG cutters. *)
From Verif Require Import S_Split S_Dag P_Utf8 P_Utf8b P_Seg2 P_Laws64 P_Hist P_Hmm P_Dag P_Dag2 P_Dag3 Ieee Demo T_Split T_Seg T_Hmm.
From Coq Require Import Sorting.Sorted.
Local Open Scope lit_scope.

Definition os_dag : list (dop demo) := [add (str "世界") 50 (str "n"); add (str "你好") 40 (str "l"); add (str "你好世界") 2 (str "n");
  add (str "世") 3 (str "n"); add (str "好世") 1 (str "x"); add (str "go") 4 (str "e"); OpCalc].
Definition d_dag : dict demo := dict_of cfg0 os_dag.

(** C23 *)
Theorem C23_cut_dag_nohmm_preserves_text : forall E c0 (d : dict E) c em s, reachable c0 d ->
  exists out, cut d c em s (Some false) = Ok out /\ Forall (fun w => w <> []) out /\
    concat out = (if c_lower c then to_lower_str E s else reencode s) /\ (c_lower c = false -> valid s -> concat out = s).
Proof.
  intros E c0 d c em s H. destruct (c23 c s H) as (out & H1 & H2 & H3). exists out. repeat split; auto.
  intros Hc Hv. rewrite H3, Hc. apply roundtrip_iff, Hv.
Qed.
Print Assumptions C23_cut_dag_nohmm_preserves_text.
Example C23_ex : cut d_dag cfg0 demo_emit (str "你好世界, 3aGo啊") (Some false) = Ok (map str ["你好"; "世界"; ","; " "; "3a"; "go"; "啊"]).
Proof. vm_compute. reflexivity. Qed.

(** C24 *)
Theorem C24_cut_dag_preserves_text : forall E c0 (d : dict E) c em s reg, reachable c0 d ->
  Forall (fun f => wf_matcher f /\ nonempty_matcher f) reg -> (length reg <= 1 \/ Forall rune_matcher reg) ->
  exists out, cut_dag d c em s reg = Ok out /\ Forall (fun w => w <> []) out /\
    concat out = (if c_lower c then to_lower_str E s else reencode s) /\ (c_lower c = false -> valid s -> concat out = s).
Proof.
  intros E c0 d c em s reg H H1 H2. destruct (c24 em c s H H1 H2) as (out & K1 & K2 & K3). exists out. repeat split; auto.
  intros Hc Hv. rewrite K3, Hc. apply roundtrip_iff, Hv.
Qed.
Print Assumptions C24_cut_dag_preserves_text.
Example C24_ex : cut d_dag cfg0 demo_emit (str "你好纽约时代广场Go3a") (Some true) = Ok (map str ["你好"; "纽约"; "时代广场"; "go"; "3a"]).
Proof. vm_compute. reflexivity. Qed.

(** C25 *)
Theorem C25_dag_lists_dictionary_words : forall E c0 (d : dict E) rs, reachable c0 d ->
  exists dag, get_dag d rs = Ok dag /\ length dag = length rs /\
    forall k, k < length rs -> exists row, nth_error dag k = Some row /\ StronglySorted lt row /\
      ((forall j, In j row <-> k <= j < length rs /\ pos_word d (part rs (k, j))) \/
       (row = [k] /\ forall j, k <= j < length rs -> ~ pos_word d (part rs (k, j)))).
Proof.
  intros E c0 d rs H. apply reachable_inv in H. destruct (get_dag_ok H rs) as (dag & H1 & H2 & H3). exists dag. split; [exact H1|]. split; [exact H2|].
  intros k Hk. destruct (H3 k Hk) as (row & R1 & R2). exists row. split; [exact R1|]. split; [eapply spec_sorted; exact R2|].
  destruct R2 as [[_ [_ R]]|[R R']]; [left; exact R|right; auto].
Qed.
Print Assumptions C25_dag_lists_dictionary_words.
Example C25_ex : get_dag d_dag (runes_of (str "你好世界好")) = Ok [[1; 3]; [2]; [2; 3]; [3]; [4]].
Proof. vm_compute. reflexivity. Qed.

(** C26 *)
Theorem C26_best_route_nohmm : forall E c0 (d : dict E) c em s, ar E = ieee -> reachable c0 d ->
  (forall k qs, tiles d (skipn k (dag_runes E c s)) qs -> num64 (weight d (m_log E (d_total d)) qs)) ->
  exists ps, best_cut d (m_log E (d_total d)) (dag_runes E c s) ps /\
    cut d c em s (Some false) = Ok (map (fun g => string_of_runes (concat (snd g))) (runs eng ps)).
Proof. intros E c0 d c em s. apply c26_nohmm. Qed.
Print Assumptions C26_best_route_nohmm.
Theorem C26_best_route_hmm : forall E c0 (d : dict E) c em s reg, ar E = ieee -> reachable c0 d ->
  Forall (fun f => wf_matcher f /\ nonempty_matcher f) reg ->
  (forall k qs, tiles d (skipn k (dag_runes E c s)) qs -> num64 (weight d (m_log E (d_total d)) qs)) ->
  exists ps wss, best_cut d (m_log E (d_total d)) (dag_runes E c s) ps /\ cut_dag d c em s reg = Ok (concat wss) /\
    Forall2 (group_words d em reg) (runs single ps) wss.
Proof. intros E c0 d c em. apply c26_hmm. Qed.
Print Assumptions C26_best_route_hmm.
(** What a piece weighs; the hypothesis of the two theorems holds when no piece weighs more than 0. *)
Theorem C26_edge_weight : forall E c0 (d : dict E) w f, reachable c0 d -> w <> [] -> reported d (lit64 E 1 0) w f ->
  edge d (m_log E (d_total d)) w = sub64 E (m_log E f) (m_log E (d_total d)).
Proof. intros E c0 d w f H. apply reachable_inv in H. exact (@edge_reported E c0 d H _ w f). Qed.
Print Assumptions C26_edge_weight.
Theorem C26_weights_comparable : forall E (d : dict E), ar E = ieee -> (forall w, le64 (edge d (m_log E (d_total d)) w) (lit64 E 0 0)) ->
  forall ps, num64 (weight d (m_log E (d_total d)) ps).
Proof. intros E d HE. apply weight_num. rewrite HE. exact ieee_laws64. Qed.
Print Assumptions C26_weights_comparable.

Definition cs (l : list bytes) : list (list rune) := map runes_of l.
(** 你好/世界 weighs more than 你好世界. *)
(** The hypothesis holds for this dictionary and every text. *)
Lemma C26_ex_hyp : forall ps, num64 (A := demo) (weight d_dag (m_log demo (d_total d_dag)) ps).
Proof.
  apply C26_weights_comparable; [reflexivity|]. set (z := lit64 demo 0 0).
  set (ok := fun x : f64 demo => eqb64 demo x x && negb (ltb64 demo z x)).
  assert (Hok : forall x, ok x = true -> le64 (A := demo) x z).
  { intros x H. unfold ok in H. apply andb_prop in H as [H1 H2]. apply negb_true_iff in H2. split; [exact H1|]. split; [reflexivity|exact H2]. }
  intro w. apply Hok. unfold edge. pose proof (find_eq w (reachable_inv (dict_of_reachable cfg0 os_dag))) as Hf. fold d_dag in Hf. rewrite Hf.
  destruct (t_get (d_trie d_dag) w) as [v|].
  - assert (Ha : forallb (fun t => ok (sub64 demo (m_log demo (t_freq t)) (m_log demo (d_total d_dag)))) (d_tokens d_dag) = true) by (vm_compute; reflexivity).
    destruct (nth_error (d_tokens d_dag) v) as [t|] eqn:Et; [|vm_compute; reflexivity]. rewrite forallb_forall in Ha. apply Ha. eapply nth_error_In; exact Et.
  - destruct w; [vm_compute; reflexivity|]. destruct (t_path (d_trie d_dag) (b :: w)); vm_compute; reflexivity.
Qed.
Example C26_ex : ltb64 demo (weight d_dag (m_log demo (d_total d_dag)) (cs (map str ["你好世界"]))) (weight d_dag (m_log demo (d_total d_dag)) (cs (map str ["你好"; "世界"]))) = true.
Proof. vm_compute. reflexivity. Qed.

(** C27: the character 你 only begins the word 你好, so every route through it weighs -Inf, and the words before it are
    chosen by length. *)
Definition os_27 : list (dop demo) := [add (str "世") 100 (str "n"); add (str "界") 100 (str "n"); add (str "世界") 1 (str "n");
  add (str "你好") 2 (str "l"); OpCalc].
Theorem C27_most_probable_refuted : exists c (d : dict demo) s ps qs, reachable c d /\ tiles d (runes_of s) ps /\ tiles d (runes_of s) qs /\
  cut d c demo_emit s (Some false) = Ok (map string_of_runes ps) /\
  ltb64 demo (plain_weight d ps) (plain_weight d qs) = true /\
  (* without its last character the text is cut as it should *)
  cut d c demo_emit (string_of_runes (removelast (runes_of s))) (Some false) = Ok (map string_of_runes (removelast qs)).
Proof.
  exists cfg0, (dict_of cfg0 os_27), (str "世界你"), (cs (map str ["世界"; "你"])), (cs (map str ["世"; "界"; "你"])).
  assert (W : forall w v, dict_value (dict_of cfg0 os_27) w = Some v ->
    match nth_error (d_tokens (dict_of cfg0 os_27)) v with Some t => ltb64 demo (lit64 demo 0 0) (t_freq t) | None => false end = true ->
    pos_word (dict_of cfg0 os_27) w).
  { intros w v H1 H2. destruct (nth_error (d_tokens (dict_of cfg0 os_27)) v) as [t|] eqn:Et; [|discriminate]. exists (t_freq t). split; [exists v, t; auto|exact H2]. }
  assert (N : tiles (dict_of cfg0 os_27) (runes_of (str "你")) (cs (map str ["你"]))).
  { change (runes_of (str "你")) with [20320%Z]. apply tiles_char; [|constructor]. intros q t Hq Hne. destruct q as [|a [|b q]]; [congruence| |discriminate].
    injection Hq as <- <-. intros (f & (v & t & H1 & _) & _). vm_compute in H1. discriminate. }
  split; [apply dict_of_reachable|]. split; [|split; [|split; [vm_compute; reflexivity|split; vm_compute; reflexivity]]].
  - change (runes_of (str "世界你")) with (runes_of (str "世界") ++ runes_of (str "你")). apply tiles_word; [discriminate| |exact N].
    apply W with (v := 2); vm_compute; reflexivity.
  - change (runes_of (str "世界你")) with (runes_of (str "世") ++ runes_of (str "界") ++ runes_of (str "你")). apply tiles_word; [discriminate| |].
    + apply W with (v := 0); vm_compute; reflexivity.
    + apply tiles_word; [discriminate| |exact N]. apply W with (v := 1); vm_compute; reflexivity.
Qed.
Print Assumptions C27_most_probable_refuted.

(** C28 *)
Theorem C28_cut_all : forall E c0 (d : dict E) c s, reachable c0 d -> let rs := dag_runes E c s in
  exists I, cut_all d c s = Ok (map (part rs) I) /\ StronglySorted lexlt I /\
    Forall (fun p => fst p <= snd p < length rs) I /\
    (forall k j, k < j -> (In (k, j) I <-> long_word d rs k j)) /\
    (forall k, In (k, k) I <-> k < length rs /\ (forall j, ~ long_word d rs k j) /\ last_end 0 k I <= k) /\
    (forall i, i < length rs -> exists p, In p I /\ fst p <= i <= snd p).
Proof.
  intros E c0 d c s H rs. apply reachable_inv in H. destruct (c28 H c s) as (I & H1 & H2). exists I. fold rs in H1, H2. split; [exact H1|]. split; [apply H2|].
  split; [eapply Forall_impl; [|exact (ao_range H2)]; cbn; tauto|]. split; [|split].
  - intros k j Hk. rewrite (ao_long H2 Hk). split; [tauto|]. split; [lia|assumption].
  - intros k. rewrite (ao_single H2). split; intros (K1 & K2 & K3); repeat split; auto; lia.
  - intros i Hi. destruct (ao_cover H2 (i := i)) as [K|K]; [lia|lia|exact K].
Qed.
Print Assumptions C28_cut_all.
Example C28_ex : cut_all d_dag cfg0 (str "你好世界好GO") = Ok (map str ["你好"; "你好世界"; "好世"; "世界"; "好"; "go"]).
Proof. vm_compute. reflexivity. Qed.

(** C29 *)
Theorem C29_cut_search : forall E c0 (d : dict E) c em s h, reachable c0 d ->
  exists ws gss, cut d c em s (Some h) = Ok ws /\ cut_search d c em s (Some h) = Ok (concat gss) /\ Forall2 (search_words d) ws gss.
Proof.
  intros E c0 d c em s h H.
  assert (exists ws, cut d c em s (Some h) = Ok ws) as (ws & Hw).
  { destruct h; cbn [cut]; [destruct (c24 em c s H (Forall_nil _)) as (out & K & _); [left; cbn; lia|eauto]|destruct (c23 c s H) as (out & K & _); eauto]. }
  exists ws. apply reachable_inv in H. destruct (c29 H Hw) as (gss & G1 & G2). exists gss. auto.
Qed.
Print Assumptions C29_cut_search.
Definition d_29 : dict demo := dict_of cfg0 (os_dag ++ [add (str "你好世界啊") 200 (str "n"); add (str "好世界") 1 (str "n"); OpCalc]).
Example C29_ex : cut_search d_29 cfg0 demo_emit (str "你好世界啊,你好") (Some false) = Ok (map str ["你好"; "好世"; "世界"; "好世界"; "你好世界啊"; ","; "你好"]).
Proof. vm_compute. reflexivity. Qed.

(** C30 *)
Theorem C30_suggest_one : forall E c0 (d : dict E) c w f, ar E = ieee -> reachable c0 d -> w <> [] -> reported d (lit64 E 1 0) w f ->
  exists r, suggest_freq d c [w] = Ok r /\ ltb64 E r f = false.
Proof. exact c30_one. Qed.
Print Assumptions C30_suggest_one.
Theorem C30_suggest_many : forall E c0 (d : dict E) c w1 w2 ws f, ar E = ieee -> reachable c0 d -> concat (w1 :: w2 :: ws) <> [] ->
  reported d (lit64 E 0 0) (concat (w1 :: w2 :: ws)) f ->
  exists r, suggest_freq d c (w1 :: w2 :: ws) = Ok r /\ ltb64 E f r = false.
Proof. exact c30_many. Qed.
Print Assumptions C30_suggest_many.
(** The exact value: the product of the relative frequencies of the parts times the total, without fraction; for one word plus 1 and
    not below the frequency reported, for several not above it. *)
Theorem C30_suggested_value_one : forall E c0 (d : dict E) c w f, reachable c0 d -> w <> [] -> reported d (lit64 E 1 0) w f ->
  exists segs q, cut d c (@no_model E) w (Some false) = Ok segs /\ product d (d_total d) (lit64 E 1 0) segs q /\
    let x := add64 E (trunc64 E (mul64 E q (d_total d))) (lit64 E 1 0) in suggest_freq d c [w] = Ok (if ltb64 E x f then f else x).
Proof. exact c30_one_value. Qed.
Print Assumptions C30_suggested_value_one.
Theorem C30_suggested_value_many : forall E c0 (d : dict E) c w1 w2 ws f, reachable c0 d -> Forall (fun w => w <> []) (w1 :: w2 :: ws) ->
  reported d (lit64 E 0 0) (concat (w1 :: w2 :: ws)) f ->
  exists q, product d (d_total d) (lit64 E 1 0) (w1 :: w2 :: ws) q /\
    let x := trunc64 E (mul64 E q (d_total d)) in suggest_freq d c (w1 :: w2 :: ws) = Ok (if ltb64 E f x then f else x).
Proof. exact c30_many_value. Qed.
Print Assumptions C30_suggested_value_many.
Definition is_freq (r : res (f64 demo)) (z : Z) : bool := match r with Ok x => eqb64 demo x (lit64 demo z 0) | _ => false end.
Example C30_ex : is_freq (suggest_freq d_dag cfg0 [str "你好世界"]) 21 = true /\ is_freq (suggest_freq d_dag cfg0 [str "世界"]) 51 = true /\
  is_freq (suggest_freq d_dag cfg0 (map str ["你好"; "世界"])) 2 = true /\ is_freq (suggest_freq d_dag cfg0 (map str ["你"; "好"])) 0 = true.
Proof. vm_compute. auto. Qed.
