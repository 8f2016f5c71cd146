(** C48, C49: FindAllOccs and Analyze. *)
From Verif Require Import S_Analyze P_Seg2 P_Hist P_Analyze Demo T_Split T_Seg T_Dag.
Local Open Scope lit_scope.

(** C48: the offsets of every search word; a word that is searched for twice has its offsets twice. *)
Theorem C48_find_all_occs : forall data searches fuel, length data < fuel -> Forall (fun w => w <> []) searches ->
  exists m, find_all_occs fuel data searches = Ok m /\
    forall w, w <> [] -> exists l, right_occs data w l /\ (forall l', right_occs data w l' -> l' = l) /\ m w = concat (repeat l (times w searches)).
Proof.
  intros data searches fuel Hf H. destruct (find_occs_ok (fun _ => []) Hf H) as (m & H1 & H2). exists m. split; [exact H1|].
  intros w Hw. destruct (H2 w Hw) as (l & L1 & L2). exists l. split; [exact L1|]. split; [intros l' Hl'; eapply right_unique; eauto|exact L2].
Qed.
Print Assumptions C48_find_all_occs.
Definition occs_of (r : res occs) (w : bytes) : option (list nat) := match r with Ok m => Some (m w) | _ => None end.
Example C48_ex :
  occs_of (find_all_occs 9 (str "aaaa-ab") (map str ["aa"; "b"; "x"])) (str "aa") = Some [2; 0] /\
  occs_of (find_all_occs 9 (str "aaa-ab") (map str ["aa"; "b"; "aa"])) (str "aa") = Some [1; 1] /\
  occs_of (find_all_occs 9 (str "aaa-ab") (map str ["aa"; "b"; "aa"])) (str "x") = Some [].
Proof. vm_compute. repeat split. Qed.

(** With an empty search word FindAllOccs does not end. *)
Theorem C48_empty_word_never_ends_refuted : forall data searches fuel, In [] searches -> find_all_occs fuel data searches = Hang.
Proof. intros data searches fuel H. apply find_occs_hang. exact H. Qed.
Print Assumptions C48_empty_word_never_ends_refuted.

(** C49 *)
Theorem C49_analyze_without_text : forall E c0 (d : dict E) fuel c text by_, reachable c0 d -> 0 < fuel -> Forall (fun w => w <> []) text -> text <> [] ->
  exists az, analyze d fuel c text [] by_ = Ok az /\ map (@a_text E) az = text /\ map (@a_position E) az = seq 0 (length text) /\
    (forall t, In t az -> exists b, dict_find d (a_text t) = Ok (a_freq t, a_pos t, b)) /\
    forall n t, nth_error az n = Some t -> a_start t = list_sum (map (span by_) (firstn n text)) /\ a_end t = a_start t + span by_ (a_text t).
Proof. intros E c0 d fuel c text by_ H. apply (analyze_no_text H). Qed.
Print Assumptions C49_analyze_without_text.

Lemma right_slice : forall T w l i, right_occs T w l -> In i l -> slice T i (i + length w) = w.
Proof.
  intros T w l i [_ H] Hi. apply H in Hi as [(a & b & -> & <-) _]. unfold slice. rewrite skipn_app, skipn_all, Nat.sub_diag. cbn [skipn app].
  replace (length a + length w - length a) with (length w) by lia. rewrite firstn_app, Nat.sub_diag, firstn_all. apply app_nil_r.
Qed.
(** [T] is the text, lower-cased if ToLower is set. The j-th of equal words (from 0) gets occurrence j, counted from the right and cyclically;
    a word that does not occur begins where the word before it begins. *)
Theorem C49_analyze_with_text : forall E c0 (d : dict E) fuel c text t1 by_, reachable c0 d ->
  let T := if c_lower c then to_lower_str E t1 else t1 in
  T <> [] -> length T < fuel -> Forall (fun w => w <> []) text ->
  exists az, analyze d fuel c text t1 by_ = Ok az /\ map (@a_text E) az = text /\ map (@a_position E) az = seq 0 (length text) /\
    (forall t, In t az -> exists b, dict_find d (a_text t) = Ok (a_freq t, a_pos t, b)) /\
    (forall t i, In t az -> occurs_at (a_text t) T i -> slice T (a_start t) (a_end t) = a_text t) /\
    forall n t, nth_error az n = Some t -> a_end t = a_start t + length (a_text t) /\ exists l, right_occs T (a_text t) l /\
       (l = [] -> a_start t = match n with O => 0 | S n' => match nth_error az n' with Some u => a_start u | None => 0 end end) /\
       (l <> [] -> nth_error l (times (a_text t) (firstn n text) mod length l) = Some (a_start t)).
Proof.
  intros E c0 d fuel c text t1 by_ H T HT Hf HF. destruct (@analyze_with_text _ _ _ H fuel c text t1 by_ HT Hf HF) as (az & A1 & A2 & A3 & A4 & A5). exists az. repeat (split; [assumption|]). split; [|exact A5].
  intros t i Ht Hi. apply In_nth_error in Ht as (n & Hn). destruct (A5 n t Hn) as (-> & l & L1 & _ & L2). destruct l as [|j l].
  - exfalso. destruct L1 as [_ L1]. apply (proj2 (L1 i)). split; [exact Hi|]. intros j [].
  - eapply right_slice; [exact L1|]. eapply nth_error_In, L2. discriminate.
Qed.
Print Assumptions C49_analyze_with_text.
Definition spans (r : res (list (atoken demo))) : option (list (nat * nat * nat)) :=
  match r with Ok az => Some (map (fun t => (a_position t, a_start t, a_end t)) az) | _ => None end.
Example C49_ex :
  spans (analyze d_dag 40 cfg0 (map str ["你好"; "世界"; "go"]) [] false) = Some [(0, 0, 6); (1, 6, 12); (2, 12, 14)] /\
  spans (analyze d_dag 40 cfg0 (map str ["你好"; "世界"; "go"]) [] true) = Some [(0, 0, 2); (1, 2, 4); (2, 4, 6)] /\
  spans (analyze d_dag 40 cfg0 (map str ["你好"; "世界"; "x"; "go"]) (str "你好世界 Go") true) = Some [(0, 0, 6); (1, 6, 12); (2, 6, 7); (3, 13, 15)].
Proof. vm_compute. repeat split. Qed.

(** An empty word: Analyze does not end. *)
Theorem C49_empty_word_never_ends_refuted : forall E (d : dict E) fuel c text t1 by_, In [] text -> analyze d fuel c text t1 by_ = Hang.
Proof. intros E d fuel c text t1 by_. apply analyze_hang. Qed.
Print Assumptions C49_empty_word_never_ends_refuted.

(** The words of the text in order do not get increasing spans: the first of two equal words gets the last occurrence. *)
Theorem C49_spans_in_text_order_refuted : ~ forall (d : dict demo) fuel text az, length (concat text) < fuel -> Forall (fun w => w <> []) text ->
  analyze d fuel cfg0 text (concat text) false = Ok az -> forall n t u, nth_error az n = Some t -> nth_error az (S n) = Some u -> a_end t <= a_start u.
Proof.
  intro H. assert (Hs : spans (analyze d_dag 9 cfg0 (map str ["a"; "a"]) (concat (map str ["a"; "a"])) false) = Some [(0, 1, 2); (1, 0, 1)]) by (vm_compute; reflexivity).
  specialize (H d_dag 9 (map str ["a"; "a"])). revert H Hs. generalize (analyze d_dag 9 cfg0 (map str ["a"; "a"]) (concat (map str ["a"; "a"])) false). intros [az| |] H Hs; try discriminate Hs.
  destruct az as [|t [|u [|]]]; try discriminate Hs. injection Hs as _ H2 H3 _ H5 _.
  specialize (H [t; u] ltac:(cbn; lia) ltac:(repeat constructor; discriminate) eq_refl 0 t u eq_refl eq_refl). lia.
Qed.
Print Assumptions C49_spans_in_text_order_refuted.
