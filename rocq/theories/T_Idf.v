(** C51-C53: package idf, TF-IDF tags and stop words. *)
From Verif Require Import S_Idf Ieee P_Ieee P_Idf P_Idf2 P_Hist P_Dict P_Seg2 P_Trim Demo T_Split T_Seg T_Hmm T_Dag T_Load.
From Coq Require Import Reals Lra.
From Flocq Require Import IEEE754.BinarySingleNaN.
Local Open Scope lit_scope.

(** A sorting function that meets the contract. *)
Fixpoint insert {A} (less : A -> A -> bool) (x : A) (l : list A) : list A :=
  match l with [] => [x] | y :: t => if less x y then x :: l else y :: insert less x t end.
Definition ins_sort : sort_fn := fun A less l => fold_right (insert less) [] l.
Lemma insert_perm : forall A (less : A -> A -> bool) x l, Permutation (x :: l) (insert less x l).
Proof. intros A less x. induction l as [|y l IH]; [reflexivity|]. cbn. destruct (less x y); [reflexivity|]. rewrite perm_swap, IH. reflexivity. Qed.
Lemma ins_sorts : sorts ins_sort.
Proof.
  intros A less l. assert (P : forall l, Permutation l (ins_sort A less l)).
  { clear. induction l as [|x l IH]; [reflexivity|]. cbn. rewrite <- insert_perm. constructor. exact IH. }
  split; [apply P|]. induction l as [|x l IH]; intros (W1 & W2 & W3); [constructor|].
  assert (IHl : StronglySorted (fun a b => less b a = false) (ins_sort A less l)).
  { apply IH. split; [|split]; [intros a Ha; apply W1; right; exact Ha|intros a b e Ha Hb He; apply W2; right; assumption|intros a b e Ha Hb He; apply W3; right; assumption]. }
  cbn. fold (ins_sort A less l). pose proof (P l) as Pl. revert IHl Pl. generalize (ins_sort A less l). intros s Hs Ps. assert (Hin : forall y, In y s -> In y (x :: l)) by (intros y Hy; right; eapply Permutation_in; [symmetry; exact Ps|exact Hy]). clear Ps.
  assert (Hx : In x (x :: l)) by (left; reflexivity).
  induction Hs as [|y s Hs IHs Hy]; [repeat constructor|]. cbn. rewrite Forall_forall in Hy.
  assert (Iy : In y (x :: l)) by (apply Hin; left; reflexivity). destruct (less x y) eqn:E.
  - assert (Hyx : less y x = false) by (destruct (less y x) eqn:E'; [rewrite <- (W1 x Hx); symmetry; eapply W2; eauto|reflexivity]).
    constructor; [constructor; [exact Hs|apply Forall_forall; exact Hy]|]. apply Forall_forall. intros b [<-|Hb]; [exact Hyx|]. apply (W3 b y x); auto. apply Hin. right. exact Hb.
  - constructor; [apply IHs; intros b Hb; apply Hin; right; exact Hb|]. apply Forall_forall. intros b Hb. eapply Permutation_in in Hb; [|symmetry; apply insert_perm]. destruct Hb as [<-|Hb]; [exact E|apply Hy, Hb].
Qed.

(** C51: [k] are the words that count. *)
Theorem C51_extract_tags : forall E, ar E = ieee -> forall c0 (di : dict E) (i : idf E) srt o1 o2 d c em l text topK ws,
  reachable c0 di -> s_dict (i_seg i) = Some di -> sorts srt -> same_keys_in_any_order o1 -> same_keys_in_any_order o2 ->
  cut d c em text (Some true) = Ok ws -> (Z.of_nat (length ws) <= 2 ^ 53)%Z -> (0 <= topK)%Z ->
  let k := kept E l ws in
  exists out, extract_tags srt o1 o2 d c em (Some l) (Some i) text topK = Ok out /\
    NoDup (map fst out) /\ Z.of_nat (length out) = Z.min topK (Z.of_nat (length (nodup (list_eq_dec Byte.byte_eq_dec) k))) /\
    (forall t, In t out -> In (fst t) k /\ tag_is i k t) /\
    ((forall t x, In t k -> idf_is i t x -> num64 x) ->
       StronglySorted (@above E) out /\ forall t, In (fst t) k -> tag_is i k t -> ~ In t out -> forall a, In a out -> above a t).
Proof. intros E HE c0 di i srt o1 o2 d c em l text topK ws Hr Hi Hs H1 H2 Hc Hb HK. exact (extract_ok HE Hr Hi l Hs H1 H2 Hc Hb HK). Qed.
Print Assumptions C51_extract_tags.
Theorem C51_order_independent : forall E, ar E = ieee -> forall c0 (di : dict E) (i : idf E) srt srt' o1 o1' o2 o2' d c em l text topK ws,
  reachable c0 di -> s_dict (i_seg i) = Some di -> sorts srt -> sorts srt' -> same_keys_in_any_order o1 -> same_keys_in_any_order o1' ->
  same_keys_in_any_order o2 -> same_keys_in_any_order o2' ->
  cut d c em text (Some true) = Ok ws -> (Z.of_nat (length ws) <= 2 ^ 53)%Z -> (forall t x, In t (kept E l ws) -> idf_is i t x -> num64 x) ->
  extract_tags srt o1 o2 d c em (Some l) (Some i) text topK = extract_tags srt' o1' o2' d c em (Some l) (Some i) text topK.
Proof. intros E HE c0 di i srt srt' o1 o1' o2 o2' d c em l text topK ws Hr Hi. exact (@extract_det E HE c0 di i Hr Hi srt srt' o1 o1' o2 o2' d c em l text topK ws). Qed.
Print Assumptions C51_order_independent.
(** A negative number of tags. *)
Theorem C51_negative_count_panics : forall E, ar E = ieee -> forall c0 (di : dict E) (i : idf E) srt o1 o2 d c em l text topK ws,
  reachable c0 di -> s_dict (i_seg i) = Some di -> sorts srt -> same_keys_in_any_order o1 -> same_keys_in_any_order o2 ->
  cut d c em text (Some true) = Ok ws -> (Z.of_nat (length ws) <= 2 ^ 53)%Z -> (topK < 0)%Z ->
  extract_tags srt o1 o2 d c em (Some l) (Some i) text topK = Panic.
Proof. intros E HE c0 di i srt o1 o2 d c em l text topK ws Hr Hi. exact (@extract_neg E HE c0 di i Hr Hi srt o1 o2 d c em l text topK ws). Qed.
Print Assumptions C51_negative_count_panics.
(** 'A word without entry has the default value' is false: a beginning of an entry has the value 0. *)
Theorem C51_beginnings_of_entries_weigh_nothing_refuted : forall E c (d : dict E) (i : idf E) w x v y, reachable c d -> s_dict (i_seg i) = Some d ->
  dict_value d w = None -> w <> [] -> x <> [] -> dict_value d (w ++ x) = Some v -> idf_is i w y -> y = lit64 E 0 0.
Proof.
  intros E c d i w x v y Hr Hi Hn Hw Hx Hv (d' & f & p & b & H1 & H2 & ->). assert (d' = d) as -> by congruence. destruct (c14 w Hr) as (f' & p' & b' & K1 & K2). rewrite H2 in K1. injection K1 as <- <- <-.
  assert (b = true) as -> by (apply K2; right; split; [exact Hw|]; eauto). rewrite (find_eq w (reachable_inv Hr)) in H2. rewrite dict_value_get in Hn. rewrite Hn in H2. congruence.
Qed.
Print Assumptions C51_beginnings_of_entries_weigh_nothing_refuted.

Definition i_ex : idf demo := @Build_idf demo (lit_64 2 0) [] (set_dict seg0 (Some (dict_of cfg0 [add (str "世界") 8 (str "n"); add (str "go语言") 9 (str "n"); OpCalc]))).
Definition tags_of (r : res (list (wseg demo))) : option (list bytes) := match r with Ok l => Some (map fst l) | _ => None end.
Example C51_ex :
  tags_of (extract_tags ins_sort (fun m => m) (@rev _) d_dag cfg0 demo_emit (Some default_stops) (Some i_ex) (str "你好世界, 你好 你好 go the 世界 啊") 2) = Some (map str ["世界"; "你好"]) /\
  tags_of (extract_tags ins_sort (@rev _) (fun m => m) d_dag cfg0 demo_emit (Some default_stops) (Some i_ex) (str "你好世界, 你好 你好 go the 世界 啊") 9) = Some (map str ["世界"; "你好"; "go"]) /\
  tags_of (extract_tags ins_sort (@rev _) (fun m => m) d_dag cfg0 demo_emit (Some default_stops) (Some i_ex) (str "你好") (-1)) = None.
Proof. vm_compute. repeat split. Qed.

(** C52 *)
Theorem C52_default_is_median : forall E, ar E = ieee -> forall srt os s0 (i : idf E), sorts srt -> idf_run srt (new_idf s0) os = Ok i ->
  (added os = [] -> i_median i = lit64 E 0 0) /\ (added os <> [] -> upper_median (added os) (i_median i)).
Proof. intros E HE srt os s0 i Hs H. exact (median_ok HE Hs H). Qed.
Print Assumptions C52_default_is_median.
(** AddToken of a new Idf panics: it has no dictionary before LoadDict. *)
Theorem C52_add_to_new_idf_panics : forall E srt (s0 : seg E) text freq pos os, s_dict s0 = None -> idf_run srt (new_idf s0) (IAdd text freq pos :: os) = Panic.
Proof. intros E srt s0 text freq pos os H. cbn [idf_run]. unfold idf_add. cbn [new_idf i_seg]. rewrite H. reflexivity. Qed.
Print Assumptions C52_add_to_new_idf_panics.
(** 'An unknown word has a positive default weight' is false: after loading only, its weight is 0. *)
Theorem C52_unknown_words_weigh_nothing_after_load_refuted : forall E, ar E = ieee -> forall c srt os s0 (i : idf E) d k t, sorts srt ->
  idf_run srt (new_idf s0) os = Ok i -> added os = [] -> s_dict (i_seg i) = Some d -> reachable c d ->
  (Z.of_nat (length k) <= 2 ^ 53)%Z -> In (fst t) k -> tag_is i k t -> dict_value d (fst t) = None -> eqb64 E (snd t) (lit64 E 0 0) = true.
Proof.
  intros E HE c srt os s0 i d k t Hs Hrun Ha Hd Hr Hk Hin (x & (d' & f & p & b & H1 & H2 & Hx) & H3) Hn. assert (d' = d) as -> by congruence.
  assert (x = lit64 E 0 0) as ->.
  { rewrite Hx. destruct b; [|apply (proj1 (median_ok HE Hs Hrun) Ha)]. rewrite (find_eq (fst t) (reachable_inv Hr)) in H2. rewrite dict_value_get in Hn. rewrite Hn in H2. congruence. }
  rewrite H3. pose proof (tally_in Hin) as K1. pose proof (tally_le (fst t) k) as K2. revert K1 K2 Hk. clear - HE. generalize (tally (fst t) k) (length k). intros a b K1 K2 Hk.
  destruct E as [A u1 u2 u3 u4 u5 u6 u7 u8 u9 u10 u11 u12 u13 u14]. cbn [ar] in *. subst A. destruct (@div_ints (Z.of_nat a) (Z.of_nat b)) as (y & Y0 & Y1 & Y2); [lia|lia|].
  change (eqb64 ieee (mul64 ieee (lit_64 0 0) (div64 ieee (lit_64 (Z.of_nat a) 0) (lit_64 (Z.of_nat b) 0))) (lit_64 0 0) = true). rewrite Y0. apply mul_zero; [exact Y1|lra].
Qed.
Print Assumptions C52_unknown_words_weigh_nothing_after_load_refuted.
Definition median_of (r : res (idf demo)) (x : b64) : bool := match r with Ok i => eqb64 demo (i_median i) x | _ => false end.
Example C52_ex : median_of (idf_run ins_sort (new_idf seg0) [ILoad demo fs1 (str "idf.txt") None; IAdd (E := demo) (str "a") (lit_64 5 0) []; IAdd (E := demo) (str "b") (lit_64 1 0) []; IAdd (E := demo) (str "c") (lit_64 3 0) []; IAdd (E := demo) (str "d") (lit_64 9 0) []]) (lit_64 5 0) = true /\
  median_of (idf_run ins_sort (new_idf seg0) [ILoad demo fs1 (str "idf.txt") (Some (str "x"))]) (lit_64 0 0) = true.
Proof. split; vm_compute; reflexivity. Qed.

(** C53: without assignments to the package variable, all StopWords agree, and what is done to one is done to all. *)
Theorem C53_stop_words_are_shared : forall os s s' w, assigns os = false -> s < length (h_sws (h_run os)) -> s' < length (h_sws (h_run os)) ->
  h_is_stop (h_run os) s w = h_is_stop (h_run os) s' w /\
  (h_is_stop (h_run (os ++ [WNew])) (length (h_sws (h_run os))) w = h_is_stop (h_run os) s w) /\
  (forall x, h_is_stop (h_run (os ++ [WAdd s x])) s' w = true <-> w = x \/ h_is_stop (h_run os) s' w = true) /\
  (forall x, h_is_stop (h_run (os ++ [WRemove s x])) s' w = true <-> w <> x /\ h_is_stop (h_run os) s' w = true) /\
  forall fs files, exists st p, nth_error (h_sws (h_run os)) s = Some (p, st) /\
    (h_is_stop (h_run (os ++ [WLoad s fs files])) s' w = true <->
       (snd (load_stop fs st files) = false /\ is_stop (fst (load_stop fs st files)) w = true) \/ h_is_stop (h_run os) s' w = true).
Proof.
  intros os s s' w Ha Hs Hs'. split; [rewrite !shared by assumption; reflexivity|]. split; [apply (step_shared WNew w Ha Hs Hs)|].
  split; [intro x; apply (step_shared (WAdd s x) w Ha Hs Hs'); reflexivity|]. split; [intro x; apply (step_shared (WRemove s x) w Ha Hs Hs'); reflexivity|].
  intros fs files. apply (step_shared (WLoad s fs files) w Ha Hs Hs'). reflexivity.
Qed.
Print Assumptions C53_stop_words_are_shared.
(** 'AddStop affects only its StopWord' is false. *)
Theorem C53_instances_are_independent_refuted : exists os w, h_is_stop (h_run os) 1 w = false /\ h_is_stop (h_run (os ++ [WAdd 0 w])) 1 w = true.
Proof. exists [WNew; WNew], (str "世界"). split; reflexivity. Qed.
Print Assumptions C53_instances_are_independent_refuted.
(** LoadDict adds to the package variable, not to its StopWord: after an assignment to the variable the words loaded are lost for it. *)
Theorem C53_load_dict_misses_its_instance_refuted : exists os fs files, snd (load_stop fs None files) = false /\ is_stop (fst (load_stop fs None files)) (str "a") = true /\
  h_is_stop (h_run (os ++ [WLoad 0 fs files])) 0 (str "a") = false.
Proof. exists [WNew; WAssign []], (fun _ => Some (str "a")), [str "f"]. vm_compute. auto. Qed.
Print Assumptions C53_load_dict_misses_its_instance_refuted.
Example C53_ex : h_is_stop (h_run [WNew; WRemove 0 (str "the"); WNew]) 1 (str "the") = false /\ h_is_stop (h_run [WNew; WNew; WAdd 1 (str "x")]) 0 (str "x") = true /\
  h_is_stop (h_run [WNew; WNew; WLoad 1 (fun _ => Some (str "y")) []]) 0 (str "y") = true.
Proof. vm_compute. auto. Qed.
