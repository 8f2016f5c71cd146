(** C74: histories of API calls; C52: the dictionary of an Idf. *)
From Verif Require Import S_Api S_Seg P_Api P_Seg2 P_Split Ieee Demo T_Split T_Seg T_Load T_Idf.
Local Open Scope lit_scope.

(** C74 *)
Theorem C74_dictionaries_are_reachable : forall E (s0 s : seg E) os d, s_dict s0 = None -> run_aops s0 os = Ok s ->
  s_cfg s = s_cfg s0 /\ (s_dict s = Some d -> reachable (s_cfg s0) d).
Proof.
  intros E s0 s os d H Hr. assert (G : good (s_cfg s0) s0) by (split; [reflexivity|rewrite H; exact I]).
  destruct (aops_good G Hr) as [K1 K2]. split; [exact K1|]. intro Hd. rewrite Hd in K2. exact K2.
Qed.
Print Assumptions C74_dictionaries_are_reachable.
(** So after any history Segment and ModeSegment return, and return nothing or a tiling of the text. *)
Theorem C74_segment_after_any_history : forall E (s0 s : seg E) os txt m, s_dict s0 = None -> run_aops s0 os = Ok s ->
  exists segs, internal_segment (s_cfg s) (s_dict s) txt m = Ok segs /\
    match s_dict s with
    | None => segs = []
    | Some d => (m = true /\ segs = [] /\ exists w, split_words E (s_cfg s0) txt = Ok [w]) \/ covers d (norm E (s_cfg s0) txt) 0 (length txt) segs
    end.
Proof.
  intros E s0 s os txt m H Hr. destruct (s_dict s) as [d|] eqn:Ed.
  - destruct (C74_dictionaries_are_reachable E s0 s os d H Hr) as [K1 K2]. rewrite K1. exact (c01 txt m (K2 Ed)).
  - exists []. split; [|reflexivity]. unfold internal_segment. destruct txt as [|b t]; [reflexivity|]. rewrite split_words_eq. cbn [bind]. unfold segment_words. set (ws := wsplit _ _ _).
    destruct (m && (length ws =? 1)); reflexivity.
Qed.
Print Assumptions C74_segment_after_any_history.
(** Which histories return: those that never need a missing dictionary and read no failing file. *)
Theorem C74_histories_in_order_return : forall E (s0 : seg E) os, s_dict s0 = None -> s_load s0 = false -> fine (false, false) os ->
  exists s, run_aops s0 os = Ok s /\ (s_dict s <> None <-> fst (fold_left (@next E) os (false, false)) = true).
Proof.
  intros E s0 os H Hl Hf. assert (G : good (s_cfg s0) s0) by (split; [reflexivity|rewrite H; exact I]).
  assert (S : says (false, false) s0) by (split; [cbn; rewrite H; split; [discriminate|congruence]|cbn; congruence]).
  destruct (aops_total G S Hf) as (s & K1 & _ & K2 & _). exists s. split; [exact K1|]. symmetry. exact K2.
Qed.
Print Assumptions C74_histories_in_order_return.
Theorem C74_missing_dictionary_panics : forall E (s0 : seg E) os1 o os2, s_dict s0 = None -> s_load s0 = false -> fine (false, false) os1 ->
  fst (fold_left (@next E) os1 (false, false)) = false -> needs o -> run_aops s0 (os1 ++ o :: os2) = Panic.
Proof.
  intros E s0 os1 o os2 H Hl Hf Hn Ho. destruct (C74_histories_in_order_return E s0 os1 H Hl Hf) as (s & K1 & K2). rewrite aops_app, K1. cbn [bind run_aops].
  rewrite (@needs_panic E s o); [reflexivity| |exact Ho]. destruct (s_dict s); [|reflexivity]. assert (K : fst (fold_left (@next E) os1 (false, false)) = true) by (apply K2; discriminate). congruence.
Qed.
Print Assumptions C74_missing_dictionary_panics.

Definition zs : seg demo := zero_seg demo true.
Definition hist1 : list (aop demo) :=
  [ALoad (LDict fs1 (Some (str "user.txt"))); ALoad (LStr text1); AEmpty demo; AEmbed demo (emb : embedded) (Some (str "zh_s")); ARemove demo (str "世界");
   AReAdd (E := demo) (str "你好") (lit_64 7 0) (str "l"); ALoad (LReader (str "two 9 q" ++ [x0a])); ACalc demo].
Definition after (os : list (aop demo)) (txt : bytes) : option (list (nat * nat)) :=
  match run_aops zs os with
  | Ok s => match internal_segment (s_cfg s) (s_dict s) txt false with Ok l => Some (map (fun x => (sg_start x, sg_end x)) l) | _ => None end
  | _ => None
  end.
Definition panics {A : Type} (r : res A) : bool := match r with Panic => true | _ => false end.
Example C74_ex : s_dict zs = None /\ s_load zs = false /\ fine (false, false) hist1 /\ after hist1 (str "你好two map") = Some [(0, 3); (3, 6); (6, 9); (9, 10); (10, 13)] /\
  after [ALoad (LStr (str "世界 5 n
你 3")); AEmpty demo] (str "世界") = Some [] /\
  panics (run_aops zs [ALoad (LStr text1); AEmpty demo; ACalc demo]) = true.
Proof.
  split; [reflexivity|]. split; [reflexivity|]. split.
  - cbn [fine fine1 hist1 next needs fst snd orb negb]. repeat apply conj; auto; try discriminate. intros p x fin. unfold fs1. destruct p; congruence.
  - split; [vm_compute; reflexivity|]. split; vm_compute; reflexivity.
Qed.

(** C52: an Idf that starts from nothing has a reachable dictionary, whatever its history. *)
Theorem C52_idf_dictionaries_are_reachable : forall E srt (s0 : seg E) os i d, s_dict s0 = None -> idf_run srt (new_idf s0) os = Ok i ->
  s_dict (i_seg i) = Some d -> reachable (s_cfg s0) d.
Proof.
  intros E srt s0 os i d H Hr Hd. assert (G : good (s_cfg s0) (i_seg (new_idf s0))) by (split; [reflexivity|cbn [new_idf i_seg]; rewrite H; exact I]).
  destruct (idf_good G Hr) as [_ K]. rewrite Hd in K. exact K.
Qed.
Print Assumptions C52_idf_dictionaries_are_reachable.
