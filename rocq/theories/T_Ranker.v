(** C82: the lives of a pos.Segmenter and a TextRanker. *)
From Verif Require Import S_Ranker P_Seg2 P_Pos5 P_Idf P_Ranker Ieee P_Ieee Demo T_Split T_Seg T_Dag T_Load T_Pos T_Idf T_Rank T_Tags.
Local Open Scope lit_scope.

(** Setting up returns, from a zero Segmenter [s0]. *)
Theorem C82_setup_returns : forall E (s0 : seg E) os, s_dict s0 = None -> s_load s0 = false -> Forall (@r_usable E) os ->
  exists s, r_run s0 os = Ok s /\ (s_dict s <> None <-> r_has false os = true).
Proof.
  intros E s0 os H1 H2 H3. assert (U : usable s0) by (unfold usable; rewrite H1; exact H2). destruct (r_total H3 U) as (s & K). exists s. split; [exact K|].
  destruct (r_state H3 U K) as [_ K2]. rewrite H1 in K2. rewrite <- K2. destruct (s_dict s); split; congruence.
Qed.
Print Assumptions C82_setup_returns.

(** Cut of package pos: when it panics; which texts need no dictionary, and what they give. *)
Theorem C82_pos_cut : forall E (s0 s : seg E) os em od text h, ar E = ieee -> emit_ok (E := E) em -> (forall i j k, orders_ok (od i j k)) ->
  s_dict s0 = None -> s_load s0 = false -> Forall (@r_usable E) os -> r_run s0 os = Ok s ->
  if existsb (block_char E) (runes_of text)
  then (if r_has false os then exists ws, pos_cut_opt (s_dict s) (builtin em) od text h = Ok ws else pos_cut_opt (s_dict s) (builtin em) od text h = Panic)
  else pos_cut_opt (s_dict s) (builtin em) od text h = Ok (map (fun w => (w, str "x")) (seps (runes_of text))).
Proof.
  intros E s0 s os em od text h HE Hem Ho H1 H2 H3 H. assert (U : usable s0) by (unfold usable; rewrite H1; exact H2). destruct (r_state H3 U H) as [K1 K2]. rewrite H1 in K2.
  destruct (existsb (block_char E) (runes_of text)) eqn:Eb; [|apply bare_cut; exact Eb]. rewrite <- K2. unfold usable in K1. destruct (s_dict s) as [d|]; [|apply nil_cut; exact Eb]. cbn [pos_cut_opt]. apply reachable_inv in K1.
  destruct h; [destruct (pos_hmm K1 HE Hem text Ho) as (wss & P & _)|destruct (pos_plain K1 (builtin em) od text) as (wss & P & _)]; eauto.
Qed.
Print Assumptions C82_pos_cut.

(** TextRank and TextRankWithPOS: as with the dictionary of the last call; without one they panic, unless nothing is looked up. *)
Theorem C82_text_rank : forall E (s0 s : seg E) os srt oc o1 o2 em od text topK, ar E = ieee -> emit_ok (E := E) em -> (forall i j k, orders_ok (od i j k)) ->
  sorts srt -> (forall m, Permutation m (oc m)) -> same_keys_in_any_order o1 -> same_keys_in_any_order o2 ->
  s_dict s0 = None -> s_load s0 = false -> Forall (@r_usable E) os -> r_run s0 os = Ok s ->
  (forall d allow, s_dict s = Some d -> r_rank_pos srt oc o1 o2 s (builtin em) od text topK allow = text_rank_pos srt oc o1 o2 d (builtin em) od text topK allow) /\
  if existsb (block_char E) (runes_of text)
  then (if r_has false os then exists tags, r_rank srt oc o1 o2 s (builtin em) od text topK = Ok tags
        else forall allow, r_rank_pos srt oc o1 o2 s (builtin em) od text topK allow = Panic)
  else r_rank srt oc o1 o2 s (builtin em) od text topK = Ok [].
Proof.
  intros E s0 s os srt oc o1 o2 em od text topK HE Hem Ho Hs Hoc Ho1 Ho2 H1 H2 H3 H. split; [intros d allow Hd; unfold r_rank_pos, text_rank_pos; rewrite Hd; reflexivity|].
  pose proof (C82_pos_cut E s0 s os em od text true HE Hem Ho H1 H2 H3 H) as K. unfold r_rank, r_rank_pos. destruct (existsb (block_char E) (runes_of text)).
  - destruct (r_has false os); [destruct K as (ws & ->); cbn [bind]; eauto|]. intro allow. rewrite K. reflexivity.
  - rewrite K. cbn [bind]. f_equal. apply rank_nothing; auto. intros p Hp. apply in_map_iff in Hp as (w & <- & _). cbn [snd]. intro N. unfold default_pos in N. cbn [map In] in N. repeat (destruct N as [N|N]; [discriminate N|]). exact N.
Qed.
Print Assumptions C82_text_rank.

(** The dictionary given last counts; LoadDict after WithGse adds to it or replaces it, as the flag of the given segmenter says. *)
Definition seg82 (load : bool) : seg demo := {| s_cfg := s_cfg seg0; s_dict := Some d_tr; s_load := load; s_lc := s_lc seg0 |}.
Definition cut82 (os : list (rop demo)) (txt : bytes) : option (list (bytes * bytes)) :=
  match r_run seg0 os with Ok s => match pos_cut_opt (s_dict s) ntab ods txt true with Ok l => Some l | _ => None end | _ => None end.
Definition rank82 (os : list (rop demo)) (txt : bytes) : option (list bytes) :=
  match r_run seg0 os with Ok s => tags_of (r_rank ins_sort (fun m => m) (fun m => m) (fun m => m) s ntab ods txt 5) | _ => None end.
Example C82_ex :
  cut82 [] (str "，。 !") = Some (map (fun w => (str w, str "x")) ["，"; "。"; " "; "!"]) /\
  cut82 [] (str "， a") = None /\ cut82 [RGse seg0] (str "世") = None /\
  cut82 [RGse seg0; RGse (seg82 true)] (str "纽约") = Some [(str "纽约", str "ns")] /\
  cut82 [RGse (seg82 true); RGse seg0] (str "纽约") = None /\
  rank82 [RGse (seg82 true)] (str "上海纽约") = Some (map str ["纽约"; "上海"]) /\
  rank82 [] (str "，。 !") = Some [] /\ rank82 [] (str "，。+!") = None.
Proof. vm_compute. repeat split. Qed.
Example C82_ex_load : map (fun b => cut82 [RGse (seg82 b); RDict fs1 (Some (str "user.txt"))] (str "你好 map")) [true; false] =
  [Some [(str "你好", str "l"); (str " ", str "x"); (str "map", str "g")]; Some [(str "你", str "r"); (str "好", str "a"); (str " ", str "x"); (str "map", str "g")]].
Proof. vm_compute. reflexivity. Qed.
