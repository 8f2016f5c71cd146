(** C09 (search mode exactly), C70-C73: LoadDict's files, constructors, tokenToBytes, newTag. *)
From Verif Require Import S_Out S_Load P_Str P_Load P_Load2 P_Load3 P_Out P_Out2 S_Seg S_Hmm M_Pos P_PosTab P_Seg2 P_Hist Ieee Demo T_Split T_Seg T_Dict T_Load.
Local Open Scope lit_scope.

(** C09: what search mode lists: for each segment the listing of its token, see S_Out. *)
Theorem C09_search_listing : forall E c (d : dict E) s, reachable c d ->
  exists segs items, internal_segment c (Some d) s true = Ok segs /\ listings d segs items /\ seg_pos c (Some d) s true = Ok items.
Proof. exact c09_listing. Qed.
Print Assumptions C09_search_listing.
Theorem C09_listing_unique : forall E (d : dict E) segs l l', listings d segs l -> listings d segs l' -> l = l'.
Proof. intros E d segs l l' H. exact (listings_unique H (l' := l')). Qed.
Print Assumptions C09_listing_unique.
(** A single character that opens nothing is not listed before the first divided part, but it is after it. *)
Definition d_list : dict demo := dict_of cfg0 [add (str "你好世界") 10 (str "a"); add (str "世界") 10 (str "b"); add (str "世界你好") 10 (str "c"); add (str "你") 30 (str "d"); add (str "好") 30 (str "e"); OpCalc].
Example C09_listing_example : reachable cfg0 d_list /\
  seg_pos cfg0 (Some d_list) (str "啊你好世界") true = Ok [(str "啊", str "x"); (str "世界", str "b"); (str "你好世界", str "a")] /\
  seg_pos cfg0 (Some d_list) (str "啊世界你好") true = Ok [(str "啊", str "x"); (str "世界", str "b"); (str "你", str "d"); (str "好", str "e"); (str "世界你好", str "c")].
Proof. split; [apply dict_of_reachable|]. split; vm_compute; reflexivity. Qed.

(** C70: LoadDict reads the files of its argument in order with Reader, then computes the distances ... *)
Theorem C70_load_dict_reads_all : forall E (s : seg E) fs arg xs, (s_load s = true -> exists d, s_dict s = Some d /\ reachable (s_cfg s) d) ->
  Forall2 (fun p x => fs p = Some (x, REof)) (match arg with None => [PZhS; PZhT] | Some f => dict_paths f end) xs ->
  exists s' d1 d2, load_dict s fs arg = Ok (s', false) /\
    readers (s_cfg s) (s_lc s') (if s_load s then match s_dict s with Some d => d | None => new_dict E end else new_dict E) xs d1 /\
    run_ops (s_cfg s) d1 [OpCalc] = Ok d2 /\ s_dict s' = Some d2 /\ s_load s' = true /\ s_cfg s' = s_cfg s.
Proof. exact c70_all. Qed.
Print Assumptions C70_load_dict_reads_all.
(** ... up to the first file that cannot be opened: then it returns an error, and the words read are left without distances. *)
Theorem C70_load_dict_stops_at_missing : forall E (s : seg E) fs arg ps p qs xs, (s_load s = true -> exists d, s_dict s = Some d /\ reachable (s_cfg s) d) ->
  match arg with None => [PZhS; PZhT] | Some f => dict_paths f end = ps ++ p :: qs -> Forall2 (fun p x => fs p = Some (x, REof)) ps xs -> fs p = None ->
  exists s' d1, load_dict s fs arg = Ok (s', true) /\
    readers (s_cfg s) (s_lc s') (if s_load s then match s_dict s with Some d => d | None => new_dict E end else new_dict E) xs d1 /\
    s_dict s' = Some d1 /\ s_load s' = true /\ s_cfg s' = s_cfg s.
Proof. exact c70_missing. Qed.
Print Assumptions C70_load_dict_stops_at_missing.
Definition fs2 : fsys := fun p => match p with
  | PUser n => if beqb n (str "a.txt") then Some (str "ab 8 f" ++ [x0a], REof) else if beqb n (str "b.txt") then Some (str "ab 9 g" ++ [x0a] ++ str "cd 7 h" ++ [x0a], REof) else None
  | _ => None
  end.
Definition err_of (r : res (seg demo * bool)) : option bool := match r with Ok (_, b) => Some b | _ => None end.
Definition st_of (r : res (seg demo * bool)) : res (seg demo) := match r with Ok (s, _) => Ok s | Panic => Panic | Hang => Hang end.
Example C70_example : let r := load_dict seg0 fs2 (Some (str "a.txt,b.txt")) in let r' := load_dict seg0 fs2 (Some (str "a.txt,none.txt,b.txt")) in
  err_of r = Some false /\ look (st_of r) [(str "ab", 8); (str "cd", 7)]%Z = [Some (str "f", true); Some (str "h", true)] /\
  err_of r' = Some true /\ look (st_of r') [(str "ab", 8); (str "cd", 7)]%Z = [Some (str "f", true); None].
Proof. cbv zeta. repeat apply conj; vm_compute; reflexivity. Qed.

(** C71: New; whatever it returns can be used to segment: its dictionary was built with its own splitting options. *)
Theorem C71_new : forall E lower fs files (s : seg E) err, new_seg E lower fs files = Ok (s, err) ->
  (c_alphanum (s_cfg s) = true <-> nth_error files 1 = Some (str "alpha")) /\ c_alpha (s_cfg s) = false /\ c_num (s_cfg s) = false /\ c_lower (s_cfg s) = lower /\
  l_sep (s_lc s) = [] /\ l_nofreq (s_lc s) = false /\ l_min (s_lc s) = lit64 E 2 0 /\ l_textfreq (s_lc s) = str "2.0" /\
  s_load s = true /\ exists d, s_dict s = Some d /\ reachable (s_cfg s) d.
Proof. exact c71_new. Qed.
Print Assumptions C71_new.
Theorem C71_new_returns : forall E lower fs files, (forall p x fin, fs p = Some (x, fin) -> fin = REof) -> exists s err, new_seg E lower fs files = Ok (s, err).
Proof. exact c71_new_returns. Qed.
Print Assumptions C71_new_returns.
Theorem C71_new_embed : forall E lower e files, exists (s : seg E), new_embed E lower e files = Ok s /\
  (c_alphanum (s_cfg s) = true <-> nth_error files 1 = Some (str "alpha") \/ nth_error files 1 = Some (str "en")) /\
  c_alpha (s_cfg s) = false /\ c_num (s_cfg s) = false /\ c_lower (s_cfg s) = lower /\
  l_sep (s_lc s) = [] /\ l_nofreq (s_lc s) = false /\ l_min (s_lc s) = lit64 E 2 0 /\ l_textfreq (s_lc s) = str "2.0" /\
  s_load s = false /\ exists d, s_dict s = Some d /\ reachable (s_cfg s) d.
Proof. exact c71_embed. Qed.
Print Assumptions C71_new_embed.
(** The two agree on well-formed text unless the option is "en". *)
Theorem C71_constructors_agree : forall E lower fs e name opts es, Forall (@wf_line E) es -> dict_paths name = [PUser name] -> fs (PUser name) = Some (file_text es, REof) ->
  (forall i, ~ occurs_at (str ", ") (file_text es) i) -> ~ In (file_text es) [str "zh"; str "zh_s"; str "zh_t"; str "ja"] -> hd [] opts <> str "en" ->
  exists (s1 s2 : seg E) d, new_seg E lower fs (name :: opts) = Ok (s1, false) /\ new_embed E lower e (file_text es :: opts) = Ok s2 /\
    s_cfg s1 = s_cfg s2 /\ s_lc s1 = s_lc s2 /\ s_dict s1 = Some d /\ s_dict s2 = Some d.
Proof. exact c71_agree. Qed.
Print Assumptions C71_constructors_agree.
Definition cut_of (r : res (seg demo)) (s : bytes) : res (list bytes) := do g <- r ; cut_default (s_cfg g) (s_dict g) s.
Definition fs3 (txt : bytes) : fsys := fun p => match p with PUser _ => Some (txt, REof) | _ => None end.
Definition txt3 : bytes := str "hello 10 n" ++ [x0a] ++ str "world 12 n" ++ [x0a].
Theorem C71_constructors_agree_refuted : exists txt files s l l', dict_paths (hd [] files) = [PUser (hd [] files)] /\
  cut_of (st_of (new_seg demo true (fs3 txt) files)) s = Ok l /\ cut_of (new_embed demo true emb (txt :: tl files)) s = Ok l' /\ l <> l'.
Proof.
  exists txt3, [str "w.txt"; str "en"], (str "helloworld"), [str "helloworld"], [str "hello"; str "world"].
  repeat apply conj; [vm_compute; reflexivity..|discriminate].
Qed.
Print Assumptions C71_constructors_agree_refuted.
Example C71_example : cut_of (st_of (new_seg demo true (fs3 txt3) [str "w.txt"; str "alpha"])) (str "Helloworld") = Ok [str "hello"; str "world"] /\
  cut_of (new_embed demo false emb [txt3; str "alpha"]) (str "Helloworld") = Ok (map str ["H"; "e"; "l"; "l"; "o"; "world"]) /\
  txt3 = file_text [(str "hello", str "10", str "n"); (str "world", str "12", str "n")].
Proof. repeat apply conj; vm_compute; reflexivity. Qed.

(** C72: tokenToBytes lists the whole tree of sub-segments, tokenToString a part of it. *)
Theorem C72_token_to_bytes : forall E c (d : dict E) t, reachable c d -> In t (d_tokens d) ->
  exists l l', tree d t l /\ listing d t l' /\ subseq l' l /\
    forall f, length (concat (t_text t)) < f ->
      token_to_bytes f d t = Ok (flat_map (fun tp => fst tp ++ str "/" ++ snd tp ++ str " ") l) /\
      token_to_string f d t = Ok (flat_map (fun tp => fst tp ++ str "/" ++ snd tp ++ str " ") l').
Proof. exact c72_spec. Qed.
Print Assumptions C72_token_to_bytes.
Theorem C72_same_as_string_refuted : exists c (d : dict demo) t f x y, reachable c d /\ In t (d_tokens d) /\ token_to_bytes f d t = Ok x /\ token_to_string f d t = Ok y /\ x <> y.
Proof.
  exists cfg0, d_list, (nth 1 (d_tokens d_list) (fallback_token demo [])), 9, (str "世/x 界/x 世界/b "), (str "世界/b ").
  split; [apply dict_of_reachable|]. split; [apply nth_In; vm_compute; repeat constructor|]. repeat apply conj; [vm_compute; reflexivity..|discriminate].
Qed.
Print Assumptions C72_same_as_string_refuted.
Example C72_example : token_to_bytes 20 d_list (nth 0 (d_tokens d_list) (fallback_token demo [])) = Ok (str "你/d 好/e 世/x 界/x 世界/b 你好世界/a ") /\
  token_to_string 20 d_list (nth 0 (d_tokens d_list) (fallback_token demo [])) = Ok (str "世界/b 你好世界/a ").
Proof. split; vm_compute; reflexivity. Qed.

(** C73: newTag and its inverses position and pos. *)
Definition pos_name (p : tpos) : bytes := match p with TB => str "B" | TE => str "E" | TM => str "M" | TS => str "S" | TNone => [] end.
Theorem C73_new_tag : forall p q,
  match new_tag p q with
  | Some t => (100 <= t < 500)%Z /\ pos_name (tag_position t) = p /\ tag_pos t = Ok q
  | None => ~ In p (map str ["B"; "E"; "M"; "S"]) \/ ~ In q poss
  end.
Proof.
  intros p q. unfold new_tag. destruct (index_of p tag_positions 0) as [i|] eqn:Ei.
  2: { left. intro H. apply (index_of_in 0) in H as (j & H). unfold tag_positions in Ei. congruence. }
  destruct (index_of q poss 0) as [j|] eqn:Ej.
  2: { right. intro H. apply (index_of_in 0) in H as (k & H). congruence. }
  apply index_of_nth in Ei as (_ & Ei). apply index_of_nth in Ej as (_ & Ej). rewrite Nat.sub_0_r in *.
  assert (Hi : i < 4). { change 4 with (length tag_positions). apply nth_error_Some. rewrite Ei. discriminate. }
  assert (Hj : j < 64). { change 64 with (length poss). apply nth_error_Some. rewrite Ej. discriminate. }
  assert (Hd : ((Z.of_nat (i + 1) * 100 + Z.of_nat j) / 100 = Z.of_nat (i + 1))%Z) by (rewrite Z.div_add_l by discriminate; rewrite (Z.div_small (Z.of_nat j) 100) by lia; lia).
  assert (Hm : ((Z.of_nat (i + 1) * 100 + Z.of_nat j) mod 100 = Z.of_nat j)%Z) by (rewrite Z.add_comm, Z.mod_add by discriminate; apply Z.mod_small; lia).
  split; [lia|]. split.
  - unfold tag_position. rewrite Hd. destruct i as [|[|[|[|i]]]]; try lia; cbn in Ei; injection Ei as <-; reflexivity.
  - unfold tag_pos. rewrite Hm, Nat2Z.id. unfold get. rewrite Ej. reflexivity.
Qed.
Print Assumptions C73_new_tag.
(** Every state of the tables is a tag newTag makes from its own parts. *)
Theorem C73_states_are_tags : forall y, (100 <= y < 500)%Z -> Z.to_nat (y mod 100) < length poss ->
  exists q, tag_pos y = Ok q /\ new_tag (pos_name (tag_position y)) q = Some y.
Proof.
  intros y Hy Hl. assert (H : forallb (fun i => forallb (fun j => match nth_error poss j with Some q => match new_tag (nth i tag_positions []) q with Some t => Z.eqb t (Z.of_nat (i + 1) * 100 + Z.of_nat j) | None => false end | None => false end) (seq 0 64)) (seq 0 4) = true) by (vm_compute; reflexivity).
  rewrite forallb_forall in H. assert (Hd : (1 <= y / 100 < 5)%Z) by (split; [apply Z.div_le_lower_bound; lia|apply Z.div_lt_upper_bound; lia]).
  pose proof (Z.mod_pos_bound y 100 eq_refl) as Hm. pose proof (Z.div_mod y 100 ltac:(discriminate)) as He.
  specialize (H (Z.to_nat (y / 100) - 1)). rewrite forallb_forall in H. specialize (H ltac:(apply in_seq; lia) (Z.to_nat (y mod 100)) ltac:(apply in_seq; change (length poss) with 64 in Hl; lia)).
  unfold tag_pos, get. destruct (nth_error poss (Z.to_nat (y mod 100))) as [q|]; [|discriminate]. exists q. split; [reflexivity|].
  assert (Hn : pos_name (tag_position y) = nth (Z.to_nat (y / 100) - 1) tag_positions []).
  { unfold tag_position. assert (Hc : (y / 100 = 1 \/ y / 100 = 2 \/ y / 100 = 3 \/ y / 100 = 4)%Z) by lia. destruct Hc as [->|[->|[->| ->]]]; reflexivity. }
  rewrite Hn. destruct (new_tag _ q) as [t|]; [|discriminate]. apply Z.eqb_eq in H. f_equal. lia.
Qed.
Print Assumptions C73_states_are_tags.
Example C73_example : new_tag (str "B") (str "ns") = Some 130%Z /\ new_tag (str "S") (str "a") = Some 400%Z /\ new_tag (str "B") (str "zz") = None /\ new_tag (str "b") (str "n") = None.
Proof. vm_compute. auto. Qed.
