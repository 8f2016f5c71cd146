(** C19-C22, C56, C59-C63, C69: dictionary loaders. *)
From Verif Require Import S_Load P_Str P_Load P_Load2 P_Load3 S_Seg P_Seg2 P_Hist Ieee Demo T_Split T_Seg T_Dict.
Local Open Scope lit_scope.

Definition lc0 : lcfg demo := @Build_lcfg demo [] false (lit_64 0 0) (str "3").
Definition lc1 : lcfg demo := @Build_lcfg demo [] true (lit_64 2 0) (str "3").
Definition seg0 : seg demo := {| s_cfg := cfg0; s_dict := None; s_load := false; s_lc := lc0 |}.
Definition seg1 : seg demo := {| s_cfg := cfg0; s_dict := None; s_load := false; s_lc := lc1 |}.

(** What a segmenter knows about some words: the part of speech and whether the frequency is the given one. *)
Definition look (r : res (seg demo)) (ws : list (bytes * Z)) : list (option (bytes * bool)) :=
  match r with
  | Ok s => match s_dict s with
            | None => []
            | Some d => map (fun w => match dict_value d (fst w) with
                                      | None => None
                                      | Some _ => match dict_find d (fst w) with
                                                  | Ok (f, p, _) => Some (p, eqb64 demo f (lit_64 (snd w) 0))
                                                  | _ => None
                                                  end
                                      end) ws
            end
  | _ => []
  end.

(** C19: LoadDictStr adds the entries of the text, in order, then computes the distances. *)
Theorem C19_load_str_adds_the_lines : forall E (s : seg E) txt, (forall d, s_dict s = Some d -> reachable (s_cfg s) d) ->
  exists es d', text_entries (match s_dict s with Some _ => s_lc s | None => init_lc (s_lc s) end) txt es /\
    run_ops (s_cfg s) (match s_dict s with Some d => d | None => new_dict E end) (map (@op_of E) es ++ [OpCalc]) = Ok d' /\
    exists s', load_str s txt = Ok s' /\ s_dict s' = Some d' /\ s_cfg s' = s_cfg s /\ s_load s' = s_load s.
Proof. exact c19. Qed.
Print Assumptions C19_load_str_adds_the_lines.

(** A line contributes at most one entry, and the specification determines it. *)
Theorem C19_line_entry_unique : forall E (l : lcfg E) line e e', line_is l line e -> line_is l line e' -> e = e'.
Proof. exact line_is_unique. Qed.
Print Assumptions C19_line_entry_unique.

Definition text1 : bytes := str "世界 10 n" ++ [x0a] ++ str "Hello 4 x" ++ [x0a] ++ str "世 7 j" ++ [x0a] ++ str "low 1 n" ++ [x0a] ++
  str "世界 8 v" ++ [x0a] ++ str "bad x n" ++ [x0a] ++ str "one" ++ [x0a; x0a] ++ str "two 5".
Example C19_example :
  look (load_str seg0 text1) [(str "世界", 10); (str "hello", 4); (str "Hello", 4); (str "世", 2); (str "low", 1); (str "bad", 0); (str "one", 3); (str "two", 5); ([], 0)]%Z =
  [Some (str "n", true); Some (str "x", true); None; Some (str "j", true); None; None; None; Some ([], true); None].
Proof. vm_compute. reflexivity. Qed.
Example C19_line_example : line_is lc1 (str "世界 10 n") (str "世界", lit_64 10 0, str "n").
Proof.
  exists [str "世界"; str "10"; str "n"], (str "10").
  refine (conj _ (conj _ (conj _ (conj _ _)))).
  - apply fields_iff; [discriminate|vm_compute; reflexivity].
  - apply trimmed_iff. vm_compute. reflexivity.
  - cbn. apply trimmed_iff. vm_compute. reflexivity.
  - split; [vm_compute; reflexivity|]. right. exists (lit_64 10 0). refine (conj _ (conj _ _)); [|vm_compute; reflexivity|].
    + change (demo_parse (str "10") = (lit_64 10 0, false)). unfold demo_parse. assert (Hd : dec 0 (str "10") = Some 10%Z) by (vm_compute; reflexivity).
      rewrite Hd. change (str "10") with [x31; x30]. reflexivity.
    + right. split; [|reflexivity]. cbn [fst snd]. apply Nat.leb_le. vm_compute. reflexivity.
  - cbn. apply trimmed_iff. vm_compute. reflexivity.
Qed.

(** The options a first load leaves behind: MinTokenFreq 2 and TextFreq "2.0" unless they were set; a later one changes none. *)
Theorem C19_first_load_sets_defaults : forall E (s s' : seg E),
  (forall txt, load_str s txt = Ok s' -> match s_dict s with None => defaults (s_lc s) (s_lc s') | Some _ => s_lc s' = s_lc s end) /\
  (forall ms, load_map s ms = Ok s' -> match s_dict s with None => defaults (s_lc s) (s_lc s') | Some _ => s_lc s' = s_lc s end) /\
  (forall fs arg err, load_dict s fs arg = Ok (s', err) -> if s_load s then s_lc s' = s_lc s else defaults (s_lc s) (s_lc s')).
Proof. intros E s s'. split; [apply load_str_defaults|]. split; [apply load_map_defaults|apply load_dict_defaults]. Qed.
Print Assumptions C19_first_load_sets_defaults.
Definition min_is (r : res (seg demo)) (z : Z) : bool := match r with Ok s => beqb (l_textfreq (s_lc s)) (str "3") && eqb64 demo (l_min (s_lc s)) (lit_64 z 0) | _ => false end.
Example C19_defaults_example : min_is (load_str seg0 text1) 2 = true /\
  min_is (load_str {| s_cfg := cfg0; s_dict := None; s_load := false; s_lc := @Build_lcfg demo [] false (lit_64 5 0) (str "3") |} text1) 5 = true.
Proof. split; vm_compute; reflexivity. Qed.

(** C20: in a history of LoadDictStr, LoadDictMap, AddToken and AddTokenForce calls on a new segmenter, the first
    accepted entry of a word decides its frequency and part of speech. *)
Theorem C20_first_entry_wins : forall E (hs : list (lop E)) s s', s_dict s = None -> run_lops s hs = Ok s' ->
  Forall (fun o => match o with LReader _ | LDict _ _ => False | _ => True end) hs -> hs <> [] ->
  exists ess d, Forall2 (lop_entries (init_lc (s_lc s))) hs ess /\ s_dict s' = Some d /\
    forall w, match first_entry (s_cfg s) (concat ess) w with
              | Some (f, p) => dict_find d w = Ok (f, p, true)
              | None => dict_value d w = None
              end.
Proof. exact c20_first. Qed.
Print Assumptions C20_first_entry_wins.

(** Later loads (also Reader and, once Load is set, LoadDict) change nothing about a word already there. *)
Theorem C20_later_loads_change_nothing : forall E (os : list (lop E)) s s' d w, s_dict s = Some d -> reachable (s_cfg s) d ->
  (s_load s = true \/ Forall (fun o => ~ is_ldict o) os) -> run_lops s os = Ok s' -> dict_value d w <> None ->
  exists d', s_dict s' = Some d' /\ dict_value d' w <> None /\ dict_find d' w = dict_find d w.
Proof. exact c20_stable. Qed.
Print Assumptions C20_later_loads_change_nothing.

Definition map1 : smap := [(str "text", str "Hello"); (str "freq", str "9"); (str "pos", str "y")].
Definition map2 : smap := [(str "text", str "map"); (str "freq", str "6"); (str "pos", str "m")].
Definition fs1 : fsys := fun p => match p with
  | PUser _ => Some (str "file 8 f" ++ [x0a] ++ str "map 3 g" ++ [x0a], REof)
  | _ => None
  end.
Example C20_example :
  look (run_lops seg0 [LStr text1; LMap [map1; map2]; LAdd (E := demo) (str "low") (lit_64 1 0) []; LStr (str "low 9 q"); LReader (str "two 9 q" ++ [x0a])])
       [(str "hello", 4); (str "map", 6); (str "low", 1); (str "two", 5)]%Z =
  [Some (str "x", true); Some (str "m", true); Some ([], true); Some ([], true)].
Proof. vm_compute. reflexivity. Qed.
Example C20_example_dict :
  look (run_lops {| s_cfg := cfg0; s_dict := Some (new_dict demo); s_load := true; s_lc := lc0 |}
          [LStr (str "map 6 m"); LDict fs1 (Some (str "user.txt"))])
       [(str "map", 6); (str "file", 8)]%Z = [Some (str "m", true); Some (str "f", true)].
Proof. vm_compute. reflexivity. Qed.

(** C21: as long as the hidden Load flag is off, LoadDict forgets everything loaded so far. *)
Theorem C21_load_dict_discards : forall E (s : seg E) fs arg, s_load s = false -> load_dict s fs arg = load_dict (set_dict s None) fs arg.
Proof. exact c21_discard. Qed.
Print Assumptions C21_load_dict_discards.

(** LoadDict after Empty never succeeds, and panics if all files can be read. *)
Theorem C21_load_dict_after_empty_fails : forall E (s : seg E) fs arg, s_load s = true -> s_dict s = None ->
  match load_dict s fs arg with Ok (s', err) => err = true | Panic => True | Hang => True end.
Proof. exact c21_empty. Qed.
Print Assumptions C21_load_dict_after_empty_fails.
Theorem C21_load_dict_after_empty_panics : forall E (s : seg E) fs arg, s_load s = true -> s_dict s = None ->
  (forall p, exists data, fs p = Some (data, REof)) -> load_dict s fs arg = Panic.
Proof. exact c21_empty_panics. Qed.
Print Assumptions C21_load_dict_after_empty_panics.

(** "Loading more words never loses words" is false. *)
Definition has (r : res (seg demo)) (w : bytes) : bool :=
  match r with Ok s => match s_dict s with Some d => is_some (dict_value d w) | None => false end | _ => false end.
Definition ok {A} (r : res A) : bool := match r with Ok _ => true | _ => false end.
Theorem C21_loads_keep_words_refuted : exists (os : list (lop demo)) o w,
  ok (run_lops seg0 (os ++ [o])) = true /\ has (run_lops seg0 os) w = true /\ has (run_lops seg0 (os ++ [o])) w = false.
Proof.
  exists [LStr text1], (LDict fs1 (Some (str "user.txt"))), (str "世界"). repeat split; vm_compute; reflexivity.
Qed.
Print Assumptions C21_loads_keep_words_refuted.
Example C21_example_empty :
  match run_lop seg0 (LDict fs1 (Some (str "user.txt"))) with
  | Ok s => match run_lop (empty s) (LDict fs1 (Some (str "user.txt"))) with Panic => true | _ => false end
  | _ => false
  end = true.
Proof. vm_compute. reflexivity. Qed.

(** C22: with LoadNoFreq and the default separator a line with only a word gets the part of speech of the line before. *)
Theorem C22_one_field_line_inherits_pos : forall E c (l : lcfg E) d e w freq1 freq2, reachable c d -> wf_line E e -> wf_field E w ->
  l_sep l = [] -> l_nofreq l = true -> accepts l (fst (fst e)) (snd (fst e)) freq1 -> accepts l w (l_textfreq l) freq2 ->
  exists d', reader c l (line_text e ++ [x0a] ++ w ++ [x0a]) REof (Some d) = Ok (Some d') /\
    run_ops c d [OpAdd (fst (fst e)) freq1 (snd e); OpAdd w freq2 (snd e)] = Ok d'.
Proof. exact c22_spec. Qed.
Print Assumptions C22_one_field_line_inherits_pos.
(** In general, on lines of at most three fields: with three the third is the part of speech, with two there is none, with one it is left over. *)
Theorem C22_reader_short_lines : forall E c (l : lcfg E) ls d, reachable c d -> l_sep l = [] -> Forall (fun fs => length fs <= 3 /\ Forall (wf_field E) fs) ls ->
  exists es d', ln_entries l [] ls es /\ run_ops c d (map (@op_of E) es) = Ok d' /\ reader c l (lines_text ls) REof (Some d) = Ok (Some d').
Proof. exact c22_lines. Qed.
Print Assumptions C22_reader_short_lines.
Definition rdn (ls : list (list bytes)) : res (seg demo) :=
  do od <- reader cfg0 lc1 (lines_text ls) REof (Some (new_dict demo)) ; Ok {| s_cfg := cfg0; s_dict := od; s_load := true; s_lc := lc1 |}.
Example C22_short_lines_example :
  look (rdn [[str "ab"; str "5"; str "n"]; [str "cd"]; []; [str "ef"; str "6"]; [str "gh"]; [str "ij"; str "1"; str "v"]; [str "kl"]])
    [(str "ab", 5); (str "cd", 3); (str "ef", 6); (str "gh", 3); (str "ij", 1); (str "kl", 3)]%Z =
  [Some (str "n", true); Some (str "n", true); Some ([], true); Some ([], true); None; Some (str "v", true)].
Proof. vm_compute. reflexivity. Qed.
Example C22_example :
  look (do od <- reader cfg0 lc1 (str "世界 10 n" ++ [x0a] ++ str "Hello" ++ [x0a]) REof (Some (new_dict demo)) ; Ok (set_dict seg1 od))
       [(str "世界", 10); (str "hello", 3)]%Z = [Some (str "n", true); Some (str "n", true)].
Proof. vm_compute. reflexivity. Qed.

(** C56: DictPaths. *)
Theorem C56_plain_lists : forall arg sep names, list_sep arg sep -> fields sep arg names -> Forall (fun n => bare_tag n = false) names ->
  dict_paths arg = flat_map requested names.
Proof. exact c56_plain. Qed.
Print Assumptions C56_plain_lists.
Theorem C56_only_requested_paths : forall arg sep names q, list_sep arg sep -> fields sep arg names -> In q (dict_paths arg) ->
  exists n, In n names /\ In q (requested n).
Proof. exact c56_asked. Qed.
Print Assumptions C56_only_requested_paths.
Theorem C56_all_requested_in_order : forall arg sep names, list_sep arg sep -> fields sep arg names ->
  sublist (flat_map requested names) (dict_paths arg).
Proof. exact c56_order. Qed.
Print Assumptions C56_all_requested_in_order.
Theorem C56_bare_tag_adds_nothing_refuted : exists arg names, list_sep arg (str ",") /\ fields (str ",") arg names /\
  length (flat_map requested names) < length (dict_paths arg).
Proof.
  exists (str "zh_s,ko"), [str "zh_s"; str "ko"]. split; [|split].
  - right. split; [reflexivity|]. intros i (u & v & H & _). assert (Hc : contains (str "zh_s,ko") (str ", ") = true) by (apply contains_iff; eauto).
    vm_compute in Hc. discriminate.
  - apply fields_iff; [discriminate|vm_compute; reflexivity].
  - vm_compute. lia.
Qed.
Print Assumptions C56_bare_tag_adds_nothing_refuted.
Example C56_example : dict_paths (str "zh, user.txt, ja, , zh_t") = [PZhT; PZhS; PUser (str "user.txt"); PJp; PZhT] /\
  dict_paths (str "zh_s,ko") = [PZhS; PZhS] /\ dict_paths (str "en,zh_t") = [PZhT].
Proof. repeat split; vm_compute; reflexivity. Qed.

(** C59: on well-formed text Reader, LoadDict and LoadDictStr do the same. *)
Theorem C59_reader_is_load_str : forall E (s : seg E) es, s_dict s <> None -> l_sep (s_lc s) = [] -> l_nofreq (s_lc s) = false ->
  Forall (wf_line E) es ->
  load_str s (file_text es) =
    (do od <- reader (s_cfg s) (s_lc s) (file_text es) REof (s_dict s) ; do od' <- calc_opt od ; Ok (set_dict s od')).
Proof. exact c59. Qed.
Print Assumptions C59_reader_is_load_str.
Theorem C59_load_dict_is_load_str : forall E (s : seg E) fs name es, s_dict s = None -> s_load s = false -> l_sep (s_lc s) = [] ->
  l_nofreq (s_lc s) = false -> Forall (wf_line E) es -> dict_paths name = [PUser name] -> fs (PUser name) = Some (file_text es, REof) ->
  exists d s1 s2, load_str s (file_text es) = Ok s1 /\ load_dict s fs (Some name) = Ok (s2, false) /\ s_dict s1 = Some d /\ s_dict s2 = Some d.
Proof. exact c59_dict. Qed.
Print Assumptions C59_load_dict_is_load_str.
Definition lines1 : list (bytes * bytes * bytes) := [(str "世界", str "10", str "n"); (str "Hello", str "1", str "x"); (str "ok", str "4", str "y")].
Lemma wf_field_ok : forall x, x <> [] -> string_of_runes (runes_of x) = x -> forallb (fun r => negb (is_space demo r)) (runes_of x) = true -> wf_field demo x.
Proof.
  intros x H1 H2 H3. split; [exact H1|]. split; [apply P_Utf8b.roundtrip_iff; exact H2|]. apply Forall_forall. intros r Hr.
  rewrite forallb_forall in H3. apply H3 in Hr. apply negb_true_iff in Hr. exact Hr.
Qed.
Lemma lines1_wf : Forall (wf_line demo) lines1.
Proof. repeat constructor; apply wf_field_ok; try discriminate; vm_compute; reflexivity. Qed.
Example C59_example : file_text lines1 = str "世界 10 n" ++ [x0a] ++ str "Hello 1 x" ++ [x0a] ++ str "ok 4 y" ++ [x0a] /\
  Forall (wf_line demo) lines1 /\ dict_paths (str "user.txt") = [PUser (str "user.txt")] /\
  look (load_str seg0 (file_text lines1)) [(str "世界", 10); (str "hello", 1); (str "ok", 4)]%Z = [Some (str "n", true); None; Some (str "y", true)].
Proof. split; [vm_compute; reflexivity|]. split; [exact lines1_wf|]. split; vm_compute; reflexivity. Qed.

(** C60: Reader returns on every input that ends, whatever its contents ... *)
Theorem C60_reader_returns : forall E c (l : lcfg E) data d, reachable c d -> exists d', reader c l data REof (Some d) = Ok (Some d').
Proof. exact c60_total. Qed.
Print Assumptions C60_reader_returns.
(** ... but if the input ends in an error other than io.EOF, no number of iterations is enough, with the default
    separator or another one. *)
Theorem C60_reader_loops_on_read_errors : forall E fuel c (l : lcfg E) t f p rs d, reachable c d ->
  reader_ln fuel c l RFail t f p rs (Some d) = Hang.
Proof. exact c60_ln. Qed.
Print Assumptions C60_reader_loops_on_read_errors.
Theorem C60_reader_sep_loops_on_read_errors : forall E fuel c (l : lcfg E) s d, reachable c d ->
  reader_sep fuel c l RFail s (Some d) = Hang.
Proof. exact c60_sep. Qed.
Print Assumptions C60_reader_sep_loops_on_read_errors.
(** A file without a final newline, and LoadDict of a directory. *)
Example C60_example :
  look (do od <- reader cfg0 lc0 (str "世界 10 n" ++ [x0a; x0a] ++ str "Hello 4 x") REof (Some (new_dict demo)) ; Ok (set_dict seg0 od))
    [(str "世界", 10); (str "hello", 4)]%Z = [Some (str "n", true); Some (str "x", true)] /\
  match load_dict seg0 (fun _ => Some ([], RFail)) (Some (str "dir")) with Hang => true | _ => false end = true.
Proof. split; vm_compute; reflexivity. Qed.

(** C61: text after the third field is not ignored: without its first character it is read as a line of its own. *)
Theorem C61_fourth_field_is_a_line : forall E c (l : lcfg E) e r es od, wf_line E e -> scalar r = true -> is_space E r = false ->
  Forall (wf_line E) es -> l_sep l = [] -> l_nofreq l = false ->
  reader c l (line_text e ++ x20 :: enc r ++ file_text es) REof od = reader c l (file_text (e :: es)) REof od.
Proof. exact c61. Qed.
Print Assumptions C61_fourth_field_is_a_line.
Example C61_example : let txt := str "世界 10 n #Hello 4 x" ++ [x0a] in
  look (do od <- reader cfg0 lc0 txt REof (Some (new_dict demo)) ; Ok (set_dict seg0 od)) [(str "世界", 10); (str "hello", 4)]%Z =
    [Some (str "n", true); Some (str "x", true)] /\
  look (load_str seg0 txt) [(str "世界", 10); (str "hello", 4)]%Z = [Some (str "n", true); None].
Proof. split; vm_compute; reflexivity. Qed.

(** C62: LoadDictEmbed on a list of texts. *)
Theorem C62_embed_loads_all_texts : forall E (e : embedded) (s : seg E) arg names, l_sep (s_lc s) <> str "," -> fields (str ", ") arg names ->
  2 <= length names ->
  (forall i, ~ occurs_at (str "zh,") arg i) -> (forall i, ~ occurs_at (str "zh_s,") arg i) -> (forall i, ~ occurs_at (str "zh_t,") arg i) ->
  load_embed e s (Some arg) = load_strs s names.
Proof. exact c62_plain. Qed.
Print Assumptions C62_embed_loads_all_texts.
(** With "zh," anywhere in the argument the embedded dictionary is loaded in place of the first text. *)
Theorem C62_embed_replaces_first_text : forall E (e : embedded) (s : seg E) arg first names, l_sep (s_lc s) <> str "," ->
  fields (str ", ") arg (first :: names) -> names <> [] ->
  (exists i, occurs_at (str "zh,") arg i) -> (forall i, ~ occurs_at (str "zh_s,") arg i) -> (forall i, ~ occurs_at (str "zh_t,") arg i) ->
  load_embed e s (Some arg) = load_strs s ((e_zhs e ++ e_zht e) :: names).
Proof. exact c62_zh. Qed.
Print Assumptions C62_embed_replaces_first_text.
Definition emb : embedded := {| e_zhs := str "世界 10 n" ++ [x0a]; e_zht := str "你好 20 l" ++ [x0a]; e_ja := [] |}.
(** So "every listed text is loaded" is false: "Hello 4 x, zh, ok 5 y" loses Hello (and loads "zh" as a text). *)
Theorem C62_every_text_loaded_refuted : exists (e : embedded) (s : seg demo) arg names w,
  fields (str ", ") arg names /\ In (str "Hello 4 x") names /\
  has (load_str s (str "Hello 4 x")) w = true /\ ok (load_embed e s (Some arg)) = true /\ has (load_embed e s (Some arg)) w = false.
Proof.
  exists emb, seg0, (str "Hello 4 x, zh, ok 5 y"), [str "Hello 4 x"; str "zh"; str "ok 5 y"], (str "hello").
  split; [apply fields_iff; [discriminate|vm_compute; reflexivity]|]. split; [left; reflexivity|]. repeat split; vm_compute; reflexivity.
Qed.
Print Assumptions C62_every_text_loaded_refuted.
Example C62_example :
  look (load_embed emb seg0 (Some (str "zh, Hello 4 x"))) [(str "世界", 10); (str "你好", 20); (str "hello", 4)]%Z = [Some (str "n", true); Some (str "l", true); Some (str "x", true)] /\
  look (load_embed emb seg0 (Some (str "Hello 4 x, ok 5 y"))) [(str "世界", 10); (str "hello", 4); (str "ok", 5)]%Z = [None; Some (str "x", true); Some (str "y", true)].
Proof. split; vm_compute; reflexivity. Qed.

(** In general: the embedded dictionaries mentioned are loaded in the order zh, zh_s, zh_t, then the texts; if there is any, the first text is not. *)
Theorem C62_embed_lists : forall E (e : embedded) (s : seg E) arg first names zh, l_sep (s_lc s) <> str "," ->
  fields (str ", ") arg (first :: names) -> names <> [] -> named e arg zh ->
  load_embed e s (Some arg) = load_strs s (match zh with [] => first :: names | _ => zh ++ names end).
Proof. exact c62_list. Qed.
Print Assumptions C62_embed_lists.
(** Single names; without argument both Chinese dictionaries are loaded. Any other argument without ", " is a text. *)
Theorem C62_embed_names : forall E (e : embedded) (s : seg E),
  load_embed e s None = load_str s (e_zhs e ++ e_zht e) /\ load_embed e s (Some (str "zh")) = load_str s (e_zhs e ++ e_zht e) /\
  load_embed e s (Some (str "zh_s")) = load_str s (e_zhs e) /\ load_embed e s (Some (str "zh_t")) = load_str s (e_zht e) /\
  load_embed e s (Some (str "ja")) = load_str s (e_ja e) /\
  (forall txt, ~ In txt [str "zh"; str "zh_s"; str "zh_t"; str "ja"] -> (forall i, ~ occurs_at (str ", ") txt i) -> load_embed e s (Some txt) = load_str s txt).
Proof.
  intros E e s. repeat (split; [reflexivity|]). intros txt H1 H2. unfold load_embed. cbn [In] in H1.
  repeat (match goal with |- context [beqb txt ?x] => replace (beqb txt x) with false by (symmetry; apply beqb_neq; intros ->; tauto) end).
  replace (contains txt (str ", ")) with false; [reflexivity|]. symmetry. destruct (contains txt (str ", ")) eqn:Ec; [|reflexivity].
  apply contains_iff in Ec as (u & v & Hu). exfalso. apply (H2 (length u)). exists u, v; auto.
Qed.
Print Assumptions C62_embed_names.
Example C62_lists_example : named emb (str "zh_t, zh_s, ok 5 y") [e_zhs emb; e_zht emb] /\
  look (load_embed emb seg0 (Some (str "zh_t, zh_s, ok 5 y"))) [(str "世界", 10); (str "你好", 20); (str "ok", 5)]%Z = [Some (str "n", true); Some (str "l", true); Some (str "y", true)] /\
  look (load_embed emb seg0 (Some (str "Hello 4 x, zh_t, ok 5 y"))) [(str "世界", 10); (str "你好", 20); (str "ok", 5); (str "hello", 4)]%Z = [None; Some (str "l", true); Some (str "y", true); None].
Proof.
  split; [|split; vm_compute; reflexivity]. exists [], [e_zhs emb], [e_zht emb]. split; [reflexivity|].
  split; [right; split; [|reflexivity]; intros i (u & v & H & _); assert (Hc : contains (str "zh_t, zh_s, ok 5 y") (str "zh,") = true) by (apply contains_iff; eauto); vm_compute in Hc; discriminate|].
  split; left; (split; [|reflexivity]); [exists 6; exists (str "zh_t, "), (str " ok 5 y")|exists 0; exists [], (str " zh_s, ok 5 y")]; split; reflexivity.
Qed.

(** C63: with LoadNoFreq a blank line (a trailing newline) stores the empty word. *)
Theorem C63_blank_line_adds_empty_word : forall E (s : seg E) txt lines freq, (forall d, s_dict s = Some d -> reachable (s_cfg s) d) ->
  let l := match s_dict s with Some _ => s_lc s | None => init_lc (s_lc s) end in
  fields [x0a] txt lines -> In [] lines -> l_nofreq l = true -> accepts l [] (l_textfreq l) freq ->
  exists s' d', load_str s txt = Ok s' /\ s_dict s' = Some d' /\ dict_value d' [] <> None.
Proof. exact c63. Qed.
Print Assumptions C63_blank_line_adds_empty_word.
Example C63_example : look (load_str seg1 (str "Hello" ++ [x0a])) [(str "hello", 3); ([], 2)]%Z = [Some ([], true); Some ([], true)] /\
  look (load_str seg0 (str "Hello 3" ++ [x0a])) [(str "hello", 3); ([], 2)]%Z = [Some ([], true); None].
Proof. split; vm_compute; reflexivity. Qed.

(** C69: Reader with a separator adds the entries of the lines, in order; the lines keep their newlines and the first field is not trimmed. *)
Theorem C69_reader_with_separator : forall E c (l : lcfg E) txt d, reachable c d -> l_sep l <> [] ->
  exists es d', sep_text_entries l txt es /\ run_ops c d (map (@op_of E) es) = Ok d' /\ reader c l txt REof (Some d) = Ok (Some d').
Proof. exact reader_sep_adds. Qed.
Print Assumptions C69_reader_with_separator.
Theorem C69_line_entry_unique : forall E (l : lcfg E) line e e', sep_line_is l line e -> sep_line_is l line e' -> e = e'.
Proof. exact sep_line_unique. Qed.
Print Assumptions C69_line_entry_unique.
(** On well-formed lines it does the same as LoadDictStr, with or without a newline at the end. *)
Theorem C69_reader_is_load_str : forall E (s : seg E) es tl, s_dict s <> None -> l_sep (s_lc s) <> [] -> ~ In x20 (l_sep (s_lc s)) -> ~ In x0a (l_sep (s_lc s)) ->
  l_nofreq (s_lc s) = false -> Forall (wf_line E) es -> (tl = [] \/ exists e, wf_line E e /\ tl = sep_line_text (l_sep (s_lc s)) e) ->
  load_str s (sep_file_text (l_sep (s_lc s)) es ++ tl) =
    (do od <- reader (s_cfg s) (s_lc s) (sep_file_text (l_sep (s_lc s)) es ++ tl) REof (s_dict s) ; do od' <- calc_opt od ; Ok (set_dict s od')).
Proof. exact c59_sep. Qed.
Print Assumptions C69_reader_is_load_str.
Definition lcs (nf : bool) : lcfg demo := @Build_lcfg demo (str ",") nf (lit_64 2 0) (str "3").
Definition rd (nf : bool) (txt : bytes) : res (seg demo) :=
  do od <- reader cfg0 (lcs nf) txt REof (Some (new_dict demo)) ; Ok {| s_cfg := cfg0; s_dict := od; s_load := true; s_lc := lcs nf |}.
(** With LoadNoFreq it is not: a word alone on its line is stored with the newline, and not found. *)
Theorem C69_one_field_line_refuted : exists txt w, has (load_str {| s_cfg := cfg0; s_dict := Some (new_dict demo); s_load := true; s_lc := lcs true |} txt) w = true /\
  has (rd true txt) w = false /\ has (rd true txt) (w ++ [x0a]) = true.
Proof. exists (str "one" ++ [x0a]), (str "one"). repeat apply conj; vm_compute; reflexivity. Qed.
Print Assumptions C69_one_field_line_refuted.
Example C69_example : sep_file_text (str ",") lines1 = str "世界, 10, n" ++ [x0a] ++ str "Hello, 1, x" ++ [x0a] ++ str "ok, 4, y" ++ [x0a] /\
  look (rd false (sep_file_text (str ",") lines1 ++ str "last, 6, z")) [(str "世界", 10); (str "hello", 1); (str "ok", 4); (str "last", 6)]%Z = [Some (str "n", true); None; Some (str "y", true); Some (str "z", true)] /\
  look (rd false (str " a , 4 , y " ++ [x0a] ++ str ",7" ++ [x0a] ++ str ", 8, q")) [(str " a ", 4); (str "a", 4); ([], 8)]%Z = [Some (str "y", true); None; None].
Proof. repeat apply conj; vm_compute; reflexivity. Qed.
