(** C42-C47, C57, C58, C66-C68: stop words, filters, joining. *)
From Verif Require Import S_Trim P_Utf8b P_Str P_Trim P_Trim2 P_Trim3 P_Out Ieee Demo T_Split T_Seg T_Hmm T_Dag.
Local Open Scope lit_scope.

(** C42 *)
Theorem C42_stop_words_are_a_set : forall E os m w, run_sops E None os = Ok m ->
  (is_stop m w = true <-> exists os1 o os2, os = os1 ++ o :: os2 /\ adds E o w /\ Forall (fun x => ~ removes x w) os2).
Proof. intros E os m w H. rewrite (sops_in w H). split; [intros [K|[K _]]; [exact K|discriminate]|auto]. Qed.
Print Assumptions C42_stop_words_are_a_set.
Theorem C42_add_stop_panics_without_map : forall E os,
  ((forall os1 w os2, os = os1 ++ SAdd w :: os2 -> has_map os1) -> exists m, run_sops E None os = Ok m) /\
  (forall os1 w os2, os = os1 ++ SAdd w :: os2 -> ~ has_map os1 -> run_sops E None os = Panic).
Proof.
  intros E os. split; [apply sops_ok|]. intros os1 w os2 -> H.
  assert (K : (exists m, run_sops E None os1 = Ok m) \/ run_sops E None os1 = Panic).
  { generalize (None : stops). clear. induction os1 as [|o os IH]; intro m; [left; eexists; reflexivity|]. cbn [run_sops]. destruct o; cbn [run_sop bind]; auto. destruct m; cbn [add_stop bind]; auto. }
  destruct K as [K|K]; [apply sops_panic; assumption|]. rewrite sops_app, K. reflexivity.
Qed.
Print Assumptions C42_add_stop_panics_without_map.
Definition os_stop : list sop := [SStr (str " 的
了

的 "); SAdd (str "x"); SRemove (str "了"); SArr [str "y"]; SRemove (str "q")].
Example C42_ex : exists m, run_sops demo None os_stop = Ok m /\ map (is_stop m) (map str ["的"; "了"; "x"; "y"; "q"; ""]) = [true; false; true; true; false; false].
Proof. eexists. split; vm_compute; reflexivity. Qed.
Example C42_ex_panic : run_sops demo None [SRemove (str "a"); SAdd (str "a")] = Panic /\ run_sops demo None (os_stop ++ [SEmpty; SAdd (str "a")]) = Panic.
Proof. split; vm_compute; reflexivity. Qed.

(** C43 *)
Theorem C43_filters : forall E notStop m (s : list bytes) (p : list (bytes * bytes)),
  selects (fun v => v <> [] /\ is_stop m v = false) s (stop m s) /\
  selects (fun w => w <> [] /\ (notStop = false -> is_stop m w = false)) (map (symbol_free E) s) (trim E notStop m s) /\
  selects (fun w => w <> []) (map (symbol_free E) s) (trim_symbol E s) /\
  selects (fun w => Exists (solid E) (runes_of w)) s (trim_punct E s) /\
  selects (fun w => symbol_free E (fst w) <> [] /\ (notStop = false -> is_stop m (symbol_free E (fst w)) = false)) p (trim_pos E notStop m p).
Proof. intros. split; [apply stop_eq|]. split; [apply trim_eq|]. split; [apply trim_symbol_eq|]. split; [apply trim_punct_eq|apply trim_pos_eq]. Qed.
Print Assumptions C43_filters.
(** [selects] determines the result. *)
Lemma selects_det : forall A (P : A -> Prop) l o o', selects P l o -> selects P l o' -> o = o'.
Proof. intros A P l o o'. apply selects_unique. Qed.
Theorem C43_filters_are_idempotent : forall E notStop m (s : list bytes) (p : list (bytes * bytes)),
  stop m (stop m s) = stop m s /\ trim E notStop m (trim E notStop m s) = trim E notStop m s /\
  trim_symbol E (trim_symbol E s) = trim_symbol E s /\ trim_punct E (trim_punct E s) = trim_punct E s /\
  trim_pos E notStop m (trim_pos E notStop m p) = trim_pos E notStop m p.
Proof.
  intros E ns m s p.
  assert (I : forall A (P : A -> Prop) (f : list A -> list A), (forall l, selects P l (f l)) -> forall l, f (f l) = f l).
  { intros A P f H l. eapply selects_det; [apply H|]. eapply selects_idem. apply H. }
  assert (K : forall P (f : list bytes -> list bytes), (forall l, selects P (map (symbol_free E) l) (f l)) -> forall l, f (f l) = f l).
  { intros P f H l. assert (M : map (symbol_free E) (f l) = f l).
    { specialize (H l). revert H. generalize (f l). intros o H. remember (map (symbol_free E) l) as l' eqn:El. revert l El.
      induction H as [|a l' o Ha H IH|a l' o Ha H IH]; intros l El; [reflexivity| |]; destruct l as [|x l]; try discriminate; injection El as -> ->.
      - cbn [map]. rewrite symbol_free_idem. f_equal. eapply IH. reflexivity.
      - eapply IH. reflexivity. }
    pose proof (H (f l)) as H1. rewrite M in H1. eapply selects_det; [exact H1|]. eapply selects_idem. apply H. }
  split; [eapply I, stop_eq|]. split; [eapply K; intro; apply trim_eq|]. split; [eapply K; intro; apply trim_symbol_eq|]. split; [eapply I; intro; apply trim_punct_eq|]. eapply I. intro. apply trim_pos_eq.
Qed.
Print Assumptions C43_filters_are_idempotent.
(** 'The output contains no stop word' is false for TrimPos: the stop word test looks at the text without symbols. *)
Theorem C43_trim_pos_keeps_stop_word_refuted : forall E, exists w, is_stop (Some [w]) w = true /\ trim_pos E false (Some [w]) [(w, [])] = [(w, [])].
Proof. intro E. exists (str "c++"). split; reflexivity. Qed.
Print Assumptions C43_trim_pos_keeps_stop_word_refuted.
Example C43_ex : let m := Some (map str ["的"; "a"]) in
  stop m (map str ["的"; "b"; ""; "a!"; "a"]) = map str ["b"; "a!"] /\
  trim demo false m (map str ["的"; " b。"; "+"; "a!"; "a"]) = map str ["b"] /\
  trim demo true m (map str ["的"; " b。"; "+"; "a!"; "a"]) = map str ["的"; "b"; "a"; "a"] /\
  trim_symbol demo (map str ["c++"; "。"; "x y"]) = map str ["c"; "xy"] /\
  trim_punct demo (map str ["c++"; "。 "; "+"; ".5"; ""]) = map str ["c++"; "+"; ".5"].
Proof. repeat split; vm_compute; reflexivity. Qed.

(** C44 *)
Theorem C44_trim_with_pos : forall (se : list (bytes * bytes)) p pos, selects (fun w => ~ In (snd w) (p :: pos)) se (trim_with_pos se (p :: pos)).
Proof. exact with_pos_eq. Qed.
Print Assumptions C44_trim_with_pos.
Theorem C44_no_tags_removes_everything_refuted : forall E c (d : dict E) notStop m s search, reachable c d ->
  (forall se, trim_with_pos se [] = []) /\ pos_trim d c notStop m s search [] = Ok [] /\ pos_trim_str d c notStop m s search [] = Ok [].
Proof.
  intros E c d ns m s search Hr. split; [reflexivity|]. destruct (pos_trim_ok Hr ns m s search []) as (l & _ & H1 & _ & r & H2 & H3). rewrite H1, H2. split; [reflexivity|]. cbn in H3. inversion H3. reflexivity.
Qed.
Print Assumptions C44_no_tags_removes_everything_refuted.
Theorem C44_pos_trim : forall E c (d : dict E) notStop m s search pos, reachable c d -> exists l out,
  seg_pos c (Some d) s search = Ok l /\ pos_trim d c notStop m s search pos = Ok out /\ pos_trim_arr d c notStop m s search pos = Ok (map fst out) /\
  (pos <> [] -> selects (fun w => ~ In (snd w) pos /\ symbol_free E (fst w) <> [] /\ (notStop = false -> is_stop m (symbol_free E (fst w)) = false)) l out) /\
  exists r, pos_trim_str d c notStop m s search pos = Ok r /\ joined [x20] (map fst out) r.
Proof.
  intros E c d ns m s search pos Hr. destruct (pos_trim_ok Hr ns m s search pos) as (l & H0 & H1 & H2 & H3). exists l, (trim_pos E ns m (trim_with_pos l pos)).
  split; [exact H0|]. split; [exact H1|]. split; [exact H2|]. split; [|exact H3]. intro Hp. destruct pos as [|p pos]; [congruence|].
  pose proof (with_pos_eq l p pos) as K1. pose proof (trim_pos_eq E ns m (trim_with_pos l (p :: pos))) as K2. revert K1 K2.
  generalize (trim_pos E ns m (trim_with_pos l (p :: pos))). generalize (trim_with_pos l (p :: pos)). clear. intros mid o K1. revert o.
  induction K1 as [|a l mid Ha K1 IH|a l mid Ha K1 IH]; intros o K2.
  - inversion K2. constructor.
  - inversion K2 as [|? ? o' P1 P2|? ? o' P1 P2]; subst; [apply sel_keep; [split; [exact Ha|exact P1]|apply IH; exact P2]|apply sel_drop; [intros [_ Q]; exact (P1 Q)|apply IH; exact P2]].
  - apply sel_drop; [intros [Q _]; exact (Ha Q)|]. apply IH. exact K2.
Qed.
Print Assumptions C44_pos_trim.
Example C44_ex : let se := map (fun p => (str (fst p), str (snd p))) [("a", "n"); ("b", "v"); ("c", "x"); ("d", "n")] in
  trim_with_pos se (map str ["n"; "x"]) = [(str "b", str "v")] /\
  pos_trim_arr d_dag cfg0 true None (str "你好世界,世") false (map str ["l"]) = Ok (map str ["世界"; "世"]).
Proof. split; vm_compute; reflexivity. Qed.

(** C45 *)
Theorem C45_filter_html : forall s out, filter_html s = out <-> untagged s out.
Proof. intros s out. split; [intros <-; apply html_untagged|apply untagged_html]. Qed.
Print Assumptions C45_filter_html.
Theorem C45_no_tag_left : forall s, filter_html (filter_html s) = filter_html s /\ forall a t b, filter_html s = a ++ t ++ b -> ~ tag t.
Proof. intro s. split; [apply html_idem|apply html_no_tag]. Qed.
Print Assumptions C45_no_tag_left.
Example C45_ex : filter_html (str "<div class=""a"">x < y<br/> z</div>>a<<b>b><>") = str "x < y<br/> z>ab><>" /\ tag (str "<a href=""x"">").
Proof.
  split; [vm_compute; reflexivity|]. exists (str "a href=""x"), x22. split; [reflexivity|]. split; [|right; cbn; auto 10]. cbn. intro H. repeat (destruct H as [H|H]; [discriminate|]). exact H.
Qed.

(** C46 *)
Theorem C46_split_num : forall s l, split_num s = l <-> concat l = s /\ (alternate true l \/ alternate false l).
Proof. exact split_num_iff. Qed.
Print Assumptions C46_split_num.
Theorem C46_split_nums : forall s, joined [x20] (split_num s) (split_nums s).
Proof. intro s. apply joined_iff. reflexivity. Qed.
Print Assumptions C46_split_nums.
Example C46_ex : split_num (str "ab12世3") = map str ["ab"; "12"; "世"; "3"] /\ split_nums (str "ab12世3") = str "ab 12 世 3".
Proof. split; vm_compute; reflexivity. Qed.

(** C47 *)
Theorem C47_cut_str_joins : forall l sep, joined (match sep with None => [x20] | Some s => s end) l (cut_str l sep).
Proof. exact cut_str_joined. Qed.
Print Assumptions C47_cut_str_joins.
Theorem C47_pos_str_joins : forall skipPos (l : list (bytes * bytes)) sep,
  joined (match sep with None => [x20] | Some s => s end) (map (fun w => if skipPos : bool then fst w else fst w ++ [x2f] ++ snd w) l) (pos_str skipPos l sep).
Proof. exact pos_str_joined. Qed.
Print Assumptions C47_pos_str_joins.
Theorem C47_cut_str_can_be_undone : forall l b, l <> [] -> Forall (fun w => ~ In b w) l -> split_str (cut_str l (Some [b])) [b] = l.
Proof. intros l b H1 H2. symmetry. apply fields_iff; [discriminate|]. apply joined_fields; [apply (cut_str_joined l (Some [b]))|exact H1|exact H2]. Qed.
Print Assumptions C47_cut_str_can_be_undone.
(** For separators of several bytes it is not enough that no element contains the separator. *)
Theorem C47_long_separators_refuted : exists l sep, l <> [] /\ Forall (fun w => contains w sep = false) l /\ split_str (cut_str l (Some sep)) sep <> l.
Proof. exists (map str ["a"; "b"]), (str "aa"). split; [discriminate|]. split; [repeat constructor|]. vm_compute. discriminate. Qed.
Print Assumptions C47_long_separators_refuted.
Example C47_ex : cut_str (map str ["a"; ""; "b"]) None = str "a  b" /\ pos_str false [(str "a", str "n"); (str "b", str "")] (Some (str ", ")) = str "a/n, b/" /\
  pos_str true [(str "a", str "n"); (str "b", str "")] None = str "a b".
Proof. repeat split; vm_compute; reflexivity. Qed.

(** C57 *)
Theorem C57_round_trip : forall s, string_of_runes (runes_of s) = s <-> valid s.
Proof. exact roundtrip_iff. Qed.
Print Assumptions C57_round_trip.
Theorem C57_range : forall s, range_str s = map enc (runes_of s) /\ concat (range_str s) = string_of_runes (runes_of s) /\
  range_text s = concat (map (fun w => w ++ [x20]) (range_str s)) /\ (valid s -> concat (range_str s) = s).
Proof.
  intro s. destruct (range_eq s) as [H1 H2]. assert (K : concat (range_str s) = string_of_runes (runes_of s)) by (rewrite H1; symmetry; apply string_of_scalars, runes_scalar).
  split; [exact H1|]. split; [exact K|]. split; [rewrite H1, H2, map_map; reflexivity|]. intro Hv. rewrite K. apply roundtrip_iff, Hv.
Qed.
Print Assumptions C57_range.
Example C57_ex : range_str ([xff] ++ str "a世") = map str ["�"; "a"; "世"] /\ range_text (str "a世") = str "a 世 ".
Proof. split; vm_compute; reflexivity. Qed.

(** C58 *)
Theorem C58_rune_filters : forall E s,
  filter_emoji s = concat (map enc (filter (fun r => r <? 65536)%Z (runes_of s))) /\
  filter_symbol E s = concat (map enc (filter (fun r => negb (is_symbol E r || is_space E r || is_punct E r)) (runes_of s))) /\
  (forall lang f, u_script E lang = Some f -> filter_lang E s lang = Ok (concat (map enc (filter (fun r => is_letter E r || f r) (runes_of s))))).
Proof. intros E s. split; [apply emoji_eq|]. split; [apply symbol_eq|]. intros lang f H. apply lang_eq, H. Qed.
Print Assumptions C58_rune_filters.
Theorem C58_rune_filters_are_idempotent : forall E s,
  Forall (fun r => (r < 65536)%Z) (runes_of (filter_emoji s)) /\ filter_emoji (filter_emoji s) = filter_emoji s /\
  filter_symbol E (filter_symbol E s) = filter_symbol E s /\
  (forall lang t, filter_lang E s lang = Ok t -> filter_lang E t lang = Ok t).
Proof.
  intros E s. rewrite !emoji_eq, !symbol_eq. split; [|split; [|split]].
  - rewrite runes_encs by apply filter_scalar. apply Forall_forall. intros r H. apply filter_In in H as [_ H]. apply Z.ltb_lt, H.
  - rewrite rune_filter_idem. reflexivity.
  - apply symbol_free_idem.
  - intros lang t H. destruct (u_script E lang) as [f|] eqn:Ef.
    + rewrite (lang_eq s Ef) in H. injection H as <-. rewrite (lang_eq _ Ef), rune_filter_idem. reflexivity.
    + destruct (lang_nil s Ef) as [H1 H2]. destruct (Forall_Exists_dec (fun r => is_letter E r = true) (fun r => bool_dec _ _) (runes_of s)) as [F|F].
      * rewrite (H1 F) in H. injection H as <-. destruct (lang_nil (concat (map enc (runes_of s))) Ef) as [K _]. rewrite runes_encs in K by apply runes_scalar. apply K, F.
      * rewrite H2 in H; [discriminate|]. eapply Exists_impl; [|exact F]. cbv beta. intros r Hr. destruct (is_letter E r); congruence.
Qed.
Print Assumptions C58_rune_filters_are_idempotent.
(** FilterLang keeps the letters of every script, and panics for an unknown script at the first rune that is no letter. *)
Theorem C58_filter_lang_is_no_script_filter_refuted : forall E lang,
  (forall s, Forall (fun r => is_letter E r = true) (runes_of s) -> filter_lang E s lang = Ok (concat (map enc (runes_of s)))) /\
  (u_script E lang = None -> forall s, Exists (fun r => is_letter E r = false) (runes_of s) -> filter_lang E s lang = Panic).
Proof.
  intros E lang. split.
  - intros s H. destruct (u_script E lang) as [f|] eqn:Ef; [|apply (lang_nil s Ef), H]. rewrite (lang_eq s Ef). do 3 f_equal. revert H. generalize (runes_of s). clear. induction l as [|r l IH]; intro H; [reflexivity|].
    inversion_clear H. cbn [filter]. rewrite H0. cbn [orb]. f_equal. auto.
  - intros H s. apply (lang_nil s H).
Qed.
Print Assumptions C58_filter_lang_is_no_script_filter_refuted.
Example C58_ex : filter_emoji (str "a😀世!") = str "a世!" /\ filter_symbol demo (str "a+b ,世。") = str "ab世" /\ filter_lang demo (str "a1世。") (str "Han") = Ok (str "a世") /\
  filter_lang demo (str "ab") (str "Xyz") = Ok (str "ab") /\ filter_lang demo (str "a1") (str "Xyz") = Panic.
Proof. repeat split; vm_compute; reflexivity. Qed.

(** C66 *)
Theorem C66_load_stop : forall fs m files, exists ps, stop_paths files ps /\
  (forall w, is_stop (fst (load_stop fs m files)) w = true <-> is_stop m w = true \/
     exists before p after data, ps = before ++ p :: after /\ Forall (fun q => fs q <> None) before /\ fs p = Some data /\ file_word data w) /\
  (snd (load_stop fs m files) = true <-> exists p, In p ps /\ fs p = None) /\ fst (load_stop fs m files) <> None.
Proof. exact load_stop_ok. Qed.
Print Assumptions C66_load_stop.
Theorem C66_load_stop_embed : forall E sd m d fs w, fields [x2c; x20] d fs ->
  (is_stop (load_stop_embed E sd m None) w = true <-> is_stop m w = true \/ stop_line E sd w) /\
  (is_stop (load_stop_embed E sd m (Some d)) w = true <-> is_stop m w = true \/
     (if (2 <=? length fs) && contains d (str "zh,") then stop_line E sd w \/ exists f, In f (tl fs) /\ stop_line E f w
      else exists f, In f fs /\ stop_line E f w)).
Proof. exact embed_ok. Qed.
Print Assumptions C66_load_stop_embed.
(** 'Every listed text is loaded' is false: a later "zh" displaces the first text. *)
Theorem C66_load_stop_embed_drops_first_text_refuted : exists sd, is_stop (load_stop_embed demo sd None (Some (str "的, zh, 了"))) (str "的") = false /\
  is_stop (load_stop_embed demo sd None (Some (str "的, zh, 了"))) (str "了") = true.
Proof. exists (str "和"). split; vm_compute; reflexivity. Qed.
Print Assumptions C66_load_stop_embed_drops_first_text_refuted.
(** Lines from the first one of 65536 or more bytes on are lost without an error. *)
Theorem C66_long_line_ends_file_refuted : forall fs m f before l after w,
  fs (SUser f) = Some (concat (map (fun x => x ++ [x0a]) before) ++ l ++ [x0a] ++ after) -> (forall i, ~ occurs_at [x2c; x20] f i) -> f <> str "zh" ->
  Forall (fun x => ~ In x0a x) (l :: before) -> (65536 <= Z.of_nat (length l))%Z ->
  (forall x, In x before -> ~ chomped x w) -> is_stop m w = false ->
  is_stop (fst (load_stop fs m [f])) w = false /\ snd (load_stop fs m [f]) = false.
Proof.
  intros fs m f before l after w Hfs Hf Hzh Hnl Hlen Hw Hm. destruct (load_stop_ok fs m [f]) as (ps & H1 & H2 & H3 & _). cbn [stop_paths] in H1. destruct H1 as (n & ns & H0 & Hps).
  assert (K : [f] = n :: ns) by exact (fields_unique (fields_last Hf) ltac:(discriminate) H0). injection K as <- <-.
  assert (Hb : beqb f [x7a; x68] = false) by (destruct (beqb f [x7a; x68]) eqn:E; [apply beqb_eq in E; destruct (Hzh E)|reflexivity]). rewrite Hb in Hps. cbn [map] in Hps. subst ps. split.
  - destruct (is_stop (fst (load_stop fs m [f])) w) eqn:E; [|reflexivity]. apply H2 in E as [E|(b & p & a & data & E1 & _ & E2 & E3)]; [congruence|].
    destruct b as [|x [|? ?]]; try discriminate. injection E1 as <- <-. assert (data = concat (map (fun x => x ++ [x0a]) before) ++ l ++ [x0a] ++ after) as -> by congruence.
    destruct E3 as (_ & bl & l' & al & F1 & F2 & F3).
    assert (G : forall before rest fs', Forall (fun x => ~ In x0a x) before -> fields [x0a] rest fs' -> fields [x0a] (concat (map (fun x => x ++ [x0a]) before) ++ rest) (before ++ fs')).
    { clear. induction before as [|x before IH]; intros rest fs' Hn HF; [exact HF|]. inversion_clear Hn. cbn [map concat app]. rewrite <- !app_assoc. apply fields_cons; [|apply IH; assumption].
      intros i Hi (a & b & Ea & La). apply H. assert (K : nth_error (x ++ [x0a] ++ concat (map (fun x => x ++ [x0a]) before) ++ rest) i = Some x0a) by (rewrite Ea, nth_error_app2 by lia; rewrite La, Nat.sub_diag; reflexivity).
      rewrite nth_error_app1 in K by lia. eapply nth_error_In, K. }
    pose proof (@split_fields [x0a] after ltac:(discriminate)) as Ha. inversion_clear Hnl as [|? ? N1 N2].
    pose proof (G [l] after _ ltac:(constructor; [exact N1|constructor]) Ha) as G1. cbn [map concat app] in G1. rewrite app_nil_r in G1. rewrite <- app_assoc in G1.
    pose proof (G before _ _ N2 G1) as G2. pose proof (fields_unique F1 ltac:(discriminate) G2) as Hu.
    assert (In l' before) as Hin.
    { clear - Hu F3 Hlen. revert bl Hu F3. induction before as [|x before IH]; intros bl Hu F3; destruct bl as [|y bl]; cbn [app] in *; injection Hu as -> Hu.
      - inversion_clear F3. lia.
      - inversion_clear F3. lia.
      - left. reflexivity.
      - right. inversion_clear F3. eauto. }
    destruct (Hw l' Hin F2).
  - apply not_true_iff_false. intro E. apply H3 in E as (p & [<-|[]] & E). congruence.
Qed.
Print Assumptions C66_long_line_ends_file_refuted.
Example C66_ex : let fs p := match p with SZh => Some (str "的
") | SUser f => if beqb f (str "a.txt") then Some ([x78; x0d; x0a] ++ str "
 y") else None | SDefault => None end in
  let r := load_stop fs None [str "zh, a.txt, b.txt, zh"] in
  map (is_stop (fst r)) (map str ["的"; "x"; " y"; "y"; ""]) = [true; true; true; false; false] /\ snd r = true.
Proof. split; vm_compute; reflexivity. Qed.

(** C67 *)
Theorem C67_trim_pos_punct : forall E notStop m s,
  selects (fun w => (exists r rs, runes_of (fst w) = r :: rs /\ solid E r) /\ (notStop = false -> is_stop m (fst w) = false)) s (fst (trim_pos_punct E notStop m s)) /\
  snd (trim_pos_punct E notStop m s) = map (fun w => if negb notStop && is_stop m (fst w) then ([], snd w) else w) s.
Proof. intros. apply trim_pos_punct_eq. Qed.
Print Assumptions C67_trim_pos_punct.
(** 'TrimPosPunct leaves its argument unchanged' is false. *)
Theorem C67_trim_pos_punct_overwrites_argument_refuted : forall E m s, Exists (fun w => is_stop m (fst w) = true /\ fst w <> []) s -> snd (trim_pos_punct E false m s) <> s.
Proof.
  intros E m s H. rewrite (proj2 (C67_trim_pos_punct E false m s)). induction H as [w s [H1 H2]|w s H IH]; cbn [map negb andb].
  - rewrite H1. intro K. injection K as K _. apply H2. rewrite <- K. reflexivity.
  - intro K. apply IH. injection K as _ K. exact K.
Qed.
Print Assumptions C67_trim_pos_punct_overwrites_argument_refuted.
Example C67_ex : trim_pos_punct demo false (Some [str "的"]) [(str "的", str "uj"); (str ".5", str "m"); (str "5.", str "m")] =
  ([(str "5.", str "m")], [([], str "uj"); (str ".5", str "m"); (str "5.", str "m")]).
Proof. vm_compute. reflexivity. Qed.

(** C68 *)
Theorem C68_cut_trim_keeps_text : forall E c (d : dict E) em notStop m hmm s, reachable c d -> exists ws out,
  cut d c em s hmm = Ok ws /\ cut_trim d c em notStop m s hmm = Ok out /\
  selects (fun w => w <> [] /\ (notStop = false -> is_stop m w = false)) (map (symbol_free E) ws) out /\
  (notStop = true -> concat out = symbol_free E (cut_text E c hmm s)).
Proof. intros. apply cut_trim_ok. assumption. Qed.
Print Assumptions C68_cut_trim_keeps_text.
Theorem C68_cut_stop_drops_stop_words_only : forall E c (d : dict E) em m hmm s, reachable c d -> exists ws out,
  cut d c em s hmm = Ok ws /\ cut_stop d c em m s hmm = Ok out /\ concat ws = cut_text E c hmm s /\ selects (fun w => is_stop m w = false) ws out.
Proof. intros. apply cut_stop_ok. assumption. Qed.
Print Assumptions C68_cut_stop_drops_stop_words_only.
Theorem C68_cut_trim_html_keeps_text : forall E c (d : dict E) em hmm s, reachable c d -> exists t ws out,
  untagged s t /\ cut d c em t hmm = Ok ws /\ cut_trim_html d c em s hmm = Ok out /\
  selects (fun w => w <> []) (map (symbol_free E) ws) out /\ concat out = symbol_free E (cut_text E c hmm t) /\
  Forall (fun w => w <> [] /\ symbol_free E w = w) out /\ exists r, cut_trim_htmls d c em s hmm = Ok r /\ joined [x20] out r.
Proof. intros E c d em hmm s H. destruct (cut_html_ok em H hmm s) as (ws & out & K). exists (filter_html s), ws, out. split; [apply html_untagged|exact K]. Qed.
Print Assumptions C68_cut_trim_html_keeps_text.
Theorem C68_cut_url_keeps_text : forall E c (d : dict E) em num s, reachable c d -> exists t ws out,
  (if num : bool then t = s else exists runs, concat runs = s /\ (alternate true runs \/ alternate false runs) /\ joined [x20] runs t) /\
  cut d c em t None = Ok ws /\ cut_url d c em s num = Ok out /\ selects (fun w => w <> []) (map (symbol_free E) ws) out /\ concat out = symbol_free E (norm E c s) /\ exists r, cut_urls d c em s num = Ok r /\ joined [x20] out r.
Proof. intros. apply cut_url_ok. assumption. Qed.
Print Assumptions C68_cut_url_keeps_text.
Example C68_ex : cut_trim d_dag cfg0 demo_emit false (Some [str "世界"]) (str "你好,世界 Go!") None = Ok (map str ["你好"; "go"]) /\
  cut_trim d_dag cfg0 demo_emit true (Some [str "世界"]) (str "你好,世界 Go!") (Some true) = Ok (map str ["你好"; "世界"; "go"]) /\
  cut_trim_html d_dag cfg0 demo_emit (str "<b>你好</b>, 世界") None = Ok (map str ["你好"; "世界"]) /\
  cut_url d_dag cfg0 demo_emit (str "http://go12a.cn") false = Ok (map str ["http"; "go"; "12"; "a"; "cn"]) /\
  cut_url d_dag cfg0 demo_emit (str "http://go12a.cn") true = Ok (map str ["http"; "go12a"; "cn"]).
Proof. repeat split; vm_compute; reflexivity. Qed.
