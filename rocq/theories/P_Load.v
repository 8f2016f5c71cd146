(** Proofs about the loaders. *)
From Verif Require Import M_Load S_Load S_Split P_Utf8 P_Utf8b P_Str P_Split P_Dict P_Seg2 P_Hist.
Set Implicit Arguments. Unset Strict Implicit.
Local Open Scope lit_scope.

(** *** Trimming newlines first changes nothing *)
Lemma trim_by_strip : forall A (p : A -> bool) a l b, Forall (fun x => p x = true) a -> Forall (fun x => p x = true) b ->
  trim_by p (a ++ l ++ b) = trim_by p l.
Proof.
  intros A p a l b Ha Hb. destruct (trim_by_spec p l) as (u & v & H1 & H2 & H3 & H4). rewrite H1 at 1.
  replace (a ++ (u ++ trim_by p l ++ v) ++ b) with ((a ++ u) ++ trim_by p l ++ (v ++ b)) by (rewrite !app_assoc; reflexivity).
  apply trim_by_unique; auto; apply Forall_app; auto.
Qed.

Lemma units_nls : forall a x, Forall (fun b => Byte.eqb b x0a = true) a -> units (a ++ x) = map (fun b => (bz b, [b])) a ++ units x.
Proof.
  intros a x H; induction H as [|b a Hb H IH]; [reflexivity|]. apply byte_eqb_eq in Hb. subst b. cbn [app map].
  rewrite units_ascii by (vm_compute; reflexivity). rewrite IH. reflexivity.
Qed.

Lemma trim_space_nl : forall E s, trim_space E (trim_nl s) = trim_space E s.
Proof.
  intros E s. unfold trim_space. f_equal. f_equal.
  destruct (trim_by_spec (fun b => Byte.eqb b x0a) s) as (a & b & H1 & H2 & H3 & _). fold (trim_nl s) in H1.
  rewrite H1 at 2. rewrite (units_nls _ H2). rewrite units_sync.
  2:{ destruct b as [|x b]; [exact I|]. inversion H3 as [|? ? Hx Hb]; subst. apply byte_eqb_eq in Hx. subst x. reflexivity. }
  assert (Hsp : forall y, Forall (fun b => Byte.eqb b x0a = true) y -> Forall (fun u => is_space E (fst u) = true) (map (fun b => (bz b, [b])) y)).
  { intros y Hy; induction Hy as [|z y Hz Hy IH]; cbn [map]; constructor; auto. apply byte_eqb_eq in Hz. subst z. reflexivity. }
  symmetry. apply trim_by_strip; [apply Hsp; exact H2|].
  rewrite <- (app_nil_r b). rewrite (units_nls _ H3). rewrite units_nil, app_nil_r. apply Hsp. exact H3.
Qed.

Section Load.
  Variable E : env.
  Implicit Types (l : lcfg E) (d : dict E).

  (** *** Frequencies *)
  Lemma size_accepts : forall l size text ft, (2 <= size \/ (size = 1 /\ l_nofreq l = true)) ->
    let src := if size <? 2 then l_textfreq l else ft in
    forall freq, accepts l text src freq <->
                 (freq = size_freq l size text ft /\ eqb64 E (size_freq l size text ft) (lit64 E 0 0) = false).
  Proof.
    intros l size text ft Hs src freq. unfold size_freq.
    assert (Hif : (size <? 2) && negb (l_nofreq l) = false).
    { destruct Hs as [Hs|[-> ->]]; [|apply andb_false_r]. destruct (Nat.ltb_spec size 2); [lia|reflexivity]. }
    rewrite Hif. fold src. destruct size as [|n]; [lia|]. unfold accepts.
    destruct (parse_float E src) as [v err] eqn:Ep. cbn [fst snd]. destruct err.
    - split.
      + intros [H1 [H2|(v' & H2 & _)]]; [|discriminate]. inversion H2; subst. auto.
      + intros [-> H]. auto.
    - destruct (ltb64 E v (l_min l)) eqn:El.
      + rewrite zero64_refl. split; [|intros [_ H]; discriminate].
        intros [H1 [H2|(v' & H2 & H3 & _)]]; [discriminate|]. inversion H2; subst. congruence.
      + destruct (Nat.ltb_spec (length (runes_of text)) 2) as [Hr|Hr]; split.
        * intros [H1 [H2|(v' & H2 & H3 & [[H4 ->]|[H4 _]])]]; [discriminate| |lia]. auto.
        * intros [-> H]. split; auto. right. exists v. repeat split; auto. left. split; [lia|reflexivity].
        * intros [H1 [H2|(v' & H2 & H3 & [[H4 _]|[H4 ->]])]]; [discriminate|lia|]. inversion H2; subst. auto.
        * intros [-> H]. split; auto. right. exists v. auto.
  Qed.

  Lemma size_zero : forall l size text ft, size = 0 \/ (size = 1 /\ l_nofreq l = false) -> size_freq l size text ft = lit64 E 0 0.
  Proof. intros l size text ft [->|[-> H]]; [reflexivity|]. unfold size_freq. cbn. rewrite H. reflexivity. Qed.

  Lemma add_entry_ops : forall c d text freq pos, add_entry c (Some d) text freq pos =
    (do d' <- run_ops c d (if eqb64 E freq (lit64 E 0 0) then [] else [OpAdd text freq pos]) ; Ok (Some d')).
  Proof.
    intros c d text freq pos. unfold add_entry. destruct (eqb64 E freq (lit64 E 0 0)); [reflexivity|]. cbn [run_ops run_op].
    destruct (seg_add_token c d text freq pos); reflexivity.
  Qed.

  Lemma sep_nonempty : forall l, l_sep l ++ str " " <> [].
  Proof. intros l H. apply app_eq_nil in H as [_ H]. discriminate. Qed.

  Lemma str_line_ops : forall c l d line, exists es, line_entries l line es /\
    str_line c l (Some d) line = (do d' <- run_ops c d (map (@op_of E) es) ; Ok (Some d')).
  Proof.
    intros c l d line. unfold str_line. set (s1 := split_str line (l_sep l ++ str " ")).
    set (text := trim_space E (nth 0 s1 [])). set (ft := if 1 <? length s1 then trim_space E (nth 1 s1 []) else []).
    set (pos := if 2 <? length s1 then trim_space E (trim_nl (nth 2 s1 [])) else []).
    set (freq := size_freq l (length s1) text ft). rewrite add_entry_ops.
    assert (Hf : forall fs, fields (l_sep l ++ str " ") line fs <-> fs = s1) by (intro; apply fields_iff, sep_nonempty).
    assert (Hne : s1 <> []) by apply split_str_ne.
    assert (Hmain : forall e, line_is l line e <-> (e = (text, freq, pos) /\ eqb64 E freq (lit64 E 0 0) = false)).
    { intros [[t f] p]. unfold line_is. cbn [fst snd].
      assert (Hpos : match nth_error s1 2 with Some q => trimmed E q p | None => p = [] end <-> p = pos).
      { unfold pos. destruct (nth_error s1 2) as [q|] eqn:En.
        - assert (2 < length s1) by (apply nth_error_Some; congruence). destruct (Nat.ltb_spec 2 (length s1)); [|lia].
          rewrite (nth_error_nth _ _ [] En). rewrite trim_space_nl. apply trimmed_iff.
        - apply nth_error_None in En. destruct (Nat.ltb_spec 2 (length s1)); [lia|]. reflexivity. }
      assert (Hsrc : (2 <= length s1 \/ (length s1 = 1 /\ l_nofreq l = true)) \/ (length s1 = 1 /\ l_nofreq l = false)).
      { destruct s1 as [|a [|b s]]; [congruence| |left; left; cbn; lia]. cbn. destruct (l_nofreq l); auto. }
      destruct Hsrc as [Hsrc|[H1 H2]].
      - pose proof (size_accepts text ft Hsrc) as Hacc. cbv zeta in Hacc.
        assert (Hfs : forall src, freq_source l s1 src <-> src = (if length s1 <? 2 then l_textfreq l else ft)).
        { intro src. unfold freq_source, ft. destruct s1 as [|a [|b s]]; [congruence| |].
          - cbn in *. destruct Hsrc as [Hsrc|[_ ->]]; [lia|]. split; [tauto|auto].
          - cbn [length nth]. change (1 <? S (S (length s))) with true. change (S (S (length s)) <? 2) with false. apply trimmed_iff. }
        split.
        + intros (fs & src & G1 & G2 & G3 & G4 & G5). apply Hf in G1. subst fs. apply trimmed_iff in G2. apply Hpos in G5. apply Hfs in G3. subst src.
          fold text in G2. subst t. apply Hacc in G4 as [-> G4]. fold freq in G4 |- *. subst p. auto.
        + intros [H1 H2]. inversion H1; subst t f p. exists s1, (if length s1 <? 2 then l_textfreq l else ft). refine (conj _ (conj _ (conj _ (conj _ _)))).
          * apply Hf; reflexivity.
          * apply trimmed_iff; reflexivity.
          * apply Hfs; reflexivity.
          * apply Hacc. auto.
          * apply Hpos; reflexivity.
      - split.
        + intros (fs & src & G1 & G2 & G3 & _). apply Hf in G1. subst fs. exfalso. destruct s1 as [|a [|b s]]; [congruence| |discriminate].
          cbn in G3. destruct G3; congruence.
        + intros [_ H3]. exfalso. unfold freq in H3. rewrite size_zero in H3 by auto. rewrite zero64_refl in H3. discriminate. }
    destruct (eqb64 E freq (lit64 E 0 0)) eqn:Ef.
    - exists []. split; [|reflexivity]. right. split; [|reflexivity]. intros e He. apply Hmain in He as [_ H]. discriminate.
    - exists [(text, freq, pos)]. split; [|reflexivity]. left. exists (text, freq, pos). split; [|reflexivity]. apply Hmain. auto.
  Qed.

  Lemma map_entry_ops : forall c l d m, exists es, map_entries_of l m es /\
    map_entry c l (Some d) m = (do d' <- run_ops c d (map (@op_of E) es) ; Ok (Some d')).
  Proof.
    intros c l d m. unfold map_entry. rewrite add_entry_ops. set (text := m_get m (str "text")). set (ft := m_get m (str "freq")).
    set (pos := m_get m (str "pos")). set (freq := size_freq l (length m) text ft).
    assert (Hmain : forall e, map_is l m e <-> (e = (text, freq, pos) /\ eqb64 E freq (lit64 E 0 0) = false)).
    { intros [[t f] p]. unfold map_is. cbn [fst snd]. fold text pos.
      assert (Hsrc : (2 <= length m \/ (length m = 1 /\ l_nofreq l = true)) \/ (length m = 0 \/ (length m = 1 /\ l_nofreq l = false))).
      { destruct (length m) as [|[|n]]; [auto| |left; left; lia]. destruct (l_nofreq l); auto. }
      destruct Hsrc as [Hsrc|Hz].
      - pose proof (size_accepts text ft Hsrc) as Hacc. cbv zeta in Hacc. split.
        + intros (src & -> & -> & G3 & G4).
          assert (src = (if length m <? 2 then l_textfreq l else ft)) as ->.
          { destruct G3 as [[G3 ->]|(G3 & _ & ->)]; destruct (Nat.ltb_spec (length m) 2); auto; lia. }
          apply Hacc in G4 as [-> G4]. fold freq in G4 |- *. auto.
        + intros [H1 H2]. inversion H1; subst t f p. exists (if length m <? 2 then l_textfreq l else ft). refine (conj eq_refl (conj eq_refl (conj _ _))).
          * destruct (Nat.ltb_spec (length m) 2) as [H3|H3]; [right|left]; auto. destruct Hsrc as [Hs|Hs]; [lia|]. tauto.
          * apply Hacc. auto.
      - split.
        + intros (src & _ & _ & G3 & _). exfalso. destruct Hz as [Hz|[Hz Hn]], G3 as [[G3 _]|(G3 & G4 & _)]; try lia. congruence.
        + intros [_ H3]. exfalso. unfold freq in H3. rewrite size_zero in H3 by auto. rewrite zero64_refl in H3. discriminate. }
    destruct (eqb64 E freq (lit64 E 0 0)) eqn:Ef.
    - exists []. split; [|reflexivity]. right. split; [|reflexivity]. intros e He. apply Hmain in He as [_ H]. discriminate.
    - exists [(text, freq, pos)]. split; [|reflexivity]. left. exists (text, freq, pos). split; [|reflexivity]. apply Hmain. auto.
  Qed.

  Lemma bind_some : forall (r : res (dict E)) (f : option (dict E) -> res (option (dict E))),
    (do od <- (do d' <- r ; Ok (Some d')) ; f od) = (do d' <- r ; f (Some d')).
  Proof. intros [?| |] f; reflexivity. Qed.

  Lemma inv_run : forall c d os, dict_inv c d -> exists d', run_ops c d os = Ok d' /\ dict_inv c d'.
  Proof. intros c d os H. apply run_ops_inv. exact H. Qed.

  Lemma str_lines_ops : forall c l lines d, exists ess, Forall2 (line_entries l) lines ess /\
    (dict_inv c d -> str_lines c l (Some d) lines = (do d' <- run_ops c d (map (@op_of E) (concat ess)) ; Ok (Some d'))).
  Proof.
    intros c l lines; induction lines as [|x lines IH]; intros d; [exists []; split; [constructor|reflexivity]|].
    destruct (str_line_ops c l d x) as (es & H1 & H2). cbn [str_lines]. rewrite H2.
    destruct (run_ops c d (map (@op_of E) es)) as [d1| |] eqn:Er.
    - destruct (IH d1) as (ess & H3 & H4). exists (es :: ess). split; [constructor; auto|]. intro Hd. cbn [concat bind].
      rewrite map_app, run_ops_app, Er. cbn [bind]. apply H4. destruct (inv_run (map (@op_of E) es) Hd) as (d1' & G1 & G2). congruence.
    - destruct (IH d) as (ess & H3 & H4). exists (es :: ess). split; [constructor; auto|]. intro Hd.
      destruct (inv_run (map (@op_of E) es) Hd) as (d1' & G1 & G2). congruence.
    - destruct (IH d) as (ess & H3 & H4). exists (es :: ess). split; [constructor; auto|]. intro Hd.
      destruct (inv_run (map (@op_of E) es) Hd) as (d1' & G1 & G2). congruence.
  Qed.

  Lemma map_entries_ops : forall c l ms d, exists ess, Forall2 (map_entries_of l) ms ess /\
    (dict_inv c d -> map_entries c l (Some d) ms = (do d' <- run_ops c d (map (@op_of E) (concat ess)) ; Ok (Some d'))).
  Proof.
    intros c l lines; induction lines as [|x lines IH]; intros d; [exists []; split; [constructor|reflexivity]|].
    destruct (map_entry_ops c l d x) as (es & H1 & H2). cbn [map_entries]. rewrite H2.
    destruct (run_ops c d (map (@op_of E) es)) as [d1| |] eqn:Er.
    - destruct (IH d1) as (ess & H3 & H4). exists (es :: ess). split; [constructor; auto|]. intro Hd. cbn [concat bind].
      rewrite map_app, run_ops_app, Er. cbn [bind]. apply H4. destruct (inv_run (map (@op_of E) es) Hd) as (d1' & G1 & G2). congruence.
    - destruct (IH d) as (ess & H3 & H4). exists (es :: ess). split; [constructor; auto|]. intro Hd.
      destruct (inv_run (map (@op_of E) es) Hd) as (d1' & G1 & G2). congruence.
    - destruct (IH d) as (ess & H3 & H4). exists (es :: ess). split; [constructor; auto|]. intro Hd.
      destruct (inv_run (map (@op_of E) es) Hd) as (d1' & G1 & G2). congruence.
  Qed.

  (** The dictionary and loader options a load starts from. *)
  Definition start_dict (s : seg E) : dict E := match s_dict s with Some d => d | None => new_dict E end.
  Definition start_lc (s : seg E) : lcfg E := match s_dict s with Some _ => s_lc s | None => init_lc (s_lc s) end.
  Definition seg_ok (s : seg E) : Prop := match s_dict s with Some d => dict_inv (s_cfg s) d | None => True end.

  Lemma start_inv : forall s, seg_ok s -> dict_inv (s_cfg s) (start_dict s).
  Proof. intros s H. unfold seg_ok, start_dict in *. destruct (s_dict s); [exact H|apply new_dict_inv]. Qed.

  Lemma ensure_eq : forall s, ensure_dict s = {| s_cfg := s_cfg s; s_dict := Some (start_dict s); s_load := s_load s; s_lc := start_lc s |}.
  Proof. intros [c [d|] b l]; reflexivity. Qed.

  Lemma load_str_ops : forall s txt, seg_ok s -> exists es d', text_entries (start_lc s) txt es /\
    run_ops (s_cfg s) (start_dict s) (map (@op_of E) es ++ [OpCalc]) = Ok d' /\
    load_str s txt = Ok {| s_cfg := s_cfg s; s_dict := Some d'; s_load := s_load s; s_lc := start_lc s |}.
  Proof.
    intros s txt Hs. unfold load_str. rewrite ensure_eq. cbn [s_cfg s_lc s_dict].
    destruct (str_lines_ops (s_cfg s) (start_lc s) (split_str txt [x0a]) (start_dict s)) as (ess & H1 & H2).
    rewrite (H2 (start_inv Hs)). destruct (inv_run (map (@op_of E) (concat ess) ++ [OpCalc]) (start_inv Hs)) as (d' & H3 & H4).
    exists (concat ess), d'. repeat apply conj.
    - exists (split_str txt [x0a]), ess. repeat split; auto. apply split_fields. discriminate.
    - exact H3.
    - rewrite run_ops_app in H3. destruct (run_ops (s_cfg s) (start_dict s) (map (@op_of E) (concat ess))) as [d1| |]; try discriminate.
      cbn [bind run_ops run_op] in H3 |- *. unfold calc_opt. destruct (calc_token d1) as [d2| |]; try discriminate.
      cbn in H3 |- *. inversion H3; subst. reflexivity.
  Qed.

  Lemma load_map_ops : forall s ms, seg_ok s -> exists ess d', Forall2 (map_entries_of (start_lc s)) ms ess /\
    run_ops (s_cfg s) (start_dict s) (map (@op_of E) (concat ess) ++ [OpCalc]) = Ok d' /\
    load_map s ms = Ok {| s_cfg := s_cfg s; s_dict := Some d'; s_load := s_load s; s_lc := start_lc s |}.
  Proof.
    intros s ms Hs. unfold load_map. rewrite ensure_eq. cbn [s_cfg s_lc s_dict].
    destruct (map_entries_ops (s_cfg s) (start_lc s) ms (start_dict s)) as (ess & H1 & H2).
    rewrite (H2 (start_inv Hs)). destruct (inv_run (map (@op_of E) (concat ess) ++ [OpCalc]) (start_inv Hs)) as (d' & H3 & H4).
    exists ess, d'. repeat apply conj; auto.
    rewrite run_ops_app in H3. destruct (run_ops (s_cfg s) (start_dict s) (map (@op_of E) (concat ess))) as [d1| |]; try discriminate.
    cbn [bind run_ops run_op] in H3 |- *. unfold calc_opt. destruct (calc_token d1) as [d2| |]; try discriminate.
    cbn in H3 |- *. inversion H3; subst. reflexivity.
  Qed.

  (** *** Growing histories *)
  Definition grows (os : list (dop E)) : Prop := Forall (fun o => match o with OpAdd _ _ _ | OpCalc => True | _ => False end) os.

  Lemma grows_ops_of : forall es, grows (map (@op_of E) es).
  Proof. intro es. apply Forall_map. apply Forall_forall. intros e _. exact I. Qed.

  Lemma grows_safe : forall c os m, grows os -> safe_ops c m os.
  Proof. intros c os m H; revert m; induction H as [|o os Ho H IH]; intro m; cbn; [exact I|]. split; [destruct o; cbn in *; tauto|apply IH]. Qed.

  (** The map after additions only. *)
  Definition adds (os : list (dop E)) : list (entry E) :=
    flat_map (fun o => match o with OpAdd t f p => [(t, f, p)] | _ => [] end) os.

  Lemma adds_app : forall a b, adds (a ++ b) = adds a ++ adds b.
  Proof. intros. apply flat_map_app. Qed.

  Lemma adds_ops_of : forall es, adds (map (@op_of E) es) = es.
  Proof. induction es as [|[[t f] p] es IH]; [reflexivity|]. cbn. f_equal. exact IH. Qed.

  Lemma first_cons : forall c (e : entry E) es w, first_entry c (e :: es) w =
    if beqb (norm E c (fst (fst e))) w then Some (snd (fst e), snd e) else first_entry c es w.
  Proof. intros. unfold first_entry. cbn [find]. destruct (beqb (norm E c (fst (fst e))) w); reflexivity. Qed.

  Lemma beqb_sym : forall a b, beqb a b = beqb b a.
  Proof. intros a b. destruct (beqb a b) eqn:H1, (beqb b a) eqn:H2; auto; [apply beqb_eq in H1|apply beqb_eq in H2]; subst; rewrite beqb_refl in *; congruence. Qed.

  Lemma spec_grows : forall c os m, grows os -> forall w,
    spec_ops c m os w = match m w with Some x => Some x | None => first_entry c (adds os) w end.
  Proof.
    intros c os m H; revert m; induction H as [|o os Ho H IH]; intros m w; [cbn; destruct (m w); reflexivity|].
    cbn [spec_ops]. rewrite IH. destruct o as [t f p|t f p|t|]; try contradiction; cbn [spec_op].
    - cbn [adds flat_map app]. rewrite first_cons. cbn [fst snd]. fold (adds os).
      destruct (m (norm E c t)) as [x|] eqn:Em.
      + destruct (beqb (norm E c t) w) eqn:Ew; [|reflexivity]. apply beqb_eq in Ew. subst w. rewrite Em. reflexivity.
      + unfold wset. rewrite (beqb_sym w). destruct (beqb (norm E c t) w) eqn:Ew; [|reflexivity].
        apply beqb_eq in Ew. subst w. rewrite Em. reflexivity.
    - reflexivity.
  Qed.

  Lemma grows_find : forall c os d, run_ops c (new_dict E) os = Ok d -> grows os -> forall w,
    match first_entry c (adds os) w with Some (f, p) => dict_find d w = Ok (f, p, true) | None => dict_value d w = None end.
  Proof.
    intros c os d H Hg w. pose proof (rel_ops (new_dict_inv E c) (rel_new E) (grows_safe c (wempty E) Hg) H) as Hr.
    pose proof (c13 (grows_safe c (wempty E) Hg) H w) as Hc. rewrite (spec_grows c (wempty E) Hg) in Hc. cbn [wempty] in Hc.
    destruct (first_entry c (adds os) w) as [[f p]|] eqn:Ef; [exact Hc|].
    rewrite dict_value_get. apply (rel_none w Hr). rewrite spec_grows by exact Hg. exact Ef.
  Qed.

  (** A stored word is never changed by additions. *)
  Lemma rel_self : forall c d, dict_inv c d -> exists m, rel d m.
  Proof.
    intros c d Hd. exists (fun k => match t_get (d_trie d) k with
      | Some v => match nth_error (d_tokens d) v with Some t => Some (t_freq t, t_pos t) | None => None end
      | None => None end).
    intro k. cbn beta. destruct (t_get (d_trie d) k) as [v|] eqn:Ek; [|reflexivity].
    destruct (ok_entry (inv_ok Hd) Ek) as (t & T1 & _). exists t. rewrite T1. auto.
  Qed.

  Lemma grows_stable : forall c os d d' w, dict_inv c d -> grows os -> run_ops c d os = Ok d' ->
    dict_value d w <> None -> dict_value d' w <> None /\ dict_find d' w = dict_find d w.
  Proof.
    intros c os d d' w Hd Hg H Hv. rewrite !dict_value_get in *. destruct (rel_self Hd) as (m & Hm).
    pose proof (rel_ops Hd Hm (grows_safe c m Hg) H) as Hm'.
    destruct (run_ops_inv os Hd) as (d1 & G1 & G2). assert (d1 = d') by congruence. subst d1.
    assert (Hw : m w <> None) by (intro Hc; apply Hv; apply (rel_none w Hm); exact Hc).
    pose proof (spec_grows c m Hg w) as Hs. destruct (m w) as [x|] eqn:Em; [|congruence]. split.
    - intro Hc. apply (rel_none w Hm') in Hc. congruence.
    - rewrite (find_eq w Hd), (find_eq w G2). specialize (Hm w). specialize (Hm' w).
      destruct (t_get (d_trie d) w) as [v|]; [|congruence]. destruct Hm as (t & T1 & T2).
      destruct (t_get (d_trie d') w) as [v'|]; [|congruence]. destruct Hm' as (t' & T1' & T2'). rewrite T1, T1'. congruence.
  Qed.

  Lemma grows_app : forall a b, grows a -> grows b -> grows (a ++ b).
  Proof. intros. apply Forall_app; auto. Qed.

  (** *** Reader only adds *)
  Lemma add_entry_grows : forall c d text freq pos od', add_entry c (Some d) text freq pos = Ok od' ->
    exists os d', grows os /\ od' = Some d' /\ run_ops c d os = Ok d'.
  Proof.
    intros c d text freq pos od' H. rewrite add_entry_ops in H.
    set (os := if eqb64 E freq (lit64 E 0 0) then [] else [OpAdd text freq pos]) in H.
    apply bind_Ok in H as (d' & H1 & H2). exists os, d'. inversion H2; subst. repeat split; auto.
    unfold os. destruct (eqb64 E freq (lit64 E 0 0)); repeat constructor.
  Qed.

  Lemma reader_ln_grows : forall fuel c l fin t f p rs d od', reader_ln fuel c l fin t f p rs (Some d) = Ok od' ->
    exists os d', grows os /\ od' = Some d' /\ run_ops c d os = Ok d'.
  Proof.
    induction fuel as [|fuel IH]; intros c l fin t f p rs d od' H; [discriminate|]. cbn [reader_ln] in H.
    destruct (scan_fields E fin 3 0 rs) as [[fs err] rest]. cbn [fst snd] in H. cbv zeta in H.
    assert (Hgo : (if eqb64 E (size_freq l (length fs) (nth 0 fs t) (nth 1 fs f)) (lit64 E 0 0)
        then reader_ln fuel c l fin (nth 0 fs t) (nth 1 fs f) (nth 2 fs p) rest (Some d)
        else do od' <- add_entry c (Some d) (nth 0 fs t) (size_freq l (length fs) (nth 0 fs t) (nth 1 fs f)) (if length fs =? 2 then [] else nth 2 fs p);
             reader_ln fuel c l fin (nth 0 fs t) (nth 1 fs f) (if length fs =? 2 then [] else nth 2 fs p) rest od') = Ok od' ->
        exists os d', grows os /\ od' = Some d' /\ run_ops c d os = Ok d').
    { clear H. destruct (eqb64 E _ _); intro H; [apply IH in H; exact H|]. apply bind_Ok in H as (od1 & H1 & H2).
      apply add_entry_grows in H1 as (os1 & d1 & G1 & -> & G3). apply IH in H2 as (os2 & d2 & K1 & K2 & K3).
      exists (os1 ++ os2), d2. split; [apply grows_app; auto|]. split; [exact K2|]. rewrite run_ops_app, G3. exact K3. }
    destruct err; [apply Hgo; exact H| |apply Hgo; exact H].
    inversion H; subst. exists [], d. repeat split; constructor.
  Qed.

  Lemma reader_sep_grows : forall fuel c l fin s d od', reader_sep fuel c l fin s (Some d) = Ok od' ->
    exists os d', grows os /\ od' = Some d' /\ run_ops c d os = Ok d'.
  Proof.
    induction fuel as [|fuel IH]; intros c l fin s d od' H; [discriminate|]. cbn [reader_sep] in H.
    destruct (read_line s) as [[line hit] rest]. cbn [fst snd] in H. cbv zeta in H.
    match type of H with (if ?c then _ else _) = _ => destruct c end.
    - inversion H; subst. exists [], d. repeat split; constructor.
    - apply bind_Ok in H as (od1 & H1 & H2).
      apply add_entry_grows in H1 as (os1 & d1 & G1 & -> & G3). apply IH in H2 as (os2 & d2 & K1 & K2 & K3).
      exists (os1 ++ os2), d2. split; [apply grows_app; auto|]. split; [exact K2|]. rewrite run_ops_app, G3. exact K3.
  Qed.

  Lemma reader_grows : forall c l data fin d od', reader c l data fin (Some d) = Ok od' ->
    exists os d', grows os /\ od' = Some d' /\ run_ops c d os = Ok d'.
  Proof.
    intros c l data fin d od' H. unfold reader in H. destruct (l_sep l); [eapply reader_ln_grows|eapply reader_sep_grows]; exact H.
  Qed.

  (** *** Reader terminates *)
  Lemma skip_sp_length : forall rs, length (snd (skip_sp E rs)) <= length rs /\ (fst (skip_sp E rs) = true -> length (snd (skip_sp E rs)) < length rs).
  Proof.
    induction rs as [|r rs [H1 H2]]; cbn [skip_sp]; [cbn; split; [lia|discriminate]|].
    destruct (Z.eqb r 10); [cbn; lia|]. destruct (is_space E r); [cbn [length]; split; [lia|intro H; apply H2 in H; lia]|cbn; split; [lia|discriminate]].
  Qed.
  Lemma skip_sp_head : forall rs r t, skip_sp E rs = (false, r :: t) -> is_space E r = false.
  Proof.
    induction rs as [|x rs IH]; cbn [skip_sp]; intros r t H; [discriminate|]. destruct (Z.eqb x 10); [discriminate|].
    destruct (is_space E x) eqn:Ex; [eapply IH; eauto|]. inversion H; subst. exact Ex.
  Qed.
  Lemma scan_word_length : forall rs, length (snd (scan_word E rs)) <= length rs.
  Proof. induction rs as [|x rs IH]; cbn [scan_word]; [cbn; lia|]. destruct (is_space E x); cbn [snd length]; lia. Qed.
  Lemma scan_word_progress : forall r t, is_space E r = false -> length (snd (scan_word E (r :: t))) <= length t.
  Proof. intros r t H. cbn [scan_word]. rewrite H. cbn [snd]. apply scan_word_length. Qed.
  Lemma scan_end_length : forall fin rs, length (snd (scan_end E fin rs)) <= length rs.
  Proof. intros fin; induction rs as [|x rs IH]; cbn [scan_end]; [cbn; lia|]. destruct (Z.eqb x 10); [cbn; lia|]. destruct (is_space E x); cbn [snd length]; lia. Qed.
  Lemma scan_fields_length : forall fin k n rs, length (snd (scan_fields E fin k n rs)) <= length rs.
  Proof.
    intros fin k; induction k as [|k IH]; intros n rs; cbn [scan_fields]; [apply scan_end_length|].
    pose proof (skip_sp_length rs) as [H1 _]. destruct (skip_sp E rs) as [[|] t]; cbn [snd fst] in *; [exact H1|].
    destruct t as [|r t]; [cbn; lia|]. cbn [snd]. pose proof (scan_word_length (r :: t)). pose proof (IH (S n) (snd (scan_word E (r :: t)))). lia.
  Qed.
  Lemma scan_progress : forall rs, snd (fst (scan_fields E REof 3 0 rs)) <> EEof -> length (snd (scan_fields E REof 3 0 rs)) < length rs.
  Proof.
    intros rs. generalize 2 as k. intro k. cbn [scan_fields].
    pose proof (skip_sp_length rs) as [H1 H2]. destruct (skip_sp E rs) as [[|] t] eqn:Es; cbn [snd fst] in *; [intros _; auto|].
    destruct t as [|r t]; [cbn; congruence|]. intros _. cbn [snd].
    pose proof (scan_word_progress t (skip_sp_head Es)). pose proof (scan_fields_length REof k 1 (snd (scan_word E (r :: t)))). cbn [length] in *. lia.
  Qed.

  Lemma add_entry_total : forall c d text freq pos, dict_inv c d -> exists d', add_entry c (Some d) text freq pos = Ok (Some d') /\ dict_inv c d'.
  Proof.
    intros c d text freq pos Hd. rewrite add_entry_ops.
    destruct (inv_run (if eqb64 E freq (lit64 E 0 0) then [] else [OpAdd text freq pos]) Hd) as (d' & H1 & H2). rewrite H1. exists d'. split; [reflexivity|exact H2].
  Qed.

  Lemma reader_ln_total : forall fuel c l t f p rs d, dict_inv c d -> length rs < fuel ->
    exists d', reader_ln fuel c l REof t f p rs (Some d) = Ok (Some d').
  Proof.
    induction fuel as [|fuel IH]; intros c l t f p rs d Hd Hl; [lia|]. cbn [reader_ln].
    pose proof (scan_progress (rs := rs)) as Hp.
    destruct (scan_fields E REof 3 0 rs) as [[fs err] rest]. cbn [fst snd] in *. cbv zeta.
    assert (Hgo : length rest < length rs -> exists d', (if eqb64 E (size_freq l (length fs) (nth 0 fs t) (nth 1 fs f)) (lit64 E 0 0)
        then reader_ln fuel c l REof (nth 0 fs t) (nth 1 fs f) (nth 2 fs p) rest (Some d)
        else do od' <- add_entry c (Some d) (nth 0 fs t) (size_freq l (length fs) (nth 0 fs t) (nth 1 fs f)) (if length fs =? 2 then [] else nth 2 fs p);
             reader_ln fuel c l REof (nth 0 fs t) (nth 1 fs f) (if length fs =? 2 then [] else nth 2 fs p) rest od') = Ok (Some d')).
    { intro Hr. destruct (eqb64 E _ _); [apply IH; auto; lia|].
      match goal with |- context [add_entry c (Some d) ?a ?b ?e] => destruct (@add_entry_total c d a b e Hd) as (d1 & G1 & G2) end.
      rewrite G1. cbn [bind]. apply IH; auto; lia. }
    destruct err; [apply Hgo, Hp; discriminate|eauto|apply Hgo, Hp; discriminate].
  Qed.

  Lemma read_line_length : forall s, length (snd (read_line s)) <= length s /\ (snd (fst (read_line s)) = true -> length (snd (read_line s)) < length s).
  Proof.
    induction s as [|b s [H1 H2]]; cbn [read_line]; [cbn; split; [lia|discriminate]|]. destruct (Byte.eqb b x0a); cbn [fst snd length]; [lia|].
    split; [lia|]. intro H. apply H2 in H. lia.
  Qed.
  Lemma read_line_end : forall s, snd (fst (read_line s)) = false -> read_line s = (s, false, []).
  Proof.
    induction s as [|b s IH]; cbn [read_line]; [reflexivity|]. destruct (Byte.eqb b x0a); [discriminate|]. cbn [fst snd]. intro H. rewrite (IH H). reflexivity.
  Qed.

  Lemma reader_sep_total : forall fuel c l s d, dict_inv c d -> length s + 1 < fuel ->
    exists d', reader_sep fuel c l REof s (Some d) = Ok (Some d').
  Proof.
    induction fuel as [|fuel IH]; intros c l s d Hd Hl; [lia|]. cbn [reader_sep].
    pose proof (read_line_length s) as [H1 H2]. pose proof (read_line_end (s := s)) as H3.
    destruct (read_line s) as [[line hit] rest]. cbn [fst snd] in *. cbv zeta.
    match goal with |- context [if ?c then _ else _] => destruct c eqn:Ec end; [eauto|].
    match goal with |- context [add_entry c (Some d) ?a ?b ?e] => destruct (@add_entry_total c d a b e Hd) as (d1 & G1 & G2) end.
    rewrite G1. cbn [bind]. destruct hit.
    - specialize (H2 eq_refl). apply IH; auto; lia.
    - specialize (H3 eq_refl). inversion H3; subst line rest. destruct s as [|b s].
      + exfalso. cbn in Ec. discriminate.
      + apply IH; auto. cbn [length] in *. lia.
  Qed.

  Lemma runes_length : forall s, length (runes_of s) <= length s.
  Proof.
    unfold runes_of. intro s. rewrite map_length. revert s. apply units_ind; [cbn; lia|]. intros s Hs IH.
    rewrite (units_cons Hs). cbn [length]. pose proof (@decode_size s Hs) as [[G1 _] G2]. rewrite skipn_length in IH. lia.
  Qed.

  Lemma reader_total : forall c l data d, dict_inv c d -> exists d', reader c l data REof (Some d) = Ok (Some d').
  Proof.
    intros c l data d Hd. unfold reader. pose proof (runes_length data). destruct (l_sep l); [apply reader_ln_total|apply reader_sep_total]; auto; lia.
  Qed.

  (** *** ... but not if reading fails with another error *)
  Lemma scan_fail : forall k n rs, snd (fst (scan_fields E RFail k n rs)) <> EEof.
  Proof.
    induction k as [|k IH]; intros n rs; cbn [scan_fields fst snd].
    - induction rs as [|r rs IHr]; cbn [scan_end]; [discriminate|]. destruct (Z.eqb r 10); [discriminate|]. destruct (is_space E r); [exact IHr|discriminate].
    - destruct (skip_sp E rs) as [[|] [|r t]]; cbn [fst snd]; try discriminate. apply IH.
  Qed.

  Lemma reader_ln_fail : forall fuel c l t f p rs d, dict_inv c d -> reader_ln fuel c l RFail t f p rs (Some d) = Hang.
  Proof.
    induction fuel as [|fuel IH]; intros c l t f p rs d Hd; [reflexivity|]. cbn [reader_ln].
    pose proof (@scan_fail 3 0 rs) as Hp.
    destruct (scan_fields E RFail 3 0 rs) as [[fs err] rest]. cbn [fst snd] in *. cbv zeta.
    assert (Hgo : (if eqb64 E (size_freq l (length fs) (nth 0 fs t) (nth 1 fs f)) (lit64 E 0 0)
        then reader_ln fuel c l RFail (nth 0 fs t) (nth 1 fs f) (nth 2 fs p) rest (Some d)
        else do od' <- add_entry c (Some d) (nth 0 fs t) (size_freq l (length fs) (nth 0 fs t) (nth 1 fs f)) (if length fs =? 2 then [] else nth 2 fs p);
             reader_ln fuel c l RFail (nth 0 fs t) (nth 1 fs f) (if length fs =? 2 then [] else nth 2 fs p) rest od') = Hang).
    { destruct (eqb64 E _ _); [apply IH; auto|].
      match goal with |- context [add_entry c (Some d) ?a ?b ?e] => destruct (@add_entry_total c d a b e Hd) as (d1 & G1 & G2) end.
      rewrite G1. cbn [bind]. apply IH; auto. }
    destruct err; [exact Hgo|congruence|exact Hgo].
  Qed.

  Lemma reader_sep_fail : forall fuel c l s d, dict_inv c d -> reader_sep fuel c l RFail s (Some d) = Hang.
  Proof.
    induction fuel as [|fuel IH]; intros c l s d Hd; [reflexivity|]. cbn [reader_sep].
    destruct (read_line s) as [[line hit] rest]. cbn [fst snd] in *. cbv zeta. rewrite andb_false_r. cbn [andb].
    match goal with |- context [add_entry c (Some d) ?a ?b ?e] => destruct (@add_entry_total c d a b e Hd) as (d1 & G1 & G2) end.
    rewrite G1. cbn [bind]. apply IH; auto.
  Qed.

  (** A nil dictionary either panics or stays nil. *)
  Lemma add_entry_nil : forall c text freq pos od', add_entry c (@None (dict E)) text freq pos = Ok od' -> od' = None.
  Proof. intros c text freq pos od' H. unfold add_entry in H. destruct (eqb64 E freq (lit64 E 0 0)); congruence. Qed.
  Lemma reader_ln_nil : forall fuel c l fin t f p rs od', reader_ln fuel c l fin t f p rs None = Ok od' -> od' = None.
  Proof.
    induction fuel as [|fuel IH]; intros c l fin t f p rs od' H; [discriminate|]. cbn [reader_ln] in H.
    destruct (scan_fields E fin 3 0 rs) as [[fs err] rest]. cbn [fst snd] in H. cbv zeta in H.
    destruct err; [|congruence|].
    all: destruct (eqb64 E _ _); [apply IH in H; exact H|]; apply bind_Ok in H as (od1 & H1 & H2); apply add_entry_nil in H1; subst; apply IH in H2; exact H2.
  Qed.
  Lemma reader_sep_nil : forall fuel c l fin s od', reader_sep fuel c l fin s None = Ok od' -> od' = None.
  Proof.
    induction fuel as [|fuel IH]; intros c l fin s od' H; [discriminate|]. cbn [reader_sep] in H. cbv zeta in H.
    match type of H with (if ?c then _ else _) = _ => destruct c end; [congruence|].
    apply bind_Ok in H as (od1 & H1 & H2). apply add_entry_nil in H1. subst. apply IH in H2. exact H2.
  Qed.
  Lemma reader_nil : forall c l data fin od', reader c l data fin None = Ok od' -> od' = None.
  Proof. intros c l data fin od' H. unfold reader in H. destruct (l_sep l); [eapply reader_ln_nil|eapply reader_sep_nil]; exact H. Qed.

  (** *** C20: histories of loads *)
  Lemma run_ops_grow_calc : forall c d os d', dict_inv c d -> run_ops c d os = Ok d' -> exists d2, calc_token d' = Ok d2 /\ run_ops c d (os ++ [OpCalc]) = Ok d2.
  Proof.
    intros c d os d' Hd H. destruct (inv_run (os ++ [OpCalc]) Hd) as (d2 & G1 & G2). exists d2. split; [|exact G1].
    rewrite run_ops_app, H in G1. cbn in G1. destruct (calc_token d'); cbn in G1; congruence.
  Qed.

  Lemma grows_calc : grows [OpCalc].
  Proof. repeat constructor. Qed.

  Lemma read_files_grows : forall fs ps s d r, s_dict s = Some d -> read_files s fs ps = Ok r ->
    exists os d', grows os /\ run_ops (s_cfg s) d os = Ok d' /\ fst r = set_dict s (Some d').
  Proof.
    intros fs ps; induction ps as [|p ps IH]; intros s d r Hs H; cbn [read_files] in H.
    - inversion H; subst. exists [], d. cbn. repeat split; [constructor|]. destruct s; cbn in *; subst; reflexivity.
    - apply bind_Ok in H as (r1 & H1 & H2). unfold read_file in H1. destruct (fs p) as [[data fin]|].
      + apply bind_Ok in H1 as (od & H1 & H3). inversion H3; subst r1. cbn [fst snd] in H2. rewrite Hs in H1.
        apply reader_grows in H1 as (os1 & d1 & G1 & -> & G3).
        apply (IH _ d1) in H2; [|reflexivity]. destruct H2 as (os2 & d2 & K1 & K2 & K3).
        exists (os1 ++ os2), d2. split; [apply grows_app; auto|]. rewrite run_ops_app, G3. split; [exact K2|exact K3].
      + inversion H1; subst r1. cbn [snd] in H2. inversion H2; subst. exists [], d. cbn. repeat split; [constructor|]. destruct s; cbn in *; subst; reflexivity.
  Qed.

  (** Every load other than a first LoadDict continues from the current dictionary. *)
  Lemma run_lop_grows : forall s o s', seg_ok s -> run_lop s o = Ok s' -> (is_ldict o -> s_load s = true) ->
    (s_dict s' = None /\ s_dict s = None \/
     exists os d', grows os /\ run_ops (s_cfg s) (start_dict s) os = Ok d' /\ s_dict s' = Some d') /\
    s_cfg s' = s_cfg s /\ s_load s' = s_load s.
  Proof.
    intros s o s' Hs H Hld. destruct o as [txt|ms|text freq pos|text freq pos|data|fs arg]; cbn [run_lop] in H.
    - destruct (load_str_ops txt Hs) as (es & d' & G1 & G2 & G3). rewrite G3 in H. inversion H; subst. cbn. split; [|auto]. right.
      eexists _, d'. split; [|split; [exact G2|reflexivity]]. apply grows_app; [apply grows_ops_of|apply grows_calc].
    - destruct (load_map_ops ms Hs) as (es & d' & G1 & G2 & G3). rewrite G3 in H. inversion H; subst. cbn. split; [|auto]. right.
      eexists _, d'. split; [|split; [exact G2|reflexivity]]. apply grows_app; [apply grows_ops_of|apply grows_calc].
    - unfold start_dict. destruct (s_dict s) as [d|] eqn:Ed; [|discriminate]. apply bind_Ok in H as (d' & H1 & H2). inversion H2; subst. cbn. split; [|auto].
      right. exists [OpAdd text freq pos], d'. repeat split; [repeat constructor|]. cbn. rewrite H1. reflexivity.
    - unfold start_dict. destruct (s_dict s) as [d|] eqn:Ed; [|discriminate]. apply bind_Ok in H as (d' & H1 & H2). inversion H2; subst. cbn. split; [|auto].
      right. exists [OpAdd text freq pos; OpCalc], d'. unfold seg_add_force in H1. apply bind_Ok in H1 as (d1 & H1 & H3).
      repeat split; [repeat constructor|]. cbn. rewrite H1. cbn. rewrite H3. reflexivity.
    - apply bind_Ok in H as (od & H1 & H2). inversion H2; subst. cbn. split; [|auto]. unfold start_dict. destruct (s_dict s) as [d|] eqn:Ed.
      + right. apply reader_grows in H1 as (os & d' & G1 & -> & G3). eauto.
      + left. apply reader_nil in H1. auto.
    - specialize (Hld I). apply bind_Ok in H as (r & H1 & H2). inversion H2; subst s'. unfold load_dict in H1. rewrite Hld in H1.
      apply bind_Ok in H1 as (r1 & H1 & H3). unfold start_dict. destruct (s_dict s) as [d|] eqn:Ed.
      + destruct (read_files_grows Ed H1) as (os & d' & G1 & G2 & G3). unfold seg_ok in Hs. rewrite Ed in Hs.
        destruct (snd r1).
        * inversion H3; subst r. rewrite G3. cbn. split; [|auto]. right. eauto.
        * apply bind_Ok in H3 as (od & H3 & H4). inversion H4; subst r. cbn [fst]. rewrite G3 in *. cbn [s_dict set_dict calc_opt] in H3 |- *.
          apply bind_Ok in H3 as (d2 & H3 & H5). inversion H5; subst. cbn. split; [|auto]. right.
          exists (os ++ [OpCalc]), d2. split; [apply grows_app; [auto|apply grows_calc]|]. split; [|reflexivity].
          rewrite run_ops_app, G2. cbn. rewrite H3. reflexivity.
      + (* nil dictionary: LoadDict only returns with an open error *)
        assert (Hn : forall ps (s1 : seg E) r1, s_dict s1 = None -> read_files s1 fs ps = Ok r1 -> s_dict (fst r1) = None /\ s_cfg (fst r1) = s_cfg s1 /\ s_load (fst r1) = s_load s1).
        { clear. induction ps as [|p ps IH]; intros s1 r1 H0 H; cbn [read_files] in H; [inversion H; subst; auto|].
          apply bind_Ok in H as (r2 & H1 & H2). unfold read_file in H1. destruct (fs p) as [[data fin]|].
          - apply bind_Ok in H1 as (od & H1 & H3). inversion H3; subst r2. cbn [fst snd] in H2. rewrite H0 in H1. apply reader_nil in H1. subst od.
            apply IH in H2; [|reflexivity]. exact H2.
          - inversion H1; subst r2. cbn [snd] in H2. inversion H2; subst. auto. }
        destruct (Hn _ _ _ Ed H1) as (K1 & K2 & K3). destruct (snd r1).
        * inversion H3; subst r. auto.
        * rewrite K1 in H3. discriminate.
  Qed.

  Lemma grows_ok : forall c d os d', dict_inv c d -> run_ops c d os = Ok d' -> dict_inv c d'.
  Proof. intros c d os d' Hd H. destruct (inv_run os Hd) as (d1 & G1 & G2). congruence. Qed.

  Lemma c20_stable : forall os s s' d w, s_dict s = Some d -> reachable (s_cfg s) d ->
    (s_load s = true \/ Forall (fun o => ~ is_ldict o) os) -> run_lops s os = Ok s' -> dict_value d w <> None ->
    exists d', s_dict s' = Some d' /\ dict_value d' w <> None /\ dict_find d' w = dict_find d w.
  Proof.
    intros os s s' d w Hs Hr. apply reachable_inv in Hr. revert s d Hs Hr.
    induction os as [|o os IH]; intros s d Hs Hr Hl H Hv; cbn [run_lops] in H.
    - inversion H; subst. eauto.
    - apply bind_Ok in H as (s1 & H1 & H2).
      assert (Hok : seg_ok s) by (unfold seg_ok; rewrite Hs; exact Hr).
      assert (Hld : is_ldict o -> s_load s = true). { intro Ho. destruct Hl as [Hl|Hl]; [exact Hl|]. inversion Hl; subst. contradiction. }
      destruct (run_lop_grows Hok H1 Hld) as ([[_ Hc]|(os1 & d1 & G1 & G2 & G3)] & Hc1 & Hc2); [congruence|].
      unfold start_dict in G2. rewrite Hs in G2. destruct (grows_stable Hr G1 G2 Hv) as [K1 K2].
      rewrite <- K2. apply (IH s1 d1); auto.
      + rewrite Hc1. eapply grows_ok; eauto.
      + rewrite Hc2. destruct Hl as [Hl|Hl]; [auto|]. right. inversion Hl; auto.
  Qed.

  (** Reading the entries of a history. *)
  Lemma run_lop_entries : forall s o s', seg_ok s -> run_lop s o = Ok s' -> (match o with LReader _ | LDict _ _ => False | _ => True end) ->
    exists es os d', lop_entries (start_lc s) o es /\ grows os /\ adds os = es /\ run_ops (s_cfg s) (start_dict s) os = Ok d' /\
      s_dict s' = Some d' /\ s_cfg s' = s_cfg s /\ s_lc s' = start_lc s.
  Proof.
    intros s o s' Hs H Ho. destruct o as [txt|ms|text freq pos|text freq pos|data|fs arg]; cbn [run_lop] in H; try contradiction.
    - destruct (load_str_ops txt Hs) as (es & d' & G1 & G2 & G3). rewrite G3 in H. inversion H; subst.
      exists es, (map (@op_of E) es ++ [OpCalc]), d'. cbn. repeat split; auto.
      + apply grows_app; [apply grows_ops_of|apply grows_calc].
      + rewrite adds_app, adds_ops_of. cbn. apply app_nil_r.
    - destruct (load_map_ops ms Hs) as (es & d' & G1 & G2 & G3). rewrite G3 in H. inversion H; subst.
      exists (concat es), (map (@op_of E) (concat es) ++ [OpCalc]), d'. cbn. repeat split; auto.
      + exists es. auto.
      + apply grows_app; [apply grows_ops_of|apply grows_calc].
      + rewrite adds_app, adds_ops_of. cbn. apply app_nil_r.
    - unfold start_dict, start_lc. destruct (s_dict s) as [d|] eqn:Ed; [|discriminate]. apply bind_Ok in H as (d' & H1 & H2). inversion H2; subst.
      exists [(text, freq, pos)], [OpAdd text freq pos], d'. cbn. rewrite H1. repeat split. repeat constructor.
    - unfold start_dict, start_lc. destruct (s_dict s) as [d|] eqn:Ed; [|discriminate]. apply bind_Ok in H as (d' & H1 & H2). inversion H2; subst.
      unfold seg_add_force in H1. apply bind_Ok in H1 as (d1 & H1 & H3).
      exists [(text, freq, pos)], [OpAdd text freq pos; OpCalc], d'. cbn. rewrite H1. cbn. rewrite H3. repeat split. repeat constructor.
  Qed.

  Lemma lops_entries : forall hs s s', seg_ok s -> run_lops s hs = Ok s' ->
    Forall (fun o => match o with LReader _ | LDict _ _ => False | _ => True end) hs -> hs <> [] ->
    exists ess os d', Forall2 (lop_entries (start_lc s)) hs ess /\ grows os /\ adds os = concat ess /\
      run_ops (s_cfg s) (start_dict s) os = Ok d' /\ s_dict s' = Some d'.
  Proof.
    induction hs as [|o hs IH]; intros s s' Hs H Hf Hn; [congruence|]. cbn [run_lops] in H. apply bind_Ok in H as (s1 & H1 & H2).
    inversion Hf as [|? ? Ho Hf']; subst.
    destruct (run_lop_entries Hs H1 Ho) as (es & os & d' & G1 & G2 & G3 & G4 & G5 & G6 & G7).
    destruct hs as [|o' hs].
    - cbn in H2. inversion H2; subst. exists [adds os], os, d'. repeat split; auto. cbn. rewrite app_nil_r. reflexivity.
    - assert (Hs1 : seg_ok s1). { unfold seg_ok. rewrite G5, G6. eapply grows_ok; [apply (start_inv Hs)|exact G4]. }
      destruct (IH s1 s' Hs1 H2 Hf') as (ess & os2 & d2 & K1 & K2 & K3 & K4 & K5); [discriminate|].
      assert (Hl : start_lc s1 = start_lc s) by (unfold start_lc at 1; rewrite G5; exact G7).
      assert (Hd : start_dict s1 = d') by (unfold start_dict; rewrite G5; reflexivity).
      rewrite Hl in K1. rewrite Hd, G6 in K4. exists (es :: ess), (os ++ os2), d2. repeat split; auto.
      + apply grows_app; auto.
      + rewrite adds_app, G3, K3. reflexivity.
      + rewrite run_ops_app, G4. exact K4.
  Qed.

  Lemma c20_first : forall hs s s', s_dict s = None -> run_lops s hs = Ok s' ->
    Forall (fun o => match o with LReader _ | LDict _ _ => False | _ => True end) hs -> hs <> [] ->
    exists ess d, Forall2 (lop_entries (init_lc (s_lc s))) hs ess /\ s_dict s' = Some d /\
      forall w, match first_entry (s_cfg s) (concat ess) w with
                | Some (f, p) => dict_find d w = Ok (f, p, true)
                | None => dict_value d w = None
                end.
  Proof.
    intros hs s s' Hs H Hf Hn. assert (Hok : seg_ok s) by (unfold seg_ok; rewrite Hs; exact I).
    destruct (lops_entries Hok H Hf Hn) as (ess & os & d & G1 & G2 & G3 & G4 & G5).
    exists ess, d. unfold start_lc in G1. unfold start_dict in G4. rewrite Hs in G1, G4. repeat split; auto.
    rewrite <- G3. apply grows_find; auto.
  Qed.

  (** *** C19 *)
  Lemma c19 : forall s txt, (forall d, s_dict s = Some d -> reachable (s_cfg s) d) ->
    exists es d', text_entries (match s_dict s with Some _ => s_lc s | None => init_lc (s_lc s) end) txt es /\
      run_ops (s_cfg s) (match s_dict s with Some d => d | None => new_dict E end) (map (@op_of E) es ++ [OpCalc]) = Ok d' /\
      exists s', load_str s txt = Ok s' /\ s_dict s' = Some d' /\ s_cfg s' = s_cfg s /\ s_load s' = s_load s.
  Proof.
    intros s txt Hs. assert (Hok : seg_ok s). { unfold seg_ok. destruct (s_dict s) as [d|]; [apply reachable_inv; auto|exact I]. }
    destruct (load_str_ops txt Hok) as (es & d' & H1 & H2 & H3). exists es, d'. repeat split; auto. eexists. split; [exact H3|auto].
  Qed.

  Lemma line_is_unique : forall l line e e', line_is l line e -> line_is l line e' -> e = e'.
  Proof.
    intros l line [[t f] p] [[t' f'] p'] (fs & src & H1 & H2 & H3 & H4 & H5) (fs' & src' & G1 & G2 & G3 & G4 & G5).
    cbn [fst snd] in *. apply (fields_iff line fs (@sep_nonempty l)) in H1. apply (fields_iff line fs' (@sep_nonempty l)) in G1. subst fs fs'.
    set (s1 := split_str line (l_sep l ++ str " ")) in *.
    apply trimmed_iff in H2, G2. subst t t'. assert (src = src').
    { unfold freq_source in *. destruct s1 as [|a [|b s]]; [contradiction|destruct H3, G3; congruence|]. apply trimmed_iff in H3, G3. congruence. }
    subst src'. assert (p = p'). { destruct (nth_error s1 2); [apply trimmed_iff in H5, G5|]; congruence. } subst p'.
    assert (f = f'); [|congruence].
    destruct H4 as [_ [H4|(v & H4 & _ & H6)]], G4 as [_ [G4|(v' & G4 & _ & G6)]]; try congruence.
    destruct H6 as [[? ?]|[? ?]], G6 as [[? ?]|[? ?]]; try lia; congruence.
  Qed.

  (** *** C21 *)
  Lemma c21_discard : forall (s : seg E) fs arg, s_load s = false -> load_dict s fs arg = load_dict (set_dict s None) fs arg.
  Proof. intros [c d b l] fs arg H. cbn in H. subst b. reflexivity. Qed.

  Lemma c21_empty : forall (s : seg E) fs arg, s_load s = true -> s_dict s = None ->
    match load_dict s fs arg with Ok (s', err) => err = true | Panic => True | Hang => True end.
  Proof.
    intros s fs arg Hl Hd. unfold load_dict. rewrite Hl.
    assert (Hn : forall ps (s1 : seg E) r1, s_dict s1 = None -> read_files s1 fs ps = Ok r1 -> s_dict (fst r1) = None).
    { clear. induction ps as [|p ps IH]; intros s1 r1 H0 H; cbn [read_files] in H; [inversion H; subst; auto|].
      apply bind_Ok in H as (r2 & H1 & H2). unfold read_file in H1. destruct (fs p) as [[data fin]|].
      - apply bind_Ok in H1 as (od & H1 & H3). inversion H3; subst r2. cbn [fst snd] in H2. rewrite H0 in H1. apply reader_nil in H1. subst od.
        apply IH in H2; [|reflexivity]. exact H2.
      - inversion H1; subst r2. cbn [snd] in H2. inversion H2; subst. auto. }
    destruct (read_files s fs _) as [[s1 err]| |] eqn:Er; cbn [bind]; auto. apply Hn in Er; [|exact Hd]. cbn [fst snd] in *.
    destruct err; [reflexivity|]. rewrite Er. exact I.
  Qed.

  (** Reading a finite file with a nil dictionary terminates. *)
  Lemma reader_ln_nil_total : forall fuel c l t f p rs, length rs < fuel ->
    reader_ln fuel c l REof t f p rs (@None (dict E)) <> Hang.
  Proof.
    induction fuel as [|fuel IH]; intros c l t f p rs Hl; [lia|]. cbn [reader_ln].
    pose proof (scan_progress (rs := rs)) as Hp.
    destruct (scan_fields E REof 3 0 rs) as [[fs err] rest]. cbn [fst snd] in *. cbv zeta.
    destruct err; [|discriminate|].
    all: specialize (Hp ltac:(discriminate)); destruct (eqb64 E _ _) eqn:Ez; [apply IH; lia|]; unfold add_entry; rewrite Ez; discriminate.
  Qed.
  Lemma reader_sep_nil_total : forall fuel c l s, length s + 1 < fuel -> reader_sep fuel c l REof s (@None (dict E)) <> Hang.
  Proof.
    induction fuel as [|fuel IH]; intros c l s Hl; [lia|]. cbn [reader_sep].
    pose proof (read_line_length s) as [H1 H2]. pose proof (read_line_end (s := s)) as H3.
    destruct (read_line s) as [[line hit] rest]. cbn [fst snd] in *. cbv zeta.
    match goal with |- context [if ?c then _ else _] => destruct c eqn:Ec end; [discriminate|].
    unfold add_entry. destruct (eqb64 E _ _) eqn:Ez; [|discriminate]. cbn [bind]. destruct hit.
    - specialize (H2 eq_refl). apply IH; lia.
    - specialize (H3 eq_refl). inversion H3; subst line rest. destruct s as [|b s]; [discriminate Ec|]. apply IH. cbn [length] in *. lia.
  Qed.

  Lemma c21_empty_panics : forall (s : seg E) fs arg, s_load s = true -> s_dict s = None ->
    (forall p, exists data, fs p = Some (data, REof)) -> load_dict s fs arg = Panic.
  Proof.
    intros s fs arg Hl Hd Hfs. pose proof (c21_empty fs arg Hl Hd) as H. unfold load_dict in *. rewrite Hl in *.
    set (ps := match arg with Some f => dict_paths f | None => [PZhS; PZhT] end) in *.
    assert (Hn : forall ps (s1 : seg E), s_dict s1 = None -> match read_files s1 fs ps with Ok r => snd r = false /\ s_dict (fst r) = None | Panic => True | Hang => False end).
    { clear -Hfs. induction ps as [|p ps IH]; intros s1 H0; cbn [read_files]; [auto|]. unfold read_file. destruct (Hfs p) as (data & ->). rewrite H0.
      destruct (reader (s_cfg s1) (s_lc s1) data REof None) as [od| |] eqn:Er; cbn [bind]; auto.
      - apply reader_nil in Er. subst od. cbn [fst snd]. apply IH. reflexivity.
      - unfold reader in Er. pose proof (runes_length data). destruct (l_sep (s_lc s1)).
        + exfalso. revert Er. apply reader_ln_nil_total. lia.
        + exfalso. revert Er. apply reader_sep_nil_total. lia. }
    specialize (Hn ps s Hd). destruct (read_files s fs ps) as [[s1 err]| |]; cbn [bind fst snd] in *; [|reflexivity|contradiction].
    destruct Hn as [-> Hn]. rewrite Hn. reflexivity.
  Qed.
End Load.
