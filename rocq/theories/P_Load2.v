(** Well-formed dictionary files, path lists, embedded dictionaries. *)
From Verif Require Import M_Load S_Load S_Split P_Utf8 P_Utf8b P_Str P_Split P_Dict P_Seg2 P_Hist P_Load.
Set Implicit Arguments. Unset Strict Implicit.
Local Open Scope lit_scope.

Lemma runes_app_ascii : forall x b y, (bz b < 128)%Z -> runes_of (x ++ b :: y) = runes_of x ++ bz b :: runes_of y.
Proof.
  intros x b y H. unfold runes_of. rewrite (units_sync x (@ascii_sync b y H)), (units_ascii y H), map_app. reflexivity.
Qed.

Lemma enc_ascii : forall r b, scalar r = true -> In b (enc r) -> (bz b < 128)%Z -> r = bz b.
Proof.
  intros r b Hr Hi Hb. assert (Hr' : (0 <= r < 1114112)%Z).
  { unfold scalar, in_range in Hr. apply orb_true_iff in Hr as [Hr|Hr]; apply andb_prop in Hr as [H1 H2]; apply Z.leb_le in H1; apply Z.leb_le in H2; lia. }
  unfold enc in Hi. destruct (Z.ltb_spec r 128); [destruct Hi as [<-|[]]; rewrite bz_zb; lia|].
  exfalso. assert (Hm : forall z, (128 <= 128 + z mod 64 < 256)%Z) by (intro z; pose proof (Z.mod_pos_bound z 64); lia).
  destruct (Z.ltb_spec r 2048); [|destruct (Z.ltb_spec r 65536)]; cbn [In] in Hi.
  - assert (0 <= r / 64 < 32)%Z by (split; [apply Z.div_pos|apply Z.div_lt_upper_bound]; lia).
    destruct Hi as [<-|[<-|[]]]; rewrite bz_zb in Hb; try lia; pose proof (Hm r); lia.
  - assert (0 <= r / 4096 < 16)%Z by (split; [apply Z.div_pos|apply Z.div_lt_upper_bound]; lia).
    destruct Hi as [<-|[<-|[<-|[]]]]; rewrite bz_zb in Hb; try lia; pose proof (Hm r); pose proof (Hm (r / 64)%Z); lia.
  - assert (0 <= r / 262144 < 5)%Z by (split; [apply Z.div_pos|apply Z.div_lt_upper_bound]; lia).
    destruct Hi as [<-|[<-|[<-|[<-|[]]]]]; rewrite bz_zb in Hb; try lia; pose proof (Hm r); pose proof (Hm (r / 64)%Z); pose proof (Hm (r / 4096)%Z); lia.
Qed.

Section WF.
  Variable E : env.
  Notation wf_field := (wf_field E).
  Notation wf_line := (wf_line E).

  Lemma wf_no_byte : forall x b, wf_field x -> (bz b < 128)%Z -> is_space E (bz b) = true -> ~ In b x.
  Proof.
    intros x b (Hn & (rs & Hrs & ->) & Hs) Hb Hsp Hin. rewrite runes_encs in Hs by exact Hrs.
    apply in_concat in Hin as (y & Hy & Hb'). apply in_map_iff in Hy as (r & <- & Hr).
    rewrite Forall_forall in Hs, Hrs. pose proof (enc_ascii (Hrs r Hr) Hb' Hb) as ->. rewrite (Hs _ Hr) in Hsp. discriminate.
  Qed.

  Lemma wf_trim : forall x, wf_field x -> trim_space E x = x.
  Proof.
    intros x (Hn & _ & Hs). symmetry. apply trimmed_iff. exists [], (units x), []. rewrite app_nil_r. repeat split; auto.
    - rewrite units_concat. reflexivity.
    - right. unfold runes_of in Hs. rewrite Forall_map in Hs. destruct (units x) as [|u us] eqn:Eu.
      + exfalso. apply Hn. rewrite <- (units_concat x), Eu. reflexivity.
      + destruct (@exists_last _ (u :: us)) as (m2 & y & Hy); [discriminate|]. exists u, us, m2, y. rewrite Forall_forall in Hs.
        repeat split; auto; apply Hs; [left; reflexivity|rewrite Hy; apply in_or_app; right; left; reflexivity].
  Qed.

  Lemma wf_string : forall x, wf_field x -> string_of_runes (runes_of x) = x.
  Proof. intros x (_ & H & _). apply roundtrip_iff. exact H. Qed.

  Lemma scan_word_app : forall ws r rest, Forall (fun x => is_space E x = false) ws -> is_space E r = true ->
    scan_word E (ws ++ r :: rest) = (ws, r :: rest).
  Proof.
    intros ws r rest H Hr; induction H as [|w ws Hw H IH]; cbn [app scan_word]; [rewrite Hr; reflexivity|]. rewrite Hw, IH. reflexivity.
  Qed.

  Lemma skip_nonspace : forall r t, is_space E r = false -> skip_sp E (r :: t) = (false, r :: t).
  Proof.
    intros r t H. cbn [skip_sp]. destruct (Z.eqb_spec r 10) as [->|_]; [discriminate H|]. rewrite H. reflexivity.
  Qed.

  Lemma scan_step : forall fin k n x r rest, wf_field x -> is_space E r = true ->
    scan_fields E fin (S k) n (runes_of x ++ r :: rest) =
      (x :: fst (fst (scan_fields E fin k (S n) (r :: rest))), snd (fst (scan_fields E fin k (S n) (r :: rest))), snd (scan_fields E fin k (S n) (r :: rest))).
  Proof.
    intros fin k n x r rest Hx Hr. pose proof Hx as (Hn & _ & Hs).
    assert (Hne : runes_of x <> []).
    { intro Hc. apply Hn. rewrite <- (wf_string Hx), Hc. reflexivity. }
    destruct (runes_of x) as [|r0 rs] eqn:Er; [congruence|]. cbn [scan_fields app]. rewrite skip_nonspace by (inversion Hs; auto).
    rewrite app_comm_cons, (scan_word_app rest Hs Hr). cbn [fst snd]. rewrite <- Er, (wf_string Hx). reflexivity.
  Qed.

  Lemma scan_space : forall fin k n rest, scan_fields E fin (S k) n (32%Z :: rest) = scan_fields E fin (S k) n rest.
  Proof. reflexivity. Qed.

  Lemma scan_line : forall fin e rest, wf_line e ->
    scan_fields E fin 3 0 (runes_of (line_text e ++ x0a :: rest)) = ([fst (fst e); snd (fst e); snd e], ENone, runes_of rest).
  Proof.
    intros fin [[w f] p] rest (Hw & Hf & Hp). cbn [fst snd] in *. unfold line_text. cbn [fst snd app]. rewrite <- !app_assoc. cbn [app]. rewrite <- !app_assoc. cbn [app].
    rewrite !runes_app_ascii by reflexivity. change (bz x20) with 32%Z. change (bz x0a) with 10%Z.
    rewrite (@scan_step fin 2 0 w) by auto. rewrite scan_space. rewrite (@scan_step fin 1 1 f) by auto. rewrite scan_space.
    rewrite (@scan_step fin 0 2 p) by auto. reflexivity.
  Qed.

  (** *** LoadDictStr on the same text *)
  Lemma occurs_byte : forall b s i, occurs_at [b] s i -> In b s.
  Proof. intros b s i (u & v & -> & _). apply in_or_app. right. left. reflexivity. Qed.

  Lemma occurs_byte_first : forall b f rest, ~ In b f -> forall i, i < length f -> ~ occurs_at [b] (f ++ [b] ++ rest) i.
  Proof.
    intros b f rest Hn i Hi (u & v & H & Hu). apply Hn.
    assert (Hx : nth_error (f ++ [b] ++ rest) i = Some b).
    { rewrite H, nth_error_app2 by lia. rewrite Hu, Nat.sub_diag. reflexivity. }
    rewrite nth_error_app1 in Hx by lia. eapply nth_error_In; exact Hx.
  Qed.

  Lemma split_line : forall l e, l_sep (E := E) l = [] -> wf_line e ->
    split_str (line_text e) (l_sep l ++ str " ") = [fst (fst e); snd (fst e); snd e].
  Proof.
    intros l [[w f] p] Hl (Hw & Hf & Hp). cbn [fst snd] in *. rewrite Hl. cbn [app]. change (str " ") with [x20]. symmetry. apply fields_iff; [discriminate|].
    assert (Hns : forall x, wf_field x -> ~ In x20 x) by (intros x Hx; apply wf_no_byte; auto; reflexivity).
    unfold line_text. cbn [fst snd]. apply fields_cons; [apply occurs_byte_first; auto|]. apply fields_cons; [apply occurs_byte_first; auto|].
    apply fields_last. intros i Hi. apply occurs_byte in Hi. apply (Hns p Hp Hi).
  Qed.

  Lemma split_file : forall es, Forall wf_line es -> split_str (file_text es) [x0a] = map line_text es ++ [[]].
  Proof.
    intros es H. symmetry. apply fields_iff; [discriminate|]. induction H as [|e es He H IH].
    - cbn. apply fields_last. intros i Hi. apply occurs_byte in Hi. exact Hi.
    - unfold file_text. cbn [map concat app]. rewrite <- app_assoc. apply fields_cons; [|exact IH].
      apply occurs_byte_first. destruct e as [[w f] p], He as (Hw & Hf & Hp). cbn [fst snd] in *.
      assert (Hns : forall x, wf_field x -> ~ In x0a x) by (intros x Hx; apply wf_no_byte; auto; reflexivity).
      unfold line_text. cbn [fst snd]. rewrite !in_app_iff. pose proof (Hns w Hw). pose proof (Hns f Hf). pose proof (Hns p Hp).
      intros [Hi|[[Hi|[]]|[Hi|[[Hi|[]]|Hi]]]]; auto; discriminate.
  Qed.

  Lemma str_line_wf : forall c l od e, l_sep l = [] -> wf_line e ->
    str_line c l od (line_text e) = add_entry c od (fst (fst e)) (size_freq (E := E) l 3 (fst (fst e)) (snd (fst e))) (snd e).
  Proof.
    intros c l od e Hl He. unfold str_line. rewrite (split_line Hl He). destruct e as [[w f] p], He as (Hw & Hf & Hp). cbn [fst snd length nth] in *.
    change (1 <? 3) with true. change (2 <? 3) with true. cbv iota. rewrite trim_space_nl, !wf_trim by auto. reflexivity.
  Qed.

  Lemma file_cons : forall e es, file_text (e :: es) = line_text e ++ x0a :: file_text es.
  Proof. intros. unfold file_text. cbn [map concat]. rewrite <- app_assoc. reflexivity. Qed.

  Lemma reader_file : forall c (l : lcfg E) es fuel t f p od, Forall wf_line es -> length es < fuel -> l_sep l = [] -> l_nofreq l = false ->
    reader_ln fuel c l REof t f p (runes_of (file_text es)) od = str_lines c l od (map line_text es ++ [[]]).
  Proof.
    intros c l es; induction es as [|e es IH]; intros fuel t f p od Hw Hf Hl Hn; (destruct fuel as [|fuel]; [cbn in Hf; lia|]).
    - cbn [map app str_lines]. unfold str_line. rewrite Hl. cbn. unfold add_entry. rewrite Hn. cbn. rewrite zero64_refl. reflexivity.
    - inversion Hw; subst. cbn [map app str_lines]. rewrite (str_line_wf c od Hl) by auto.
      rewrite file_cons. cbn [reader_ln]. rewrite scan_line by auto. cbn [fst snd]. cbn [length nth]. change (3 =? 2) with false. cbv iota zeta.
      unfold add_entry at 1. unfold add_entry at 1. destruct (eqb64 E _ _) eqn:Ez.
      + cbn [bind]. apply IH; auto. cbn in Hf. lia.
      + destruct od as [d|]; [|reflexivity]. destruct (seg_add_token _ _ _ _ _) as [d1| |]; cbn [bind]; auto. apply IH; auto. cbn in Hf. lia.
  Qed.

  Lemma file_length : forall es, length es <= length (file_text es).
  Proof.
    intro es; induction es as [|e es IH]; [cbn; lia|]. rewrite file_cons, app_length. cbn [length]. lia.
  Qed.

  Lemma c59 : forall (s : seg E) es, s_dict s <> None -> l_sep (s_lc s) = [] -> l_nofreq (s_lc s) = false -> Forall wf_line es ->
    load_str s (file_text es) =
      (do od <- reader (s_cfg s) (s_lc s) (file_text es) REof (s_dict s) ; do od' <- calc_opt od ; Ok (set_dict s od')).
  Proof.
    intros s es Hd Hl Hn Hw. unfold load_str, reader. rewrite Hl.
    rewrite reader_file by (auto; pose proof (file_length es); lia).
    assert (He : ensure_dict s = s) by (unfold ensure_dict; destruct (s_dict s); [reflexivity|congruence]).
    rewrite He, (split_file Hw). reflexivity.
  Qed.

  Lemma c59_dict : forall (s : seg E) fs name es, s_dict s = None -> s_load s = false -> l_sep (s_lc s) = [] -> l_nofreq (s_lc s) = false ->
    Forall wf_line es -> dict_paths name = [PUser name] -> fs (PUser name) = Some (file_text es, REof) ->
    exists d s1 s2, load_str s (file_text es) = Ok s1 /\ load_dict s fs (Some name) = Ok (s2, false) /\ s_dict s1 = Some d /\ s_dict s2 = Some d.
  Proof.
    intros s fs name es Hd Hb Hl Hn Hw Hp Hf.
    assert (Hok : seg_ok s) by (unfold seg_ok; rewrite Hd; exact I).
    destruct (load_str_ops (file_text es) Hok) as (ents & d & _ & _ & H3).
    eexists d, _, (set_dict {| s_cfg := s_cfg s; s_dict := Some (new_dict E); s_load := true; s_lc := init_lc (s_lc s) |} (Some d)).
    split; [exact H3|]. split; [|cbn; auto]. unfold load_dict. rewrite Hb, Hp. cbn [read_files]. unfold read_file at 1. rewrite Hf.
    cbn [s_cfg s_lc s_dict]. unfold reader. cbn [l_sep init_lc]. rewrite Hl.
    rewrite reader_file by (auto; pose proof (file_length es); lia).
    unfold load_str in H3. assert (He : ensure_dict s = {| s_cfg := s_cfg s; s_dict := Some (new_dict E); s_load := s_load s; s_lc := init_lc (s_lc s) |}).
    { unfold ensure_dict. rewrite Hd. reflexivity. }
    rewrite He, (split_file Hw) in H3. cbn [s_cfg s_lc s_dict] in H3.
    destruct (str_lines _ _ _ _) as [od| |]; cbn [bind] in *; try discriminate. cbn [fst snd bind s_dict set_dict].
    destruct (calc_opt od) as [od'| |]; cbn [bind] in *; try discriminate. inversion H3; subst. cbn [snd fst bind]. reflexivity.
  Qed.

  (** *** More than three fields *)
  Lemma scan_extra : forall fin e r rest, wf_line e -> scalar r = true -> is_space E r = false ->
    scan_fields E fin 3 0 (runes_of (line_text e ++ x20 :: enc r ++ rest)) = ([fst (fst e); snd (fst e); snd e], EOther, runes_of rest).
  Proof.
    intros fin [[w f] p] r rest (Hw & Hf & Hp) Hr Hrs. cbn [fst snd] in *. unfold line_text. cbn [fst snd app]. rewrite <- !app_assoc. cbn [app]. rewrite <- !app_assoc. cbn [app].
    rewrite !runes_app_ascii by reflexivity. change (bz x20) with 32%Z.
    rewrite (@scan_step fin 2 0 w) by auto. rewrite scan_space. rewrite (@scan_step fin 1 1 f) by auto. rewrite scan_space.
    rewrite (@scan_step fin 0 2 p) by auto. assert (Hre : runes_of (enc r ++ rest) = r :: runes_of rest) by (unfold runes_of; rewrite (units_enc rest Hr); reflexivity). rewrite Hre.
    cbn [scan_fields scan_end]. change (Z.eqb 32 10) with false. change (is_space E 32) with true. cbv iota.
    destruct (Z.eqb_spec r 10) as [->|_]; [discriminate Hrs|]. rewrite Hrs. reflexivity.
  Qed.

  Lemma c61 : forall c (l : lcfg E) e r es od, wf_line e -> scalar r = true -> is_space E r = false -> Forall wf_line es ->
    l_sep l = [] -> l_nofreq l = false ->
    reader c l (line_text e ++ x20 :: enc r ++ file_text es) REof od = reader c l (file_text (e :: es)) REof od.
  Proof.
    intros c l e r es od He Hr Hrs Hes Hl Hn. unfold reader. rewrite Hl.
    set (n := length (line_text e ++ x20 :: enc r ++ file_text es) + 1).
    replace (length (line_text e ++ x20 :: enc r ++ file_text es) + 2) with (S n) by lia.
    rewrite (@reader_file c l (e :: es)); auto; [|pose proof (file_length (e :: es)); lia].
    cbn [reader_ln]. rewrite scan_extra by auto. cbn [fst snd length nth]. change (3 =? 2) with false. cbv iota zeta.
    cbn [map app str_lines]. rewrite (str_line_wf c od Hl He).
    assert (Hlen : length es < n). { unfold n. rewrite !app_length. cbn [length]. rewrite app_length. pose proof (file_length es). lia. }
    unfold add_entry at 1. unfold add_entry at 1. destruct (eqb64 E _ _) eqn:Ez.
    + cbn [bind]. apply reader_file; auto.
    + destruct od as [d|]; [|reflexivity]. destruct (seg_add_token _ _ _ _ _) as [d1| |]; cbn [bind]; auto. apply reader_file; auto.
  Qed.

  (** *** A one-field line after a three-field line *)
  Lemma scan_one : forall fin w rest, wf_field w -> scan_fields E fin 3 0 (runes_of (w ++ x0a :: rest)) = ([w], EOther, runes_of rest).
  Proof.
    intros fin w rest Hw. rewrite runes_app_ascii by reflexivity. rewrite (@scan_step fin 2 0 w) by auto. reflexivity.
  Qed.

  Lemma c22 : forall c (l : lcfg E) d e w, dict_inv c d -> wf_line e -> wf_field w -> l_sep l = [] -> l_nofreq l = true ->
    eqb64 E (size_freq l 3 (fst (fst e)) (snd (fst e))) (lit64 E 0 0) = false ->
    eqb64 E (size_freq l 1 w []) (lit64 E 0 0) = false ->
    exists d', reader c l (line_text e ++ x0a :: w ++ [x0a]) REof (Some d) = Ok (Some d') /\
      run_ops c d [OpAdd (fst (fst e)) (size_freq l 3 (fst (fst e)) (snd (fst e))) (snd e); OpAdd w (size_freq l 1 w []) (snd e)] = Ok d'.
  Proof.
    intros c l d e w Hd He Hw Hl Hn H1 H2.
    destruct (inv_run [OpAdd (fst (fst e)) (size_freq l 3 (fst (fst e)) (snd (fst e))) (snd e); OpAdd w (size_freq l 1 w []) (snd e)] Hd) as (d' & G1 & _).
    exists d'. split; [|exact G1]. unfold reader. rewrite Hl.
    assert (Hlen : 2 <= length (line_text e ++ x0a :: w ++ [x0a])) by (rewrite app_length; cbn [length]; rewrite app_length; cbn; lia).
    destruct (length (line_text e ++ x0a :: w ++ [x0a]) + 2) as [|[|[|fuel]]] eqn:Ef; try lia.
    remember (S fuel) as fu eqn:Hfu. cbn [reader_ln]. rewrite scan_line by auto. cbn [fst snd length nth]. change (3 =? 2) with false. cbv iota zeta. rewrite H1.
    rewrite scan_one by auto. cbn [fst snd length nth]. change (1 =? 2) with false. cbv iota.
    unfold add_entry at 1. rewrite H1. cbn [run_ops run_op] in G1. destruct (seg_add_token _ d _ _ _) as [d1| |]; cbn [bind] in *; try discriminate.
    change (size_freq l 1 w (snd (fst e))) with (size_freq l 1 w []). rewrite H2.
    unfold add_entry at 1. rewrite H2. destruct (seg_add_token _ d1 _ _ _) as [d2| |]; cbn [bind] in *; try discriminate. subst fu. cbn. congruence.
  Qed.

  (** *** Blank lines with LoadNoFreq *)
  Lemma c63 : forall (s : seg E) txt lines freq, (forall d, s_dict s = Some d -> reachable (s_cfg s) d) ->
    let l := match s_dict s with Some _ => s_lc s | None => init_lc (s_lc s) end in
    fields [x0a] txt lines -> In [] lines -> l_nofreq l = true -> accepts l [] (l_textfreq l) freq ->
    exists s' d', load_str s txt = Ok s' /\ s_dict s' = Some d' /\ dict_value d' [] <> None.
  Proof.
    intros s txt lines freq Hs l Hf Hin Hn Ha. destruct (c19 txt Hs) as (es & d' & G1 & G2 & s' & G3 & G4 & _). fold l in G1.
    exists s', d'. split; [exact G3|]. split; [exact G4|].
    destruct G1 as (lines' & ess & K1 & K2 & K3).
    assert (lines' = lines) by (eapply fields_unique; eauto; discriminate). subst lines'.
    assert (He : In ([], freq, []) es).
    { subst es. clear -Hin Hn Ha K2. induction K2 as [|x es lines ess Hx K2 IH]; [contradiction|]. cbn [concat]. apply in_or_app. destruct Hin as [->|Hin]; [left|right; auto].
      assert (Hl : line_is l [] ([], freq, [])).
      { exists [[]], (l_textfreq l). cbn [fst snd nth nth_error freq_source]. repeat split; auto.
        - apply fields_last. intros i (u & v & H & _). destruct u; [|discriminate]. destruct (l_sep l); discriminate.
        - apply trimmed_iff. reflexivity.
        - destruct Ha; auto.
        - destruct Ha; auto. }
      destruct Hx as [(e & He & ->)|[He ->]].
      - left. eapply line_is_unique; eauto.
      - exfalso. exact (He _ Hl). }
    set (d0 := match s_dict s with Some d => d | None => new_dict E end) in *.
    assert (Hd0 : dict_inv (s_cfg s) d0).
    { unfold d0. destruct (s_dict s) as [d|]; [apply reachable_inv; auto|apply new_dict_inv]. }
    destruct (rel_self Hd0) as (m & Hm).
    assert (Hg : grows (map (@op_of E) es ++ [OpCalc])) by (apply grows_app; [apply grows_ops_of|apply grows_calc]).
    pose proof (rel_ops Hd0 Hm (grows_safe (s_cfg s) m Hg) G2) as Hm'. rewrite dict_value_get. intro Hc.
    apply (rel_none [] Hm') in Hc. rewrite spec_grows in Hc by exact Hg. destruct (m []) as [x|]; [discriminate|].
    rewrite adds_app, adds_ops_of in Hc. cbn [adds flat_map] in Hc. rewrite app_nil_r in Hc. unfold first_entry in Hc.
    match type of Hc with context [find ?p es] => destruct (find p es) as [e|] eqn:Ef; [discriminate|] end. pose proof (find_none _ _ Ef _ He) as Hb. cbn in Hb. discriminate.
  Qed.
End WF.

(** *** DictPaths *)

Lemma path_step_spec : forall p name,
  (bare_tag name = false -> snd (path_step p name) = requested name) /\
  (bare_tag name = true -> fst (path_step p name) = p /\ snd (path_step p name) = match p with PUser f => if beqb f [] || beqb f (str " ") then [] else [p] | _ => [p] end) /\
  (fst (path_step p name) = p \/ (exists q, q = fst (path_step p name) /\ (In q (requested name) \/ q = PUser [] \/ q = PUser (str " ")))).
Proof.
  intros p name. unfold path_step, requested, bare_tag, in_list. cbn [existsb map].
  destruct (beqb name (str "zh")) eqn:E1; [apply beqb_eq in E1; subst name; cbn; repeat split; try discriminate; right; eexists; split; [reflexivity|]; auto|].
  destruct (beqb name (str "zh_s")) eqn:E2; [apply beqb_eq in E2; subst name; cbn; repeat split; try discriminate; right; eexists; split; [reflexivity|]; auto|].
  destruct (beqb name (str "zh_t")) eqn:E3; [apply beqb_eq in E3; subst name; cbn; repeat split; try discriminate; right; eexists; split; [reflexivity|]; auto|].
  destruct (beqb name (str "ja")) eqn:E4; [apply beqb_eq in E4; subst name; cbn; repeat split; try discriminate; right; eexists; split; [reflexivity|]; auto|].
  destruct (beqb name (str "jp")) eqn:E5; [apply beqb_eq in E5; subst name; cbn; repeat split; try discriminate; right; eexists; split; [reflexivity|]; auto|].
  destruct (beqb name (str "en")) eqn:E6; [cbn; repeat split; try discriminate; auto|].
  destruct (beqb name (str "ko")) eqn:E7; [cbn; repeat split; try discriminate; auto|].
  destruct (beqb name (str "ti")) eqn:E8; [cbn; repeat split; try discriminate; auto|].
  cbn [orb fst snd app]. destruct (beqb name []) eqn:E9; [apply beqb_eq in E9; subst name; cbn; repeat split; try discriminate; right; eexists; split; [reflexivity|]; auto|].
  destruct (beqb name (str " ")) eqn:E10; [apply beqb_eq in E10; subst name; cbn; repeat split; try discriminate; right; eexists; split; [reflexivity|]; auto|].
  change (str "") with (@nil byte). rewrite E9. cbn [orb]. repeat split; try discriminate. right. eexists; split; [reflexivity|]. left. left. reflexivity.
Qed.

Lemma path_names : forall arg sep names, list_sep arg sep -> fields sep arg names -> beqb arg (str "en") = false -> dict_paths arg = path_loop (PUser []) names.
Proof.
  intros arg sep names Hs Hf Hen. unfold dict_paths. rewrite Hen. destruct Hs as [[-> (i & Hi)]|[-> Hi]].
  - replace (contains arg (str ", ")) with true; [apply fields_iff in Hf; [|discriminate]; subst; reflexivity|].
    symmetry. apply contains_iff. destruct Hi as (u & v & H & _). eauto.
  - replace (contains arg (str ", ")) with false; [apply fields_iff in Hf; [|discriminate]; subst; reflexivity|].
    symmetry. destruct (contains arg (str ", ")) eqn:Ec; [|reflexivity]. apply contains_iff in Ec as (u & v & H). exfalso. apply (Hi (length u)). exists u, v; auto.
Qed.

Lemma path_loop_plain : forall names p, Forall (fun n => bare_tag n = false) names -> path_loop p names = flat_map requested names.
Proof.
  intros names p H; revert p; induction H as [|n names Hn H IH]; intro p; [reflexivity|]. cbn [path_loop flat_map].
  rewrite (proj1 (path_step_spec p n) Hn), IH. reflexivity.
Qed.

Lemma c56_plain : forall arg sep names, list_sep arg sep -> fields sep arg names -> Forall (fun n => bare_tag n = false) names ->
  dict_paths arg = flat_map requested names.
Proof.
  intros arg sep names Hs Hf Hn. destruct (beqb arg (str "en")) eqn:Hen.
  - apply beqb_eq in Hen. subst arg. exfalso. assert (Hsn : sep <> []) by (destruct Hs as [[-> _]|[-> _]]; discriminate).
    apply (fields_iff _ _ Hsn) in Hf. subst names. destruct Hs as [[-> _]|[-> _]]; vm_compute in Hn; inversion Hn as [|? ? Hx]; discriminate.
  - rewrite (path_names Hs Hf Hen). apply path_loop_plain. exact Hn.
Qed.

Lemma path_loop_asked : forall names p q (P : dpath -> Prop), (P p \/ p = PUser [] \/ p = PUser (str " ")) ->
  (forall n x, In n names -> In x (requested n) -> P x) -> In q (path_loop p names) -> P q.
Proof.
  induction names as [|n names IH]; intros p q P Hp Hn Hq; [contradiction|]. cbn [path_loop] in Hq. apply in_app_or in Hq.
  destruct (path_step_spec p n) as (H1 & H2 & H3). destruct Hq as [Hq|Hq].
  - destruct (bare_tag n) eqn:Eb.
    + destruct (H2 eq_refl) as [_ H4]. rewrite H4 in Hq. destruct Hp as [Hp|[->| ->]]; [|contradiction Hq|contradiction Hq].
      destruct p; try (destruct Hq as [<-|[]]; exact Hp). destruct (beqb f [] || beqb f (str " ")); [contradiction|]. destruct Hq as [<-|[]]; exact Hp.
    + rewrite (H1 eq_refl) in Hq. eapply Hn; [left; reflexivity|exact Hq].
  - apply (IH (fst (path_step p n)) q P); auto.
    + destruct H3 as [->|(x & -> & H3)]; [exact Hp|]. destruct H3 as [H3|H3]; [left; eapply Hn; [left; reflexivity|exact H3]|auto].
    + intros n' x Hi. apply Hn. right. exact Hi.
Qed.

Lemma c56_asked : forall arg sep names q, list_sep arg sep -> fields sep arg names -> In q (dict_paths arg) ->
  exists n, In n names /\ In q (requested n).
Proof.
  intros arg sep names q Hs Hf Hq. destruct (beqb arg (str "en")) eqn:Hen.
  - unfold dict_paths in Hq. rewrite Hen in Hq. contradiction.
  - rewrite (path_names Hs Hf Hen) in Hq. apply (@path_loop_asked names (PUser []) q (fun q => exists n, In n names /\ In q (requested n))); auto.
    intros n x H1 H2. eauto.
Qed.

Lemma sublist_app : forall A (x a b : list A), sublist a b -> sublist (x ++ a) (x ++ b).
Proof. induction x; cbn; intros; [auto|apply sub_take; auto]. Qed.
Lemma sublist_skip : forall A (x a b : list A), sublist a b -> sublist a (x ++ b).
Proof. induction x; cbn; intros; [auto|apply sub_skip; auto]. Qed.
Lemma sublist_refl : forall A (a : list A), sublist a a.
Proof. induction a; [constructor|apply sub_take; auto]. Qed.

Lemma bare_requested : forall n, bare_tag n = true -> requested n = [].
Proof.
  intros n H. unfold bare_tag, in_list in H. cbn [map existsb] in H. rewrite !orb_true_iff in H.
  destruct H as [H|[H|[H|H]]]; try discriminate; apply beqb_eq in H; subst n; reflexivity.
Qed.

Lemma path_loop_sub : forall names p, sublist (flat_map requested names) (path_loop p names).
Proof.
  induction names as [|n names IH]; intro p; [constructor|]. cbn [flat_map path_loop]. destruct (path_step_spec p n) as (H1 & H2 & _).
  destruct (bare_tag n) eqn:Eb.
  - rewrite (bare_requested Eb). cbn [app]. apply sublist_skip, IH.
  - rewrite (H1 eq_refl). apply sublist_app, IH.
Qed.

Lemma c56_order : forall arg sep names, list_sep arg sep -> fields sep arg names -> sublist (flat_map requested names) (dict_paths arg).
Proof.
  intros arg sep names Hs Hf. destruct (beqb arg (str "en")) eqn:Hen.
  - assert (Hsn : sep <> []) by (destruct Hs as [[-> _]|[-> _]]; discriminate). apply (fields_iff _ _ Hsn) in Hf. subst names. apply beqb_eq in Hen. subst arg.
    destruct Hs as [[-> _]|[-> _]]; vm_compute; constructor.
  - rewrite (path_names Hs Hf Hen). apply path_loop_sub.
Qed.

(** *** LoadDictEmbed *)
Lemma c62_plain : forall E (e : embedded) (s : seg E) arg names, l_sep (s_lc s) <> str "," -> fields (str ", ") arg names -> 2 <= length names ->
  (forall i, ~ occurs_at (str "zh,") arg i) -> (forall i, ~ occurs_at (str "zh_s,") arg i) -> (forall i, ~ occurs_at (str "zh_t,") arg i) ->
  load_embed e s (Some arg) = load_strs s names.
Proof.
  intros E e s arg names Hs Hf Hl H1 H2 H3. apply fields_iff in Hf; [|discriminate]. subst names.
  assert (Hc : forall sub, (forall i, ~ occurs_at sub arg i) -> contains arg sub = false).
  { intros sub H. destruct (contains arg sub) eqn:Ec; [|reflexivity]. apply contains_iff in Ec as (u & v & Hu). exfalso. apply (H (length u)). exists u, v; auto. }
  assert (Hcc : contains arg (str ", ") = true).
  { destruct (contains arg (str ", ")) eqn:Ec; [reflexivity|]. exfalso. unfold contains in Ec. destruct (index (str ", ") arg) eqn:Ei; [discriminate|].
    unfold split_str in Hl. destruct (length arg); cbn [split_fuel] in Hl; [cbn in Hl; lia|]. rewrite Ei in Hl. cbn in Hl. lia. }
  unfold load_embed. assert (Hne : forall n, contains n (str ", ") = false -> beqb arg n = false).
  { intros n Hn. apply beqb_neq. intros ->. congruence. }
  rewrite !Hne by reflexivity. rewrite Hcc. replace (beqb (l_sep (s_lc s)) (str ",")) with false by (symmetry; apply beqb_neq; exact Hs).
  cbn [negb andb]. unfold load_zh_st. rewrite (Hc _ H1), (Hc _ H2), (Hc _ H3). reflexivity.
Qed.

(** With "zh," anywhere the first element of the list is skipped. *)
Lemma c62_zh : forall E (e : embedded) (s : seg E) arg first names, l_sep (s_lc s) <> str "," -> fields (str ", ") arg (first :: names) -> names <> [] ->
  (exists i, occurs_at (str "zh,") arg i) -> (forall i, ~ occurs_at (str "zh_s,") arg i) -> (forall i, ~ occurs_at (str "zh_t,") arg i) ->
  load_embed e s (Some arg) = load_strs s ((e_zhs e ++ e_zht e) :: names).
Proof.
  intros E e s arg first names Hs Hf Hl (i & H1) H2 H3. apply fields_iff in Hf; [|discriminate].
  assert (Hc : forall sub, (forall i, ~ occurs_at sub arg i) -> contains arg sub = false).
  { intros sub H. destruct (contains arg sub) eqn:Ec; [|reflexivity]. apply contains_iff in Ec as (u & v & Hu). exfalso. apply (H (length u)). exists u, v; auto. }
  assert (Hc1 : contains arg (str "zh,") = true) by (apply contains_iff; destruct H1 as (u & v & H & _); eauto).
  assert (Hcc : contains arg (str ", ") = true).
  { destruct (contains arg (str ", ")) eqn:Ec; [reflexivity|]. exfalso. unfold contains in Ec. destruct (index (str ", ") arg) eqn:Ei; [discriminate|].
    unfold split_str in Hf. destruct (length arg); cbn [split_fuel] in Hf; [congruence|]. rewrite Ei in Hf. congruence. }
  unfold load_embed. assert (Hne : forall n, contains n (str ", ") = false -> beqb arg n = false).
  { intros n Hn. apply beqb_neq. intros ->. congruence. }
  rewrite !Hne by reflexivity. rewrite Hcc. replace (beqb (l_sep (s_lc s)) (str ",")) with false by (symmetry; apply beqb_neq; exact Hs).
  cbn [negb andb]. unfold load_zh_st. rewrite Hc1, (Hc _ H2), (Hc _ H3). cbn [orb load_strs].
  destruct (load_str s (e_zhs e ++ e_zht e)) as [s'| |]; cbn [bind fst snd]; auto. rewrite <- Hf. reflexivity.
Qed.

Lemma c22_spec : forall E c (l : lcfg E) d e w freq1 freq2, reachable c d -> wf_line E e -> wf_field E w -> l_sep l = [] -> l_nofreq l = true ->
  accepts l (fst (fst e)) (snd (fst e)) freq1 -> accepts l w (l_textfreq l) freq2 ->
  exists d', reader c l (line_text e ++ [x0a] ++ w ++ [x0a]) REof (Some d) = Ok (Some d') /\
    run_ops c d [OpAdd (fst (fst e)) freq1 (snd e); OpAdd w freq2 (snd e)] = Ok d'.
Proof.
  intros E c l d e w f1 f2 Hd He Hw Hl Hn H1 H2. apply reachable_inv in Hd.
  assert (Hs : forall n text src f, (n = 1 -> src = l_textfreq l) -> 1 <= n -> accepts l text src f -> size_freq l n text src = f /\ eqb64 E f (lit64 E 0 0) = false).
  { intros n text src f Hsrc Hn1 (Hz & Ha). split; [|exact Hz]. destruct n as [|n]; [lia|]. unfold size_freq. rewrite Hn, andb_false_r.
    replace (if S n <? 2 then l_textfreq l else src) with src by (destruct (Nat.ltb_spec (S n) 2); [apply Hsrc; lia|reflexivity]).
    destruct Ha as [->|(v & -> & Hv & [[G1 ->]|[G1 ->]])]; cbn [fst snd]; [reflexivity| |]; rewrite Hv; destruct (Nat.ltb_spec (length (runes_of text)) 2); auto; lia. }
  destruct (Hs 3 _ _ _ ltac:(discriminate) ltac:(lia) H1) as [<- K1]. destruct (Hs 1 _ _ _ (fun _ => eq_refl) ltac:(lia) H2) as [G2 K2].
  assert (Hg : size_freq l 1 w [] = f2) by (rewrite <- G2; reflexivity). rewrite <- Hg in *. apply c22; auto.
Qed.

Lemma c60_total : forall E c (l : lcfg E) data d, reachable c d -> exists d', reader c l data REof (Some d) = Ok (Some d').
Proof. intros E c l data d H. apply reader_total. apply reachable_inv. exact H. Qed.
Lemma c60_ln : forall E fuel c (l : lcfg E) t f p rs d, reachable c d -> reader_ln fuel c l RFail t f p rs (Some d) = Hang.
Proof. intros E fuel c l t f p rs d H. apply reader_ln_fail. apply reachable_inv. exact H. Qed.
Lemma c60_sep : forall E fuel c (l : lcfg E) s d, reachable c d -> reader_sep fuel c l RFail s (Some d) = Hang.
Proof. intros E fuel c l s d H. apply reader_sep_fail. apply reachable_inv. exact H. Qed.
