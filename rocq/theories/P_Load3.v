(** Reader with a separator; options and embedded dictionaries. *)
From Verif Require Import M_Load S_Load S_Split P_Utf8 P_Utf8b P_Str P_Split P_Dict P_Seg2 P_Hist P_Load P_Load2.
Set Implicit Arguments. Unset Strict Implicit.
Local Open Scope lit_scope.

Section Sep.
  Variable E : env.
  Definition sep_line (c : cfg) (l : lcfg E) (od : option (dict E)) (line : bytes) : res (option (dict E)) :=
    let s1 := split_str line (l_sep l ++ str " ") in
    let size := length s1 in
    let text := nth 0 s1 [] in
    let freqText := if 1 <? size then trim_space E (nth 1 s1 []) else [] in
    let freq := size_freq l size text freqText in
    let pos := if 2 <? size then trim_space E (trim_nl (nth 2 s1 [])) else [] in
    add_entry c od text freq pos.
  Lemma sep_line_ops : forall c l d line, exists es, sep_line_entries l line es /\
    sep_line c l (Some d) line = (do d' <- run_ops c d (map (@op_of E) es) ; Ok (Some d')).
  Proof.
    intros c l d line. unfold sep_line. set (s1 := split_str line (l_sep l ++ str " ")).
    set (text := nth 0 s1 []). set (ft := if 1 <? length s1 then trim_space E (nth 1 s1 []) else []).
    set (pos := if 2 <? length s1 then trim_space E (trim_nl (nth 2 s1 [])) else []).
    set (freq := size_freq l (length s1) text ft). rewrite add_entry_ops.
    assert (Hf : forall fs, fields (l_sep l ++ str " ") line fs <-> fs = s1) by (intro; apply fields_iff, sep_nonempty).
    assert (Hne : s1 <> []) by apply split_str_ne.
    assert (Hmain : forall e, sep_line_is l line e <-> (e = (text, freq, pos) /\ eqb64 E freq (lit64 E 0 0) = false)).
    { intros [[t f] p]. unfold sep_line_is. cbn [fst snd].
      assert (Hpos : match nth_error s1 2 with Some q => trimmed E q p | None => p = [] end <-> p = pos).
      { unfold pos. destruct (nth_error s1 2) as [q|] eqn:En.
        - assert (2 < length s1) by (apply nth_error_Some; congruence). destruct (Nat.ltb_spec 2 (length s1)); [|lia].
          rewrite (nth_error_nth _ _ [] En). rewrite trim_space_nl. apply trimmed_iff.
        - apply nth_error_None in En. destruct (Nat.ltb_spec 2 (length s1)); [lia|]. reflexivity. }
      assert (Hsrc : (2 <= length s1 \/ (length s1 = 1 /\ l_nofreq l = true)) \/ (length s1 = 1 /\ l_nofreq l = false)).
      { destruct s1 as [|a [|b s]]; [congruence| |left; left; cbn; lia]. cbn. destruct (l_nofreq l); auto. }
      destruct Hsrc as [Hsrc|[H1 H2]].
      - pose proof (size_accepts text ft Hsrc) as Hacc. cbv zeta in Hacc.
        assert (Hfs : forall src, freq_source l s1 src <-> src = (if length s1 <? 2 then l_textfreq l else ft)).
        { intro src. unfold freq_source, ft. destruct s1 as [|a [|b s]]; [congruence| |].
          - cbn in *. destruct Hsrc as [Hsrc|[_ ->]]; [lia|]. split; [tauto|auto].
          - cbn [length nth]. change (1 <? S (S (length s))) with true. change (S (S (length s)) <? 2) with false. apply trimmed_iff. }
        split.
        + intros (fs & src & G1 & G2 & G3 & G4 & G5). apply Hf in G1. subst fs. apply Hpos in G5. apply Hfs in G3. subst src.
          fold text in G2. subst t. apply Hacc in G4 as [-> G4]. fold freq in G4 |- *. subst p. auto.
        + intros [H1 H2]. inversion H1; subst t f p. exists s1, (if length s1 <? 2 then l_textfreq l else ft). refine (conj _ (conj eq_refl (conj _ (conj _ _)))).
          * apply Hf; reflexivity.
          * apply Hfs; reflexivity.
          * apply Hacc. auto.
          * apply Hpos; reflexivity.
      - split.
        + intros (fs & src & G1 & G2 & G3 & _). apply Hf in G1. subst fs. exfalso. destruct s1 as [|a [|b s]]; [congruence| |discriminate].
          cbn in G3. destruct G3; congruence.
        + intros [_ H3]. exfalso. unfold freq in H3. rewrite size_zero in H3 by auto. rewrite zero64_refl in H3. discriminate. }
    destruct (eqb64 E freq (lit64 E 0 0)) eqn:Ef.
    - exists []. split; [|reflexivity]. right. split; [|reflexivity]. intros e He. apply Hmain in He as [_ H]. discriminate.
    - exists [(text, freq, pos)]. split; [|reflexivity]. left. exists (text, freq, pos). split; [|reflexivity]. apply Hmain. auto.
  Qed.

  (** One iteration of the loop. *)
  Lemma reader_sep_step : forall f c l s od, reader_sep (S f) c l REof s od =
    let r := read_line s in
    if negb (snd (fst r)) && match nth 0 (split_str (fst (fst r)) (l_sep (E := E) l ++ str " ")) [] with [] => true | _ => false end then Ok od
    else do od' <- sep_line c l od (fst (fst r)) ; reader_sep f c l REof (snd r) od'.
  Proof.
    intros f c l s od. cbn [reader_sep]. cbv zeta. rewrite andb_true_r. destruct (_ && _); [reflexivity|]. unfold sep_line. cbv zeta.
    set (s1 := split_str _ _). replace (if length s1 =? 2 then [] else if 2 <? length s1 then trim_space E (trim_nl (nth 2 s1 [])) else []) with
      (if 2 <? length s1 then trim_space E (trim_nl (nth 2 s1 [])) else []); [reflexivity|].
    destruct (Nat.eqb_spec (length s1) 2) as [->|]; reflexivity.
  Qed.
  Lemma read_line_raw : forall x rest, ~ In x0a x -> read_line (x ++ [x0a] ++ rest) = (x ++ [x0a], true, rest).
  Proof.
    intros x rest. induction x as [|b x IH]; intro H; [reflexivity|]. cbn [app read_line]. destruct (Byte.eqb b x0a) eqn:Eb.
    - apply byte_eqb_eq in Eb. subst b. destruct H. left. reflexivity.
    - cbn [app] in IH. rewrite IH by (intro; apply H; right; assumption). reflexivity.
  Qed.
  Lemma read_line_last : forall x, ~ In x0a x -> read_line x = (x, false, []).
  Proof.
    intros x. induction x as [|b x IH]; intro H; [reflexivity|]. cbn [app read_line]. destruct (Byte.eqb b x0a) eqn:Eb.
    - apply byte_eqb_eq in Eb. subst b. destruct H. left. reflexivity.
    - rewrite IH by (intro; apply H; right; assumption). reflexivity.
  Qed.
  Lemma raw_exists : forall s, exists ls last, raw_lines s ls last.
  Proof.
    intro s. remember (length s) as n. revert s Heqn. induction n as [n IH] using lt_wf_ind. intros s ->.
    destruct (in_dec Byte.byte_eq_dec x0a s) as [Hi|Hi]; [|exists [], s; constructor; exact Hi].
    assert (H : exists x rest, s = x ++ [x0a] ++ rest /\ ~ In x0a x).
    { clear IH. induction s as [|b s IHs]; [destruct Hi|]. destruct (Byte.byte_eq_dec b x0a) as [->|Hb]; [exists [], s; split; [reflexivity|intros []]|].
      destruct Hi as [Hi|Hi]; [congruence|]. destruct (IHs Hi) as (x & rest & -> & Hx). exists (b :: x), rest. split; [reflexivity|]. intros [G|G]; [congruence|exact (Hx G)]. }
    destruct H as (x & rest & -> & Hx). destruct (IH (length rest)) with (s := rest) as (ls & last & Hr); [rewrite !app_length; cbn; lia|reflexivity|].
    eexists _, _. constructor; [exact Hx|exact Hr].
  Qed.
  Lemma raw_length : forall s ls last, raw_lines s ls last -> length ls <= length s.
  Proof. intros s ls last H. induction H; cbn [length]; [lia|]. rewrite !app_length. cbn. lia. Qed.

  Lemma split_nil : forall sep, sep <> [] -> split_str [] sep = [[]].
  Proof. intros sep H. symmetry. apply fields_iff; [exact H|]. constructor. intros i (u & v & Hc & _). symmetry in Hc. apply app_eq_nil in Hc as [_ Hc]. apply app_eq_nil in Hc as [Hc _]. congruence. Qed.

  Lemma reader_sep_ops : forall c l s ls last, raw_lines s ls last -> forall d fuel, dict_inv c d -> length ls + 1 < fuel ->
    exists ess es1, Forall2 (sep_line_entries l) ls ess /\
      (exists fs, fields (l_sep l ++ str " ") last fs /\ ((nth 0 fs [] = [] /\ es1 = []) \/ (nth 0 fs [] <> [] /\ sep_line_entries l last es1))) /\
      reader_sep fuel c l REof s (Some d) = (do d' <- run_ops c d (map (@op_of E) (concat ess ++ es1)) ; Ok (Some d')).
  Proof.
    intros c l s ls last H. induction H as [s Hs|x rest ls last Hx H IH]; intros d fuel Hd Hf.
    - destruct fuel as [|[|f]]; [cbn in Hf; lia..|]. cbn in Hf. rewrite reader_sep_step. cbv zeta. rewrite (read_line_last Hs). cbn [fst snd negb andb].
      pose proof (split_fields s (sep_nonempty (l:=l))) as Hsf. set (fs := split_str s _) in *.
      destruct (nth 0 fs []) as [|b t] eqn:En.
      + exists [], []. split; [constructor|]. split; [|reflexivity]. exists fs. auto.
      + destruct (sep_line_ops c l d s) as (es & E1 & E2). exists [], es. split; [constructor|]. split; [exists fs; split; [exact Hsf|right; split; [congruence|exact E1]]|].
        rewrite E2. cbn [concat app]. destruct (inv_run (map (@op_of E) es) Hd) as (d' & G1 & G2). rewrite G1. cbn [bind].
        rewrite reader_sep_step. cbv zeta. change (read_line []) with (@nil byte, false, @nil byte). cbn [fst snd negb andb]. rewrite split_nil by apply sep_nonempty. reflexivity.
    - destruct fuel as [|f]; [lia|]. rewrite reader_sep_step. cbv zeta. rewrite (read_line_raw rest Hx). cbn [fst snd negb andb].
      destruct (sep_line_ops c l d (x ++ [x0a])) as (es & E1 & E2). rewrite E2. destruct (inv_run (map (@op_of E) es) Hd) as (d' & G1 & G2). rewrite G1. cbn [bind].
      destruct (IH d' f G2) as (ess & es1 & I1 & I2 & I3); [cbn in Hf; lia|]. exists (es :: ess), es1. split; [constructor; assumption|]. split; [exact I2|].
      rewrite I3. cbn [concat]. rewrite <- app_assoc, (map_app _ es), run_ops_app, G1. reflexivity.
  Qed.
  Lemma reader_sep_adds : forall c (l : lcfg E) txt d, reachable c d -> l_sep l <> [] ->
    exists es d', sep_text_entries l txt es /\ run_ops c d (map (@op_of E) es) = Ok d' /\ reader c l txt REof (Some d) = Ok (Some d').
  Proof.
    intros c l txt d Hr Hl. apply reachable_inv in Hr. destruct (raw_exists txt) as (ls & last & H).
    destruct (@reader_sep_ops c l txt ls last H d (length txt + 2) Hr) as (ess & es1 & H1 & H2 & H3); [pose proof (raw_length H); lia|].
    destruct (inv_run (map (@op_of E) (concat ess ++ es1)) Hr) as (d' & G1 & G2). exists (concat ess ++ es1), d'. split; [exists ls, last, ess, es1; auto|]. split; [exact G1|].
    unfold reader. destruct (l_sep l); [congruence|]. rewrite H3, G1. reflexivity.
  Qed.
  Lemma sep_line_unique : forall l line e e', sep_line_is (E := E) l line e -> sep_line_is l line e' -> e = e'.
  Proof.
    intros l line [[t f] p] [[t' f'] p'] (fs & src & A1 & A2 & A3 & A4 & A5) (fs' & src' & B1 & B2 & B3 & B4 & B5). cbn [fst snd] in *.
    apply fields_iff in A1, B1; try apply sep_nonempty. subst fs fs'. set (fs := split_str _ _) in *.
    rewrite A2 in B2. subst t'.
    assert (src = src').
    { unfold freq_source in *. destruct fs as [|a [|b s]]; [destruct A3|destruct A3, B3; congruence|]. apply trimmed_iff in A3, B3. congruence. }
    subst src'. assert (p = p').
    { destruct (nth_error fs 2); [apply trimmed_iff in A5, B5|]; congruence. }
    subst p'. assert (f = f'); [|congruence].
    destruct A4 as [_ [H4|(v & H4 & _ & H6)]], B4 as [_ [G4|(v' & G4 & _ & G6)]]; try congruence.
    destruct H6 as [[? ?]|[? ?]], G6 as [[? ?]|[? ?]]; try lia; congruence.
  Qed.

  (** Well-formed lines. *)
  Notation wf_line := (wf_line E). Notation wf_field := (wf_field E).
  Lemma sep_first : forall sep f rest, ~ In x20 f -> ~ In x20 sep -> forall i, i < length f -> ~ occurs_at (sep ++ [x20]) (f ++ (sep ++ [x20]) ++ rest) i.
  Proof.
    intros sep f rest Hf Hs i Hi (u & v & H & Hu).
    assert (Hx : nth_error (f ++ (sep ++ [x20]) ++ rest) (i + length sep) = Some x20).
    { rewrite H, nth_error_app2 by lia. replace (i + length sep - length u) with (length sep) by lia. rewrite <- app_assoc, nth_error_app2, Nat.sub_diag by lia. reflexivity. }
    rewrite <- app_assoc, app_assoc, nth_error_app1 in Hx by (rewrite app_length; lia). apply nth_error_In in Hx. apply in_app_iff in Hx as [Hx|Hx]; auto.
  Qed.
  Lemma sep_none : forall sep s, ~ In x20 s -> forall i, ~ occurs_at (sep ++ [x20]) s i.
  Proof. intros sep s H i (u & v & -> & _). apply H. rewrite !in_app_iff. right. left. right. left. reflexivity. Qed.
  Lemma split_sep_line : forall l e tl, ~ In x20 (l_sep (E := E) l) -> wf_line e -> ~ In x20 tl ->
    split_str (sep_line_text (l_sep l) e ++ tl) (l_sep l ++ str " ") = [fst (fst e); snd (fst e); snd e ++ tl].
  Proof.
    intros l [[w f] p] tl Hl (Hw & Hf & Hp) Ht. cbn [fst snd] in *. change (str " ") with [x20]. symmetry. apply fields_iff; [intro H; apply app_eq_nil in H as [_ H]; discriminate|].
    assert (Hns : forall x, wf_field x -> ~ In x20 x) by (intros x Hx; apply (@wf_no_byte E); [exact Hx|reflexivity|reflexivity]).
    unfold sep_line_text. cbn [fst snd]. rewrite <- !app_assoc. rewrite (app_assoc (l_sep l) [x20] (f ++ _)). apply fields_cons; [apply sep_first; auto|].
    rewrite (app_assoc (l_sep l) [x20] (p ++ _)). apply fields_cons; [apply sep_first; auto|].
    apply fields_last. apply sep_none. intro Hi. apply in_app_iff in Hi as [Hi|Hi]; [apply (Hns p Hp Hi)|auto].
  Qed.
  Lemma sep_line_no_nl : forall sep e, ~ In x0a sep -> wf_line e -> ~ In x0a (sep_line_text sep e).
  Proof.
    intros sep [[w f] p] Hs (Hw & Hf & Hp). cbn [fst snd] in *.
    assert (Hns : forall x, wf_field x -> ~ In x0a x) by (intros x Hx; apply (@wf_no_byte E); [exact Hx|reflexivity|reflexivity]).
    unfold sep_line_text. cbn [fst snd]. rewrite !in_app_iff. pose proof (Hns w Hw). pose proof (Hns f Hf). pose proof (Hns p Hp). cbn [In].
    intros [Hi|[[Hi|[Hi|[]]]|[Hi|[[Hi|[Hi|[]]]|Hi]]]]; auto; discriminate.
  Qed.
  Lemma trim_field_nl : forall p, wf_field p -> trim_space E (trim_nl (p ++ [x0a])) = p.
  Proof.
    intros p Hp. rewrite trim_space_nl. rewrite <- (wf_trim Hp) at 2. unfold trim_space. f_equal. f_equal.
    rewrite units_sync by reflexivity. rewrite <- (app_nil_r (units [x0a])). rewrite (@trim_by_strip _ _ [] (units p) (units [x0a] ++ [])); [reflexivity|constructor|]. rewrite app_nil_r. repeat constructor.
  Qed.
  Lemma sep_line_wf : forall c l od e, ~ In x20 (l_sep l) -> wf_line e ->
    sep_line c l od (sep_line_text (l_sep l) e ++ [x0a]) = add_entry c od (fst (fst e)) (size_freq (E := E) l 3 (fst (fst e)) (snd (fst e))) (snd e) /\
    sep_line c l od (sep_line_text (l_sep l) e) = add_entry c od (fst (fst e)) (size_freq (E := E) l 3 (fst (fst e)) (snd (fst e))) (snd e) /\
    str_line c l od (sep_line_text (l_sep l) e) = add_entry c od (fst (fst e)) (size_freq (E := E) l 3 (fst (fst e)) (snd (fst e))) (snd e).
  Proof.
    intros c l od e Hl He. pose proof (split_sep_line (tl := [x0a]) Hl He) as S1. pose proof (split_sep_line (tl := []) Hl He) as S2. rewrite !app_nil_r in S2.
    unfold sep_line, str_line. rewrite S1 by (intros [H|[]]; discriminate). rewrite S2 by (intros []). destruct e as [[w f] p], He as (Hw & Hf & Hp). cbn [fst snd length nth] in *.
    change (1 <? 3) with true. change (2 <? 3) with true. cbv iota. rewrite (trim_field_nl Hp), trim_space_nl, !wf_trim by auto. auto.
  Qed.
  Lemma split_sep_file : forall sep es tl, ~ In x0a sep -> Forall wf_line es -> ~ In x0a tl -> split_str (sep_file_text sep es ++ tl) [x0a] = map (sep_line_text sep) es ++ [tl].
  Proof.
    intros sep es tl Hs H Ht. symmetry. apply fields_iff; [discriminate|]. induction H as [|e es He H IH].
    - cbn. apply fields_last. intros i Hi. apply occurs_byte in Hi. exact (Ht Hi).
    - unfold sep_file_text. cbn [map concat app]. rewrite <- !app_assoc. apply fields_cons; [|exact IH]. apply occurs_byte_first. apply sep_line_no_nl; assumption.
  Qed.
  Lemma reader_sep_file : forall c (l : lcfg E) es tl fuel od, ~ In x20 (l_sep l) -> ~ In x0a (l_sep l) -> Forall wf_line es -> (tl = [] \/ exists e, wf_line e /\ tl = sep_line_text (l_sep l) e) ->
    length es + 1 < fuel -> l_nofreq l = false ->
    reader_sep fuel c l REof (sep_file_text (l_sep l) es ++ tl) od = str_lines c l od (map (sep_line_text (l_sep l)) es ++ [tl]).
  Proof.
    intros c l es tl fuel od H1 H2 H3 H4 H5 H6. revert fuel od H5. induction H3 as [|e es He H3 IH]; intros fuel od H5.
    - destruct fuel as [|[|f]]; [cbn in H5; lia..|]. cbn [sep_file_text map concat app str_lines]. rewrite reader_sep_step. cbv zeta. destruct H4 as [->|(e & He & ->)].
      + change (read_line []) with (@nil byte, false, @nil byte). cbn [fst snd negb andb]. unfold str_line. rewrite split_nil by apply sep_nonempty. cbn. unfold add_entry. rewrite H6. cbn. rewrite zero64_refl. reflexivity.
      + rewrite read_line_last by (apply sep_line_no_nl; assumption). cbn [fst snd negb andb]. pose proof (split_sep_line (tl := []) H1 He) as S2. rewrite !app_nil_r in S2. rewrite S2 by (intros []). cbn [nth].
        destruct e as [[w fr] p]. cbn [fst]. pose proof He as ((Hn & _) & _). cbn [fst] in Hn. destruct w as [|b w]; [congruence|].
        destruct (sep_line_wf c od H1 He) as (_ & -> & ->). destruct (add_entry _ _ _ _ _); cbn [bind]; try reflexivity.
    - destruct fuel as [|f]; [lia|]. cbn [map app str_lines]. unfold sep_file_text. cbn [map concat]. rewrite <- !app_assoc. rewrite reader_sep_step. cbv zeta.
      rewrite read_line_raw by (apply sep_line_no_nl; assumption). cbn [fst snd negb andb]. destruct (sep_line_wf c od H1 He) as (-> & _ & ->).
      destruct (add_entry _ _ _ _ _); cbn [bind]; try reflexivity. apply IH. cbn in H5. lia.
  Qed.
  Lemma sep_file_length : forall sep es, length es <= length (sep_file_text sep es).
  Proof. intros sep es. unfold sep_file_text. induction es as [|e es IH]; [cbn; lia|]. cbn [map concat length]. rewrite !app_length. cbn [length]. lia. Qed.
  Lemma c59_sep : forall (s : seg E) es tl, s_dict s <> None -> l_sep (s_lc s) <> [] -> ~ In x20 (l_sep (s_lc s)) -> ~ In x0a (l_sep (s_lc s)) -> l_nofreq (s_lc s) = false ->
    Forall wf_line es -> (tl = [] \/ exists e, wf_line e /\ tl = sep_line_text (l_sep (s_lc s)) e) ->
    load_str s (sep_file_text (l_sep (s_lc s)) es ++ tl) =
      (do od <- reader (s_cfg s) (s_lc s) (sep_file_text (l_sep (s_lc s)) es ++ tl) REof (s_dict s) ; do od' <- calc_opt od ; Ok (set_dict s od')).
  Proof.
    intros s es tl Hd Hl H1 H2 Hn Hw Ht. unfold load_str, reader.
    assert (He : ensure_dict s = s) by (unfold ensure_dict; destruct (s_dict s); [reflexivity|congruence]).
    rewrite He. set (sp := l_sep (s_lc s)) in *. destruct sp as [|b sp'] eqn:Esp; [congruence|]. rewrite <- Esp in *. unfold sp.
    rewrite reader_sep_file by (auto; pose proof (sep_file_length (l_sep (s_lc s)) es); rewrite app_length; lia).
    fold sp. rewrite split_sep_file; auto. destruct Ht as [->|(e & He' & ->)]; [intros []|]. apply sep_line_no_nl; assumption.
  Qed.

  (** *** Lines of at most three fields *)
  Lemma scan_joined : forall fs rest, length fs <= 3 -> Forall wf_field fs ->
    exists err, err <> EEof /\ scan_fields E REof 3 0 (runes_of (joined fs ++ x0a :: rest)) = (fs, err, runes_of rest).
  Proof.
    intros fs rest Hl Hf. destruct fs as [|w [|f [|p [|]]]]; cbn [length] in Hl; try lia; cbn [joined app]; rewrite <- ?app_assoc; cbn [app]; rewrite <- ?app_assoc; cbn [app];
      rewrite ?runes_app_ascii by reflexivity; change (bz x20) with 32%Z; change (bz x0a) with 10%Z.
    - exists EOther. split; [discriminate|]. change (x0a :: rest) with ([] ++ x0a :: rest). rewrite runes_app_ascii by reflexivity. reflexivity.
    - inversion Hf; subst. exists EOther. split; [discriminate|]. rewrite (@scan_step E REof 2 0 w) by auto. reflexivity.
    - inversion Hf as [|? ? ? Hf2]; subst. inversion Hf2; subst. exists EOther. split; [discriminate|]. rewrite (@scan_step E REof 2 0 w) by auto. rewrite scan_space.
      rewrite (@scan_step E REof 1 1 f) by auto. reflexivity.
    - inversion Hf as [|? ? ? Hf2]; subst. inversion Hf2 as [|? ? ? Hf3]; subst. inversion Hf3; subst. exists ENone. split; [discriminate|].
      rewrite (@scan_step E REof 2 0 w) by auto. rewrite scan_space. rewrite (@scan_step E REof 1 1 f) by auto. rewrite scan_space. rewrite (@scan_step E REof 0 2 p) by auto. reflexivity.
  Qed.
  Lemma line_freq_size : forall (l : lcfg E) fs ft f, fs <> [] ->
    line_freq l fs f <-> (f = size_freq l (length fs) (nth 0 fs []) (nth 1 fs ft) /\ eqb64 E (size_freq l (length fs) (nth 0 fs []) (nth 1 fs ft)) (lit64 E 0 0) = false).
  Proof.
    intros l fs ft f Hn. destruct fs as [|w [|src fs]]; [congruence| |].
    - cbn [line_freq length nth]. destruct (l_nofreq l) eqn:En.
      + rewrite <- (@size_accepts E l 1 w ft); [cbn; tauto|right; auto].
      + rewrite size_zero by (right; auto). rewrite zero64_refl. split; intros [? ?]; discriminate.
    - cbn [line_freq length nth]. rewrite <- (@size_accepts E l (S (S (length fs))) w src) by (left; lia). reflexivity.
  Qed.
  Lemma reader_ln_lines : forall c (l : lcfg E) ls fuel t f p d, Forall (fun fs => length fs <= 3 /\ Forall wf_field fs) ls -> length ls < fuel -> dict_inv c d ->
    exists es d', ln_entries l p ls es /\ run_ops c d (map (@op_of E) es) = Ok d' /\ dict_inv c d' /\
      reader_ln fuel c l REof t f p (runes_of (lines_text ls)) (Some d) = Ok (Some d').
  Proof.
    intros c l ls; induction ls as [|fs ls IH]; intros fuel t f p d Hw Hf Hd; (destruct fuel as [|fuel]; [cbn in Hf; lia|]).
    - exists [], d. split; [constructor|]. split; [reflexivity|]. split; [exact Hd|]. reflexivity.
    - inversion Hw as [|? ? [W1 W2] W3]; subst. cbn [length] in Hf.
      assert (Ht : lines_text (fs :: ls) = joined fs ++ x0a :: lines_text ls) by (unfold lines_text; cbn [map concat]; rewrite <- app_assoc; reflexivity).
      rewrite Ht. cbn [reader_ln]. destruct (scan_joined (lines_text ls) W1 W2) as (err & He & Hs). rewrite Hs. cbn [fst snd]. clear Ht.
      set (freq := size_freq l (length fs) (nth 0 fs t) (nth 1 fs f)).
      assert (Hmain : exists es d', ln_entries l p (fs :: ls) es /\ run_ops c d (map (@op_of E) es) = Ok d' /\ dict_inv c d' /\
        (if eqb64 E freq (lit64 E 0 0) then reader_ln fuel c l REof (nth 0 fs t) (nth 1 fs f) (nth 2 fs p) (runes_of (lines_text ls)) (Some d)
         else do od' <- add_entry c (Some d) (nth 0 fs t) freq (if length fs =? 2 then [] else nth 2 fs p) ;
              reader_ln fuel c l REof (nth 0 fs t) (nth 1 fs f) (if length fs =? 2 then [] else nth 2 fs p) (runes_of (lines_text ls)) od') = Ok (Some d')).
      { destruct (eqb64 E freq (lit64 E 0 0)) eqn:Ez.
        - destruct (IH fuel (nth 0 fs t) (nth 1 fs f) (nth 2 fs p) d W3 ltac:(lia) Hd) as (es & d' & I1 & I2 & I3 & I4). exists es, d'. split; [|auto]. apply ln_skip; [|exact I1].
          intros g Hg. destruct fs as [|w fs]; [exact Hg|]. apply (@line_freq_size l (w :: fs) f) in Hg as [_ Hg]; [|discriminate]. unfold freq in Ez. cbn [nth] in *. congruence.
        - rewrite add_entry_ops, Ez. destruct fs as [|w fs]; [exfalso; unfold freq in Ez; cbn in Ez; rewrite zero64_refl in Ez; discriminate|].
          set (q := if length (w :: fs) =? 2 then [] else nth 2 (w :: fs) p). change (nth 0 (w :: fs) t) with w in *.
          destruct (@inv_run E c d [OpAdd w freq q] Hd) as (d1 & D1 & D2). rewrite D1. cbn [bind].
          destruct (IH fuel w (nth 1 (w :: fs) f) q d1 W3 ltac:(lia) D2) as (es & d' & I1 & I2 & I3 & I4). exists ((w, freq, q) :: es), d'.
          assert (Hlf : line_freq l (w :: fs) freq) by (apply (@line_freq_size l (w :: fs) f); [discriminate|]; split; [reflexivity|exact Ez]).
          split.
          + destruct fs as [|src [|q' [|]]]; cbn [length] in W1; try lia; unfold q in *; cbn [length nth Nat.eqb] in *; constructor; assumption.
          + split; [|auto]. cbn [map]. change (run_ops c d ((@op_of E) (w, freq, q) :: map (@op_of E) es)) with (run_ops c d ([OpAdd w freq q] ++ map (@op_of E) es)).
            rewrite run_ops_app, D1. exact I2. }
      destruct Hmain as (es & d' & M1 & M2 & M3 & M4). exists es, d'. split; [exact M1|]. split; [exact M2|]. split; [exact M3|]. rewrite <- M4. cbv zeta. fold freq. destruct err; [| congruence |]; reflexivity.
  Qed.
  Lemma lines_length : forall ls, length ls <= length (lines_text ls).
  Proof. intro ls. unfold lines_text. induction ls as [|x ls IH]; [cbn; lia|]. cbn [map concat length]. rewrite !app_length. cbn [length]. lia. Qed.
  Lemma c22_lines : forall c (l : lcfg E) ls d, reachable c d -> l_sep l = [] -> Forall (fun fs => length fs <= 3 /\ Forall wf_field fs) ls ->
    exists es d', ln_entries l [] ls es /\ run_ops c d (map (@op_of E) es) = Ok d' /\ reader c l (lines_text ls) REof (Some d) = Ok (Some d').
  Proof.
    intros c l ls d Hr Hl Hw. apply reachable_inv in Hr. unfold reader. rewrite Hl.
    destruct (@reader_ln_lines c l ls (length (lines_text ls) + 2) [] [] [] d Hw) as (es & d' & H1 & H2 & _ & H3); [pose proof (lines_length ls); lia|exact Hr|]. eauto.
  Qed.

  Lemma init_defaults : forall l : lcfg E, defaults l (init_lc l).
  Proof.
    intros [sp nf mn tf]. unfold defaults, init_lc. cbn [l_sep l_nofreq l_min l_textfreq]. split; [reflexivity|]. split; [reflexivity|].
    split; [intros ->; reflexivity|]. split; [intros ->; reflexivity|]. split; [intros ->; reflexivity|]. destruct tf; [congruence|reflexivity].
  Qed.
  Lemma load_str_defaults : forall (s s' : seg E) txt, load_str s txt = Ok s' -> match s_dict s with None => defaults (s_lc s) (s_lc s') | Some _ => s_lc s' = s_lc s end.
  Proof.
    intros s s' txt H. unfold load_str in H. apply bind_Ok in H as (od & _ & H). apply bind_Ok in H as (od' & _ & H). injection H as <-. cbn [s_lc set_dict].
    unfold ensure_dict. destruct (s_dict s); [reflexivity|]. apply init_defaults.
  Qed.
  Lemma load_map_defaults : forall (s s' : seg E) ms, load_map s ms = Ok s' -> match s_dict s with None => defaults (s_lc s) (s_lc s') | Some _ => s_lc s' = s_lc s end.
  Proof.
    intros s s' ms H. unfold load_map in H. apply bind_Ok in H as (od & _ & H). apply bind_Ok in H as (od' & _ & H). injection H as <-. cbn [s_lc set_dict].
    unfold ensure_dict. destruct (s_dict s); [reflexivity|]. apply init_defaults.
  Qed.
  Lemma read_files_lc : forall fs ps (s : seg E) r, read_files s fs ps = Ok r -> s_lc (fst r) = s_lc s.
  Proof.
    intros fs ps. induction ps as [|p ps IH]; intros s r H; cbn [read_files] in H; [injection H as <-; reflexivity|].
    apply bind_Ok in H as (r1 & H1 & H2). assert (H3 : s_lc (fst r1) = s_lc s).
    { unfold read_file in H1. destruct (fs p) as [[data fin]|]; [|injection H1 as <-; reflexivity]. apply bind_Ok in H1 as (od & _ & H1). injection H1 as <-. reflexivity. }
    destruct (snd r1); [injection H2 as <-; exact H3|]. rewrite (IH _ _ H2). exact H3.
  Qed.
  Lemma load_dict_defaults : forall (s s' : seg E) fs arg err, load_dict s fs arg = Ok (s', err) -> if s_load s then s_lc s' = s_lc s else defaults (s_lc s) (s_lc s').
  Proof.
    intros s s' fs arg err H. unfold load_dict in H. apply bind_Ok in H as (r & H1 & H2).
    assert (Hs : s_lc s' = s_lc (fst r)).
    { destruct (snd r); [injection H2 as ->; reflexivity|]. apply bind_Ok in H2 as (od & _ & H2). injection H2 as <- _. reflexivity. }
    apply read_files_lc in H1. rewrite Hs, H1. destruct (s_load s); [reflexivity|]. apply init_defaults.
  Qed.
End Sep.

(** *** LoadDictEmbed on lists that mention embedded dictionaries *)
Lemma load_strs_app : forall E xs ys (s : seg E), load_strs s (xs ++ ys) = (do s' <- load_strs s xs ; load_strs s' ys).
Proof. intros E xs ys. induction xs as [|x xs IH]; intro s; [reflexivity|]. cbn [app load_strs]. destruct (load_str s x) as [s'| |]; cbn [bind]; auto. Qed.
Lemma load_strs_if : forall E (b : bool) x (s : seg E), load_strs s (if b then [x] else []) = if b then load_str s x else Ok s.
Proof. intros E [|] x s; [|reflexivity]. cbn [load_strs]. destruct (load_str s x); reflexivity. Qed.
Lemma zh_st_strs : forall E e (s : seg E) d, load_zh_st e s d =
  (do s' <- load_strs s ((if contains d (str "zh,") then [e_zhs e ++ e_zht e] else []) ++ (if contains d (str "zh_s,") then [e_zhs e] else []) ++ (if contains d (str "zh_t,") then [e_zht e] else [])) ;
   Ok (s', if contains d (str "zh,") || contains d (str "zh_s,") || contains d (str "zh_t,") then 1 else 0)).
Proof.
  intros E e s d. unfold load_zh_st. rewrite !load_strs_app, !load_strs_if. destruct (if contains d (str "zh,") then _ else _) as [s1| |]; cbn [bind]; [|reflexivity..].
  rewrite load_strs_app, !load_strs_if. destruct (if contains d (str "zh_s,") then _ else _) as [s2| |]; cbn [bind]; [|reflexivity..]. rewrite load_strs_if. reflexivity.
Qed.
Lemma c62_list : forall E (e : embedded) (s : seg E) arg first names zh, l_sep (s_lc s) <> str "," -> fields (str ", ") arg (first :: names) -> names <> [] ->
  named e arg zh -> load_embed e s (Some arg) = load_strs s (match zh with [] => first :: names | _ => zh ++ names end).
Proof.
  intros E e s arg first names zh Hs Hf Hl (a & b & t & -> & Ha & Hb & Ht). apply fields_iff in Hf; [|discriminate].
  assert (Hcc : contains arg (str ", ") = true).
  { destruct (contains arg (str ", ")) eqn:Ec; [reflexivity|]. exfalso. unfold contains in Ec. destruct (index (str ", ") arg) eqn:Ei; [discriminate|].
    unfold split_str in Hf. destruct (length arg); cbn [split_fuel] in Hf; [congruence|]. rewrite Ei in Hf. congruence. }
  assert (Hpart : forall x txt l, part arg x txt l -> l = if contains arg x then [txt] else []).
  { intros x txt l [[(i & u & v & H & _) ->]|[H ->]].
    - replace (contains arg x) with true by (symmetry; apply contains_iff; eauto). reflexivity.
    - destruct (contains arg x) eqn:Ec; [|reflexivity]. apply contains_iff in Ec as (u & v & Hu). exfalso. apply (H (length u)). exists u, v; auto. }
  apply Hpart in Ha, Hb, Ht.
  unfold load_embed. assert (Hne : forall n, contains n (str ", ") = false -> beqb arg n = false).
  { intros n Hn. apply beqb_neq. intros ->. congruence. }
  rewrite !Hne by reflexivity. rewrite Hcc. replace (beqb (l_sep (s_lc s)) (str ",")) with false by (symmetry; apply beqb_neq; exact Hs).
  cbn [negb andb]. rewrite <- Hf, zh_st_strs. subst a b t.
  destruct (contains arg (str "zh,")), (contains arg (str "zh_s,")), (contains arg (str "zh_t,")); cbn [orb app]; cbv beta iota; [..|reflexivity];
    match goal with |- _ = load_strs s (?x1 :: ?x2 :: ?x3 :: names) => change (x1 :: x2 :: x3 :: names) with ([x1; x2; x3] ++ names) | |- _ = load_strs s (?x1 :: ?x2 :: names) => change (x1 :: x2 :: names) with ([x1; x2] ++ names) | |- _ = load_strs s (?x1 :: names) => change (x1 :: names) with ([x1] ++ names) | _ => idtac end;
    rewrite ?load_strs_app; destruct (load_strs s _) as [s'| |]; reflexivity.
Qed.
