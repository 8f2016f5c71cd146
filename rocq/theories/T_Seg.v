(** C01-C09, C50: shortest-path segmentation and its output. *)
From Verif Require Import S_Split S_Seg M_Out P_Seg2 P_Seg3 P_Out Ieee Demo T_Split.
Local Open Scope lit_scope.

(** *** A demo dictionary *)
Definition dict_of (c : cfg) (os : list (dop demo)) : dict demo :=
  match run_ops c (new_dict demo) os with Ok d => d | _ => new_dict demo end.
Definition add (w : bytes) (freq : Z) (pos : bytes) : dop demo := OpAdd (E := demo) w (lit_64 freq 0) pos.

Definition os1 : list (dop demo) :=
  [add (str "世界") 10 (str "n"); add (str "世") 20 (str "j"); add (str "你好世界") 2 (str "l"); add (str "你好") 5 (str "l");
   add (str "Hello") 3 (str "e"); OpCalc].
Definition d1 : dict demo := dict_of cfg0 os1.

Lemma dict_of_reachable : forall c os, reachable c (dict_of c os).
Proof.
  intros c os. exists os. unfold dict_of. destruct (run_ops_inv os (new_dict_inv demo c)) as (d & H & _).
  rewrite H. reflexivity.
Qed.
Lemma d1_reachable : reachable cfg0 d1.
Proof. apply dict_of_reachable. Qed.

(** C01: Segment/ModeSegment always succeed and the segments tile the (normalised) text; the only exception is
    search mode on a text of one word, where nothing is returned. *)
Theorem C01_segment_tiles : forall E c (d : dict E) s m, reachable c d ->
  exists segs, internal_segment c (Some d) s m = Ok segs /\
    ((m = true /\ segs = [] /\ exists w, split_words E c s = Ok [w]) \/ covers d (norm E c s) 0 (length s) segs).
Proof. exact c01. Qed.
Print Assumptions C01_segment_tiles.

Example C01_example : reachable cfg0 d1 /\
  internal_segment cfg0 (Some d1) (str "你好世界,HELLO") false =
    Ok [{| sg_start := 0; sg_end := 12; sg_tok := InDict 2 |};
        {| sg_start := 12; sg_end := 13; sg_tok := Fallback (str ",") |};
        {| sg_start := 13; sg_end := 18; sg_tok := InDict 4 |}].
Proof. split; [exact d1_reachable|vm_compute; reflexivity]. Qed.

(** Slice, Pos and String (both modes) neither panic nor run forever. *)
Theorem C01_outputs_total : forall E c (d : dict E) s m, reachable c d ->
  (exists l, seg_slice c (Some d) s m = Ok l) /\ (exists l, seg_pos c (Some d) s m = Ok l) /\
  (exists l, seg_string c (Some d) s m = Ok l).
Proof. exact out_total. Qed.
Print Assumptions C01_outputs_total.

(** C02: no tiling is shorter (in IEEE float32, summed left to right) than the one returned. In search mode: no tiling
    other than the whole text as a single word. *)
Theorem C02_segment_shortest : forall E c (d : dict E) s m ws segs, ar E = ieee -> reachable c d ->
  (forall w v t, dict_value d w = Some v -> nth_error (d_tokens d) v = Some t ->
                 ltb32 E (lit32 E 0 0) (t_dist t) = true) ->
  split_words E c s = Ok ws -> internal_segment c (Some d) s m = Ok segs -> (m = true -> 2 <= length ws) ->
  tiling d ws (map sg_tok segs) /\
  forall rs, tiling d ws rs -> (m = true -> length rs <> 1) -> ltb32 E (cost d rs) (cost d (map sg_tok segs)) = false.
Proof. exact c02. Qed.
Print Assumptions C02_segment_shortest.

Lemma d1_positive : forall w v t, dict_value d1 w = Some v -> nth_error (d_tokens d1) v = Some t ->
  ltb32 demo (lit32 demo 0 0) (t_dist t) = true.
Proof.
  intros w v t _ H.
  assert (HF : forallb (fun t => ltb32 demo (lit32 demo 0 0) (t_dist t)) (d_tokens d1) = true) by (vm_compute; reflexivity).
  rewrite forallb_forall in HF. apply HF. eapply nth_error_In. exact H.
Qed.

(** The greedy tiling 世界 + 你 + 好 etc. loses against 你好世界; the returned tiling is one of several. *)
Example C02_example : ar demo = ieee /\ reachable cfg0 d1 /\
  split_words demo cfg0 (str "你好世界") = Ok (map str ["你"; "好"; "世"; "界"]) /\
  internal_segment cfg0 (Some d1) (str "你好世界") false = Ok [{| sg_start := 0; sg_end := 12; sg_tok := InDict 2 |}] /\
  tiling d1 (map str ["你"; "好"; "世"; "界"]) [InDict 3; InDict 1; Fallback (str "界")].
Proof.
  split; [reflexivity|]. split; [exact d1_reachable|]. split; [vm_compute; reflexivity|]. split; [vm_compute; reflexivity|].
  exists [map str ["你"; "好"]; [str "世"]; [str "界"]]. split; [reflexivity|].
  constructor; [apply piece_dict; [discriminate|vm_compute; reflexivity]|].
  constructor; [apply piece_dict; [discriminate|vm_compute; reflexivity]|].
  constructor; [apply piece_fallback; vm_compute; reflexivity|constructor].
Qed.

(** C03: with a path length of 0 the claim fails: the one-word dictionary {世界} does not find its word. *)
Definition os2 : list (dop demo) := [add (str "世界") 10 (str "n"); OpCalc].
Theorem C03_zero_distance_refuted : exists c (d : dict demo) s ws segs rs, reachable c d /\
  split_words demo c s = Ok ws /\ internal_segment c (Some d) s false = Ok segs /\ tiling d ws rs /\
  ltb32 demo (cost d rs) (cost d (map sg_tok segs)) = true.
Proof.
  exists cfg0, (dict_of cfg0 os2), (str "世界"), (map str ["世"; "界"]),
    [{| sg_start := 0; sg_end := 3; sg_tok := Fallback (str "世") |};
     {| sg_start := 3; sg_end := 6; sg_tok := Fallback (str "界") |}], [InDict 0].
  split; [apply dict_of_reachable|]. split; [vm_compute; reflexivity|]. split; [vm_compute; reflexivity|]. split.
  - exists [map str ["世"; "界"]]. split; [reflexivity|]. constructor; [|constructor].
    apply piece_dict; [discriminate|vm_compute; reflexivity].
  - vm_compute. reflexivity.
Qed.
Print Assumptions C03_zero_distance_refuted.

(** C04 *)
Theorem C04_search_splits : forall E c (d : dict E) s segs, reachable c d -> internal_segment c (Some d) s true = Ok segs ->
  length segs <> 1 /\
  (forall ws, split_words E c s = Ok ws -> (length ws <= 1 -> segs = []) /\ (2 <= length ws -> 2 <= length segs)).
Proof. exact c04. Qed.
Print Assumptions C04_search_splits.

Example C04_example : internal_segment cfg0 (Some d1) (str "你好世界") true =
  Ok [{| sg_start := 0; sg_end := 6; sg_tok := InDict 3 |}; {| sg_start := 6; sg_end := 12; sg_tok := InDict 0 |}].
Proof. vm_compute. reflexivity. Qed.

(** C05 *)
Theorem C05_slice_preserves_text : forall E c (d : dict E) s, reachable c d ->
  exists l, seg_slice c (Some d) s false = Ok l /\ cut_default c (Some d) s = Ok l /\ concat l = norm E c s /\
    (c_lower c = false -> concat l = s) /\ Forall (fun w => w <> []) l.
Proof. exact c05. Qed.
Print Assumptions C05_slice_preserves_text.

Example C05_example : seg_slice cfg0 (Some d1) (str "Hello你好世啊") false = Ok (map str ["hello"; "你好"; "世"; "啊"]).
Proof. vm_compute. reflexivity. Qed.

(** C06 *)
Theorem C06_segments_are_words : forall E c (d : dict E) s m segs, reachable c d -> internal_segment c (Some d) s m = Ok segs ->
  Forall (fun sg => exists t, deref d (sg_tok sg) = Ok t /\
     ((exists v, sg_tok sg = InDict v /\ dict_value d (concat (t_text t)) = Some v /\
                 dict_find d (concat (t_text t)) = Ok (t_freq t, t_pos t, true)) \/
      (exists w, sg_tok sg = Fallback w /\ t = fallback_token E w /\ dict_value d w = None))) segs.
Proof. exact c06. Qed.
Print Assumptions C06_segments_are_words.

Example C06_example : (forall E w, fallback_token E w =
  {| t_text := [w]; t_freq := lit64 E 1 0; t_pos := str "x"; t_dist := lit32 E 32 0; t_segs := [] |}) /\
  seg_pos cfg0 (Some d1) (str "世界啊") false = Ok [(str "世界", str "n"); (str "啊", str "x")].
Proof. split; [intros; reflexivity|vm_compute; reflexivity]. Qed.

(** C07: changing AlphaNum between loading and segmenting. *)
Definition os3 : list (dop demo) := [add (str "ab") 10 (str "n"); add (str "你好") 10 (str "n"); OpCalc].
Theorem C07_alphanum_toggle_refuted :
  (exists c c' (d : dict demo) s, reachable c d /\ c' = {| c_alphanum := false; c_alpha := c_alpha c; c_num := c_num c; c_lower := c_lower c |} /\
     internal_segment c' (Some d) s false = Panic) /\
  (exists c c' (d : dict demo) s segs, reachable c d /\ c' = {| c_alphanum := true; c_alpha := c_alpha c; c_num := c_num c; c_lower := c_lower c |} /\
     internal_segment c' (Some d) s false = Ok segs /\ ~ covers d (norm demo c' s) 0 (length s) segs).
Proof.
  split.
  - exists cfg_an, cfg0, (dict_of cfg_an os3), (str "ab").
    split; [apply dict_of_reachable|]. split; [reflexivity|]. vm_compute. reflexivity.
  - exists cfg0, cfg_an, (dict_of cfg0 os3), (str "ab"),
      [{| sg_start := 0; sg_end := 2; sg_tok := InDict 0 |}; {| sg_start := 2; sg_end := 3; sg_tok := Fallback (str "b") |}].
    split; [apply dict_of_reachable|]. split; [reflexivity|]. split; [vm_compute; reflexivity|].
    intro H. inversion H as [|? mid ? ? ? ? ? H2 ? ? ? Hc]; subst. cbn in Hc.
    inversion Hc as [|? mid' ? ? ? ? ? H2' ? ? ? Hc']; subst. cbn in Hc'. inversion Hc'.
Qed.
Print Assumptions C07_alphanum_toggle_refuted.

(** C08 *)
Theorem C08_subsegments_well_founded : forall E c (d : dict E) t, reachable c d -> In t (d_tokens d) ->
  Forall (fun s => exists t', deref d (sg_tok s) = Ok t' /\
                   0 < length (concat (t_text t')) < length (concat (t_text t))) (t_segs t) /\
  subs_ok d t /\
  (exists l, forall f, length (concat (t_text t)) < f -> token_to_slice f d t = Ok l) /\
  (exists l, forall f, length (concat (t_text t)) < f -> token_to_pos f d t = Ok l) /\
  (exists l, forall f, length (concat (t_text t)) < f -> token_to_string f d t = Ok l).
Proof. exact c08. Qed.
Print Assumptions C08_subsegments_well_founded.

(** After CalcToken every word of at least two units has sub-segments, those of a tiling that are not single kana units. *)
Theorem C08_subsegments_after_calc : forall E c (d d' : dict E) t, reachable c d -> calc_token d = Ok d' -> In t (d_tokens d') -> subs_full d' t.
Proof.
  intros E c d d' t Hr Hc Ht. apply reachable_inv in Hr. pose proof (calc_token_full (inv_ok Hr) Hc) as H. rewrite Forall_forall in H. auto.
Qed.
Print Assumptions C08_subsegments_after_calc.

Theorem C08_subsegments_cover : forall E (d : dict E) t, subs_ok d t -> t_segs t <> [] ->
  (forall s t', deref d (sg_tok s) = Ok t' -> kept d s = true) ->
  covers d (concat (t_text t)) 0 (length (concat (t_text t))) (t_segs t).
Proof. exact c08_concat. Qed.
Print Assumptions C08_subsegments_cover.

Example C08_example : map (fun t => t_segs t) (d_tokens d1) =
  [[{| sg_start := 0; sg_end := 3; sg_tok := InDict 1 |}; {| sg_start := 3; sg_end := 6; sg_tok := Fallback (str "界") |}];
   [];
   [{| sg_start := 0; sg_end := 6; sg_tok := InDict 3 |}; {| sg_start := 6; sg_end := 12; sg_tok := InDict 0 |}];
   [{| sg_start := 0; sg_end := 3; sg_tok := Fallback (str "你") |}; {| sg_start := 3; sg_end := 6; sg_tok := Fallback (str "好") |}];
   []] /\
  seg_slice cfg0 (Some d1) (str "我你好世界") true =
    Ok (map str ["我"; "你好"; "世界"; "你好世界"]).
Proof. split; vm_compute; reflexivity. Qed.

(** C09: [rmap f] applies f to the result of a successful call. *)
Theorem C09_slice_is_pos_texts : forall E fuel (d : dict E) segs m, to_slice fuel d segs m = rmap (map fst) (to_pos fuel d segs m).
Proof. exact c09_slice. Qed.
Print Assumptions C09_slice_is_pos_texts.
Theorem C09_string_renders_pos : forall E fuel (d : dict E) segs m,
  to_string fuel d segs m = rmap (flat_map (fun tp => fst tp ++ str "/" ++ snd tp ++ str " ")) (to_pos fuel d segs m).
Proof. exact c09_string. Qed.
Print Assumptions C09_string_renders_pos.
Theorem C09_search_extends_normal : forall E fuel (d : dict E) segs l', to_pos fuel d segs true = Ok l' ->
  exists l, to_pos fuel d segs false = Ok l /\ subseq l l'.
Proof. exact c09_subseq. Qed.
Print Assumptions C09_search_extends_normal.

Example C09_example : seg_string cfg0 (Some d1) (str "我你好世界") true = Ok (str "我/x 你好/l 世界/n 你好世界/l ") /\
  seg_pos cfg0 (Some d1) (str "我你好世界") true =
    Ok [(str "我", str "x"); (str "你好", str "l"); (str "世界", str "n"); (str "你好世界", str "l")].
Proof. split; vm_compute; reflexivity. Qed.

(** C50 *)
Theorem C50_join_is_concat : forall text, join text = concat text.
Proof. exact join_eq. Qed.
Print Assumptions C50_join_is_concat.
Theorem C50_equals : forall text s, exists b, token_equals text s = Ok b /\ (b = true <-> s = concat text).
Proof. exact token_equals_iff. Qed.
Print Assumptions C50_equals.

Example C50_example : join (map str ["a"; "bc"; ""; "世"; "d"]) = str "abc世d" /\ token_equals (map str ["a"; "bc"]) (str "abd") = Ok false.
Proof. split; vm_compute; reflexivity. Qed.
