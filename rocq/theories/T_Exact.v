(** C86, C87: without rounding. *)
From Verif Require Import S_Dict S_Split S_Dag S_Exact P_Dict P_Seg2 P_Hist P_Dag2 P_Exact P_Exact2 P_Idf M_Out Ieee Demo T_Split T_Seg T_Hmm T_Dag T_Dict.
From Coq Require Import Reals Lra.
From Flocq Require Import Core BinarySingleNaN.
Local Open Scope lit_scope.

(** Without rounding, the frequency SuggestFreq proposes for a word is enough: once the word is added with it (or, if it is already
    there, added again with it) the cutters keep the word in one piece, with and without the hidden Markov model. *)
Theorem C86_suggested_word_is_kept : forall (E : env) (val : f64 E -> option R) c (d d' : dict E) w f pos, exact val -> reachable c d -> sound_freqs val d ->
  own_spelling E c w -> no_ascii_pair w -> suggest_freq d c [w] = Ok f ->
  match dict_value d w with None => seg_add_token c d w f pos = Ok d' | Some _ => seg_readd_token c d w f pos = Ok (d', false) end ->
  (forall em, cut d' c em w (Some false) = Ok [w]) /\
  (forall em reg, Forall (fun f => wf_matcher f /\ nonempty_matcher f) reg -> cut_dag d' c em w reg = Ok [w]).
Proof.
  intros E val c d d' w f pos X Hr Hs Hw Hp Hf H. pose proof (reachable_inv Hr) as Hi. assert (C : changed c d w f d').
  { destruct Hw as (_ & Hn & _). destruct (dict_value d w) as [v|] eqn:Hv.
    - apply (readded_changed Hi Hn Hr (d' := d') (e := false) (pos := pos)); [rewrite Hv; discriminate|exact H].
    - apply (added_changed Hi Hn (pos := pos) Hv H). }
  destruct C as (C1 & C2 & C3 & C4). split; intros; [exact (joined X Hi C1 Hs Hw Hf Hp C2 C3 C4)|exact (joined_hmm X Hi C1 Hs Hw Hf Hp C2 C3 C4 em H0)].
Qed.
Print Assumptions C86_suggested_word_is_kept.

(** In float64 the same on an example: 7 is proposed for 你好世界. *)
Definition os_86 : list (dop demo) := [add (str "你好") 12 (str "l"); add (str "世界") 12 (str "n")].
Definition d_86 : dict demo := dict_of cfg0 os_86.
Definition cut_with (d : dict demo) (ws : list bytes) (again : bool) : res (list bytes) :=
  let w := concat ws in
  do f <- suggest_freq d cfg0 ws ;
  do d' <- (if again then do r <- seg_readd_token cfg0 d w f [] ; Ok (fst r) else seg_add_token cfg0 d w f []) ;
  cut d' cfg0 demo_emit w (Some false).
Example C86_ex : cut d_86 cfg0 demo_emit (str "你好世界") (Some false) = Ok (map str ["你好"; "世界"]) /\
  is_freq (suggest_freq d_86 cfg0 [str "你好世界"]) 7 = true /\ cut_with d_86 [str "你好世界"] false = Ok [str "你好世界"].
Proof. repeat split; vm_compute; reflexivity. Qed.

(** Not with neighbouring ASCII letters or digits: SuggestFreq looks up the letters as the cutter prints them, joined to ab. *)
Definition os_86a : list (dop demo) := [add (str "a") 10 (str "x"); add (str "b") 10 (str "x"); add (str "好") 10 (str "a")].
Theorem C86_ascii_letters_refuted : exists (d : dict demo) w, reachable cfg0 d /\ own_spelling demo cfg0 w /\ dict_value d w = None /\
  is_freq (suggest_freq d cfg0 [w]) 1 = true /\ cut_with d [w] false = Ok (map str ["ab"; "好"]).
Proof.
  exists (dict_of cfg0 os_86a), (str "ab好"). split; [apply dict_of_reachable|]. split; [split; [discriminate|split; vm_compute; reflexivity]|].
  repeat split; vm_compute; reflexivity.
Qed.
Print Assumptions C86_ascii_letters_refuted.

(** The frequency proposed for cutting a word in two is not low enough: AddToken ignores it, ReAddToken adds it to the total without
    taking the old one off, which makes every other way to cut less likely. *)
Definition os_86b : list (dop demo) := [add (str "你好") 12 (str "l"); add (str "世界") 12 (str "n"); add (str "你好世界") 12 (str "n")].
Theorem C86_suggested_parts_refuted : exists (d : dict demo) w1 w2, reachable cfg0 d /\ pos_word d w1 /\ pos_word d w2 /\ pos_word d (w1 ++ w2) /\
  own_spelling demo cfg0 (w1 ++ w2) /\ no_ascii_pair (w1 ++ w2) /\
  is_freq (suggest_freq d cfg0 [w1; w2]) 4 = true /\ cut_with d [w1; w2] false = Ok [w1 ++ w2] /\ cut_with d [w1; w2] true = Ok [w1 ++ w2].
Proof.
  exists (dict_of cfg0 os_86b), (str "你好"), (str "世界"). split; [apply dict_of_reachable|].
  assert (St : forall w v, dict_value (dict_of cfg0 os_86b) w = Some v ->
    match nth_error (d_tokens (dict_of cfg0 os_86b)) v with Some t => ltb64 demo (lit64 demo 0 0) (t_freq t) | None => false end = true ->
    pos_word (dict_of cfg0 os_86b) w).
  { intros w v H1 H2. destruct (nth_error (d_tokens (dict_of cfg0 os_86b)) v) as [t|] eqn:Et; [|discriminate]. exists (t_freq t). split; [exists v, t; auto|exact H2]. }
  split; [apply (St _ 0); vm_compute; reflexivity|]. split; [apply (St _ 1); vm_compute; reflexivity|]. split; [apply (St _ 2); vm_compute; reflexivity|].
  split; [split; [discriminate|split; vm_compute; reflexivity]|]. split; [|repeat split; vm_compute; reflexivity].
  intros l a b r H. replace (runes_of (str "你好" ++ str "世界")) with [20320; 22909; 19990; 30028]%Z in H by (vm_compute; reflexivity).
  destruct l as [|? [|? [|? [|? l]]]]; cbn [app] in H; try (injection H as <- <- <-; reflexivity); try discriminate. destruct l; discriminate.
Qed.
Print Assumptions C86_suggested_parts_refuted.

(** Exact arithmetic exists, and the theorem applies to dictionaries over it. *)
Definition xlt (x y : option R) : bool :=
  match x, y with Some a, Some b => if Rlt_dec a b then true else false | None, Some _ => true | _, None => false end.
Definition xeq (x y : option R) : bool :=
  match x, y with Some a, Some b => if Req_EM_T a b then true else false | None, None => true | _, _ => false end.
Definition xop (f : R -> R -> R) (x y : option R) : option R := match x, y with Some a, Some b => Some (f a b) | _, _ => None end.
Lemma xlt_irr : forall a : R, xlt (Some a) (Some a) = false.
Proof. intro a. unfold xlt. destruct (Rlt_dec a a); [lra|reflexivity]. Qed.
Lemma xeq_refl : forall x, xeq x x = true.
Proof. intros [a|]; [|reflexivity]. unfold xeq. destruct (Req_EM_T a a); [reflexivity|congruence]. Qed.
Definition xlit (m e : Z) : option R := Some (IZR m * powerRZ 2 e)%R.
Definition xarith : arith := {|
  f64 := option R; f32 := option R; lit64 := xlit; add64 := xop Rplus; sub64 := xop Rminus; mul64 := xop Rmult; div64 := xop Rdiv;
  ltb64 := xlt; eqb64 := xeq; trunc64 := fun x => match x with Some a => Some (IZR (Int_part a)) | None => None end;
  lit32 := xlit; add32 := xop Rplus; sub32 := xop Rminus; ltb32 := xlt; eqb32 := xeq; to32 := fun x => x;
  zero32_refl := xeq_refl (xlit 0 0); zero64_refl := xeq_refl (xlit 0 0); zero64_irr := xlt_irr _ |}.
Definition xln (x : option R) : option R := match x with Some a => if Rlt_dec 0 a then Some (ln a) else None | None => None end.
Definition xlog2 (x : option R) : option R := match xln x with Some a => Some (a / ln 2)%R | None => None end.
Definition xdemo : env := {| ar := xarith; u_letter := u_letter demo; u_number := u_number demo; u_space := u_space demo; u_punct := u_punct demo;
  u_symbol := u_symbol demo; u_lower := u_lower demo; u_han := u_han demo; u_kana := u_kana demo; u_script := u_script demo;
  m_log := xln : f64 xarith -> f64 xarith; m_log2 := xlog2 : f64 xarith -> f64 xarith; parse_float := fun _ => (xlit 0 0 : f64 xarith, true);
  q_drop := q_drop demo; q_eof := q_eof demo |}.
Lemma C86_exact_exists : exact (E := xdemo) (fun x : option R => x).
Proof.
  split.
  - reflexivity.
  - intros [a|] [b|]; reflexivity.
  - intros [a|] y b ->; reflexivity.
  - intros x y ->; reflexivity.
  - intros x y a b -> ->; reflexivity.
  - intros x y a b -> -> _; reflexivity.
  - intros x y. change (xlt x y = true <-> match x, y with Some a, Some b => (a < b)%R | None, Some _ => True | _, None => False end).
    destruct x as [a|], y as [b|]; cbn [xlt]; try (split; [discriminate|tauto]); try tauto. destruct (Rlt_dec a b); split; auto; try discriminate; tauto.
  - intros x y. change (xeq x y = true <-> x = y). destruct x as [a|], y as [b|]; cbn [xeq]; try (split; discriminate); try tauto.
    destruct (Req_EM_T a b) as [->|K]; split; auto; try discriminate. intro H. injection H as H. contradiction.
  - intros x a -> _. exists (Int_part a). split; [reflexivity|]. pose proof (base_Int_part a). lra.
  - intros x a -> H. change (xln (Some a) = Some (ln a)). unfold xln. destruct (Rlt_dec 0 a); [reflexivity|contradiction].
  - intros x ->. change (xln (Some 0%R) = None). unfold xln. destruct (Rlt_dec 0 0); [lra|reflexivity].
Qed.

Definition os_x (x y : f64 xdemo) : list (dop xdemo) := [OpAdd (E := xdemo) (str "你好") x []; OpAdd (E := xdemo) (str "世界") y []].
(** Whatever the two frequencies. *)
Example C86_ex_exact : forall (x y : R) d, (0 < x)%R -> (0 < y)%R -> run_ops cfg0 (new_dict xdemo) (os_x (Some x) (Some y)) = Ok d ->
  exists f d', suggest_freq d cfg0 [str "你好世界"] = Ok f /\ seg_add_token cfg0 d (str "你好世界") f [] = Ok d' /\
    forall em, cut d' cfg0 em (str "你好世界") (Some false) = Ok [str "你好世界"].
Proof.
  intros x y d Hx Hy Hd. assert (Hr : reachable cfg0 d) by (eexists; exact Hd).
  destruct (C15_counters xdemo cfg0 _ d Hd) as (_ & K1 & _ & K2). cbv zeta in *.
  assert (Ke : effective_ops cfg0 (new_dict xdemo) (os_x (Some x) (Some y)) = [(map str ["你"; "好"], Some x, []); (map str ["世"; "界"], Some y, [])]) by (vm_compute; reflexivity).
  rewrite Ke in *. cbn [map fst snd fold_left] in K1.
  assert (Hv : dict_value d (str "你好世界") = None).
  { assert (Hd2 : match run_ops cfg0 (new_dict xdemo) (os_x (Some x) (Some y)) with Ok d => dict_value d (str "你好世界") | _ => None end = None) by (vm_compute; reflexivity).
    rewrite Hd in Hd2. exact Hd2. }
  assert (Hs : sound_freqs (E := xdemo) (fun x : option R => x) d).
  { split.
    - intros w f (v & t & _ & H2 & H3). apply (map_nth_error (@info xdemo)) in H2. rewrite K2 in H2. unfold info in H2. rewrite H3 in H2.
      destruct v as [|[|v]]; cbn [nth_error] in H2.
      + injection H2 as _ <- _. exists x. split; [reflexivity|lra].
      + injection H2 as _ <- _. exists y. split; [reflexivity|lra].
      + destruct v; discriminate.
    - rewrite K1. exists (0 * 1 + x + y)%R. split; [reflexivity|lra]. }
  assert (Hw : own_spelling xdemo cfg0 (str "你好世界")) by (split; [discriminate|split; vm_compute; reflexivity]).
  assert (Hp : no_ascii_pair (str "你好世界")).
  { intros l a b r H. replace (runes_of (str "你好世界")) with [20320; 22909; 19990; 30028]%Z in H by (vm_compute; reflexivity).
    destruct l as [|? [|? [|? [|? l]]]]; cbn [app] in H; try (injection H as <- <- <-; reflexivity); try discriminate. destruct l; discriminate. }
  destruct (@suggests xdemo cfg0 d cfg0 (str "你好世界") Hr) as (f & Hf). destruct (adds cfg0 d (str "你好世界") f []) as (d' & Ha). exists f, d'. split; [exact Hf|]. split; [exact Ha|].
  assert (Hc : match dict_value d (str "你好世界") with None => seg_add_token cfg0 d (str "你好世界") f [] = Ok d' | Some _ => seg_readd_token cfg0 d (str "你好世界") f [] = Ok (d', false) end)
    by (rewrite Hv; exact Ha).
  exact (proj1 (C86_suggested_word_is_kept xdemo _ cfg0 d d' _ f [] C86_exact_exists Hr Hs Hw Hp Hf Hc)).
Qed.

(** Without rounding, Segment (Slice) returns the most probable way to read the text: no other one has a larger product of relative
    frequencies. *)
Theorem C87_most_probable : forall (E : env) (val : f64 E -> option R) (val32 : f32 E -> option R) c (d0 d : dict E) t s ws,
  exact32 val val32 -> reachable c d0 -> calc_token d0 = Ok d -> val (d_total d) = Some t ->
  (forall w f, stored d w f -> exists a, val f = Some a /\ (0 < a < t)%R) -> split_words E c s = Ok ws ->
  exists qs r, seg_slice c (Some d) s false = Ok qs /\ likely val d t ws qs r /\ forall qs' r', likely val d t ws qs' r' -> (r' <= r)%R.
Proof. intros E val val32 c d0 d t s ws X Hr Hc Ht Hs Hw. exact (most_probable X Hr Hc Ht Hs Hw). Qed.
Print Assumptions C87_most_probable.

(** In float32 not: with 甲 10000, 乙丙 10000, 甲乙 9999, 丙 10001 the better reading of 甲乙丙 is 甲|乙丙, the one returned is 甲乙|丙. *)
Definition os_87 : list (dop demo) := [add (str "甲") 10000 []; add (str "乙丙") 10000 []; add (str "甲乙") 9999 []; add (str "丙") 10001 []].
Definition d0_87 : dict demo := dict_of cfg0 os_87.
Definition d_87 : dict demo := dict_of cfg0 (os_87 ++ [@OpCalc demo]).
Lemma dict_of_calc : forall c os, calc_token (dict_of c os) = Ok (dict_of c (os ++ [@OpCalc demo])).
Proof.
  intros c os. unfold dict_of. rewrite run_ops_app. destruct (run_ops_inv os (new_dict_inv demo c)) as (d & H & Hd). rewrite H. cbn [bind run_ops run_op].
  destruct (run_ops_inv [@OpCalc demo] Hd) as (d' & H' & _). cbn [bind run_ops run_op] in H'. destruct (calc_token d); cbn [bind] in *; congruence.
Qed.
Definition real (x : f64 demo) : option R := Some (@B2R 53 1024 x).
Lemma real_lit : forall x n, (0 <= n <= 2 ^ 53)%Z -> @is_finite 53 1024 x = true -> eqb64 demo x (lit64 demo n 0) = true -> real x = Some (IZR n).
Proof.
  intros x n Hn Hf H. change (@Beqb 53 1024 x (lit_64 n 0) = true) in H. destruct (lit_int Hn) as (H1 & H2 & _). rewrite Beqb_correct in H by assumption. rewrite H1 in H.
  unfold real. f_equal. destruct (Req_bool_spec (@B2R 53 1024 x) (IZR n)); [assumption|discriminate].
Qed.
Lemma stored_87 : forall w v n, (0 <= n <= 2 ^ 53)%Z -> dict_value d_87 w = Some v ->
  match nth_error (d_tokens d_87) v with Some t => @is_finite 53 1024 (t_freq t) && eqb64 demo (t_freq t) (lit64 demo n 0) | None => false end = true ->
  exists f, stored d_87 w f /\ real f = Some (IZR n).
Proof.
  intros w v n Hn H1 H2. destruct (nth_error (d_tokens d_87) v) as [t|] eqn:Et; [|discriminate]. apply andb_prop in H2 as [H2 H3]. exists (t_freq t). split; [exists v, t; auto|]. apply real_lit; assumption.
Qed.
Theorem C87_float32_refuted : exists (d0 d : dict demo) s ws qs qs' r r', reachable cfg0 d0 /\ calc_token d0 = Ok d /\ real (d_total d) = Some 40000%R /\
  (forall w f, stored d w f -> exists a, real f = Some a /\ (0 < a < 40000)%R) /\ split_words demo cfg0 s = Ok ws /\
  seg_slice cfg0 (Some d) s false = Ok qs /\ likely real d 40000 ws qs r /\ likely real d 40000 ws qs' r' /\ (r < r')%R.
Proof.
  exists d0_87, d_87, (str "甲乙丙"), (map str ["甲"; "乙"; "丙"]), (map str ["甲乙"; "丙"]), (map str ["甲"; "乙丙"]), (9999 / 40000 * (10001 / 40000 * 1))%R, (10000 / 40000 * (10000 / 40000 * 1))%R.
  split; [apply dict_of_reachable|]. split; [unfold d_87, d0_87; apply dict_of_calc|].
  split; [apply (@real_lit (d_total d_87) 40000); [lia|vm_compute; reflexivity|vm_compute; reflexivity]|].
  split.
  { intros w f (v & t & _ & N & <-). assert (K : forallb (fun t : token demo => @is_finite 53 1024 (t_freq t) && (eqb64 demo (t_freq t) (lit64 demo 9999 0) || eqb64 demo (t_freq t) (lit64 demo 10000 0) ||
      eqb64 demo (t_freq t) (lit64 demo 10001 0))) (d_tokens d_87) = true) by (vm_compute; reflexivity).
    rewrite forallb_forall in K. specialize (K t (nth_error_In _ _ N)). apply andb_prop in K as [K1 K2]. apply orb_prop in K2 as [K2|K2]; [apply orb_prop in K2 as [K2|K2]|];
      (eexists; split; [eapply real_lit; [|exact K1|exact K2]; lia|lra]). }
  split; [vm_compute; reflexivity|]. split; [vm_compute; reflexivity|].
  destruct (@stored_87 (str "甲") 0 10000 ltac:(lia) ltac:(vm_compute; reflexivity) ltac:(vm_compute; reflexivity)) as (f1 & S1 & V1).
  destruct (@stored_87 (str "乙丙") 1 10000 ltac:(lia) ltac:(vm_compute; reflexivity) ltac:(vm_compute; reflexivity)) as (f2 & S2 & V2).
  destruct (@stored_87 (str "甲乙") 2 9999 ltac:(lia) ltac:(vm_compute; reflexivity) ltac:(vm_compute; reflexivity)) as (f3 & S3 & V3).
  destruct (@stored_87 (str "丙") 3 10001 ltac:(lia) ltac:(vm_compute; reflexivity) ltac:(vm_compute; reflexivity)) as (f4 & S4 & V4).
  split; [|split; [|lra]].
  - apply (@lk_word demo real d_87 40000 (map str ["甲"; "乙"]) (map str ["丙"]) (map str ["丙"]) _ f3); [discriminate|exact S3|exact V3|].
    apply (@lk_word demo real d_87 40000 (map str ["丙"]) [] [] _ f4); [discriminate|exact S4|exact V4|constructor].
  - apply (@lk_word demo real d_87 40000 (map str ["甲"]) (map str ["乙"; "丙"]) (map str ["乙丙"]) _ f1); [discriminate|exact S1|exact V1|].
    apply (@lk_word demo real d_87 40000 (map str ["乙"; "丙"]) [] [] _ f2); [discriminate|exact S2|exact V2|constructor].
Qed.
Print Assumptions C87_float32_refuted.

Lemma C87_exact_exists : exact32 (E := xdemo) (fun x : option R => x) (fun x : option R => x).
Proof.
  split.
  - reflexivity.
  - intros [a|] [b|]; reflexivity.
  - intros x y a b -> ->; reflexivity.
  - exact (v_lt C86_exact_exists).
  - exact (v_eq C86_exact_exists).
  - intros x a H; exact H.
  - intros x a -> H. change (xlog2 (Some a) = Some (ln a / ln 2)%R). unfold xlog2, xln. destruct (Rlt_dec 0 a); [reflexivity|contradiction].
Qed.

(** Whatever the two frequencies, 你好世界 is not read with a smaller probability than that of 你好|世界. *)
Example C87_ex : forall (x y : R) d0 d, (0 < x)%R -> (0 < y)%R -> run_ops cfg0 (new_dict xdemo) (os_x (Some x) (Some y)) = Ok d0 -> calc_token d0 = Ok d ->
  exists qs r, seg_slice cfg0 (Some d) (str "你好世界") false = Ok qs /\
    likely (E := xdemo) (fun x : option R => x) d (x + y) (map str ["你"; "好"; "世"; "界"]) qs r /\ (x / (x + y) * (y / (x + y)) <= r)%R.
Proof.
  intros x y d0 d Hx Hy Hd0 Hd. assert (Hr0 : reachable cfg0 d0) by (eexists; exact Hd0).
  destruct (C15_counters xdemo cfg0 _ d0 Hd0) as (_ & K1 & _ & K2). cbv zeta in *.
  assert (Ke : effective_ops cfg0 (new_dict xdemo) (os_x (Some x) (Some y)) = [(map str ["你"; "好"], Some x, []); (map str ["世"; "界"], Some y, [])]) by (vm_compute; reflexivity).
  rewrite Ke in *. cbn [map fst snd fold_left] in K1.
  destruct (calc_token_spec (inv_ok (reachable_inv Hr0))) as (d1 & C1 & _ & _ & _ & C2 & _ & C3 & _). rewrite Hd in C1. injection C1 as <-.
  assert (HT : d_total d = (Some (x + y)%R : f64 xdemo)) by (rewrite C2, K1; change (Some (0 * 1 + x + y)%R = Some (x + y)%R); f_equal; lra).
  assert (K3 : map (@t_freq xdemo) (d_tokens d) = [Some x; Some y]) by (rewrite C3; apply (f_equal (map (fun i => snd (fst i)))) in K2; rewrite map_map in K2; exact K2).
  assert (Hv : match run_ops cfg0 (new_dict xdemo) (os_x (Some x) (Some y)) with Ok d => (dict_value d (str "你好"), dict_value d (str "世界")) | _ => (None, None) end = (Some 0, Some 1)) by (vm_compute; reflexivity).
  rewrite Hd0, !P_Dict.dict_value_get, <- (calc_trie Hr0 Hd), <- !P_Dict.dict_value_get in Hv. injection Hv as V1 V2.
  assert (Hs : forall w f, stored d w f -> exists a, f = (Some a : f64 xdemo) /\ (0 < a < x + y)%R).
  { intros w f (v & t & _ & H2 & H3). apply (map_nth_error (@t_freq xdemo)) in H2. rewrite K3, H3 in H2.
    destruct v as [|[|v]]; cbn [nth_error] in H2.
    + injection H2 as <-. exists x. split; [reflexivity|lra].
    + injection H2 as <-. exists y. split; [reflexivity|lra].
    + destruct v; discriminate. }
  destruct (C87_most_probable xdemo _ _ cfg0 d0 d (x + y) (str "你好世界") (map str ["你"; "好"; "世"; "界"]) C87_exact_exists Hr0 Hd HT Hs ltac:(vm_compute; reflexivity)) as (qs & r & Q1 & Q2 & Q3).
  exists qs, r. split; [exact Q1|]. split; [exact Q2|].
  assert (St : forall w v a, dict_value d w = Some v -> nth_error [Some x; Some y] v = Some a -> stored d w a).
  { intros w v a H1 H2. rewrite <- K3 in H2. rewrite nth_error_map in H2. destruct (nth_error (d_tokens d) v) as [t|] eqn:Ht; [|discriminate]. injection H2 as <-. exists v, t. auto. }
  apply (Q3 (map str ["你好"; "世界"])). rewrite <- (Rmult_1_r (y / (x + y))).
  apply (@lk_word xdemo _ d (x + y) (map str ["你"; "好"]) (map str ["世"; "界"]) (map str ["世界"]) _ (Some x)); [discriminate|exact (St _ _ _ V1 eq_refl)|reflexivity|].
  apply (@lk_word xdemo _ d (x + y) (map str ["世"; "界"]) [] [] _ (Some y)); [discriminate|exact (St _ _ _ V2 eq_refl)|reflexivity|constructor].
Qed.
