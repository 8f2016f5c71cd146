(** C90: sentences can be segmented one by one, up to rounding. *)
From Verif Require Import S_Dict S_Split S_Dag S_Exact S_Meta P_Dict P_Seg2 P_Hist P_Exact2 P_Exact3 M_Out Ieee Demo T_Split T_Seg T_Hmm T_Dag T_Dict T_Exact.
From Coq Require Import Reals Lra.
Local Open Scope lit_scope.

(** A character that is in no dictionary word separates: what stands before it is cut as if it were the whole text. *)
Theorem C90_before_separator : forall E c (d : dict E) s1 r s2, reachable c d -> (forall w f, stored d w f -> ~ occurs (enc r) w) ->
  scalar r = true -> alnum_unit E c (r, enc r) = false ->
  exists q1 q2, seg_slice c (Some d) s1 false = Ok q1 /\ seg_slice c (Some d) (s1 ++ enc r ++ s2) false = Ok (q1 ++ enc r :: q2).
Proof.
  intros E c d s1 r s2 Hr Hw Hs Ha. destruct (@before_separator E c d Hr (enc r)) with (s1 := s1) (r := r) (s2 := s2) as (q1 & q2 & H1 & H2 & _); try assumption; [|reflexivity|exists q1, q2; split; assumption].
  intros w v Hv. rewrite dict_value_get in Hv. destruct (ok_entry (inv_ok (reachable_inv Hr)) Hv) as (t & N & _). apply (Hw w (t_freq t)). exists v, t. rewrite dict_value_get. auto.
Qed.
Print Assumptions C90_before_separator.

(** Without rounding, what stands behind a segment is cut as if it were the whole text, *)
Theorem C90_rest : forall (E : env) (val : f64 E -> option R) (val32 : f32 E -> option R) c (d0 d : dict E) t s a b,
  exact32 val val32 -> reachable c d0 -> calc_token d0 = Ok d -> val (d_total d) = Some t ->
  (forall w f, stored d w f -> exists a, val f = Some a /\ (0 < a < t)%R) ->
  seg_slice c (Some d) s false = Ok (a ++ b) -> seg_slice c (Some d) (concat b) false = Ok b.
Proof.
  intros E val val32 c d0 d t s a b X Hr Hc Ht Hs. pose proof (calc_reachable Hr Hc) as Hr'.
  apply (@rest E val val32 X c d (inv_ok (reachable_inv Hr')) (P_Exact2.positive X Hr Hc Ht Hs)).
Qed.
Print Assumptions C90_rest.
(** and a text is cut sentence by sentence. *)
Theorem C90_sentences : forall (E : env) (val : f64 E -> option R) (val32 : f32 E -> option R) c (d0 d : dict E) t s1 r s2 q1 q2,
  exact32 val val32 -> reachable c d0 -> calc_token d0 = Ok d -> val (d_total d) = Some t ->
  (forall w f, stored d w f -> (exists a, val f = Some a /\ (0 < a < t)%R) /\ ~ occurs (enc r) w) ->
  scalar r = true -> alnum_unit E c (r, enc r) = false ->
  seg_slice c (Some d) s1 false = Ok q1 -> seg_slice c (Some d) s2 false = Ok q2 -> seg_slice c (Some d) (s1 ++ enc r ++ s2) false = Ok (q1 ++ enc r :: q2).
Proof.
  intros E val val32 c d0 d t s1 r s2 q1 q2 X Hr Hc Ht Hs Hsc Ha. pose proof (calc_reachable Hr Hc) as Hr'.
  apply (@around_separator E val val32 c d s1 r s2 q1 q2 X Hr'); try assumption.
  - apply (P_Exact2.positive X Hr Hc Ht). intros w f H. apply (Hs w f H).
  - intros w v Hv. rewrite dict_value_get in Hv. destruct (ok_entry (inv_ok (reachable_inv Hr')) Hv) as (t' & N & _). apply (Hs w (t_freq t')). exists v, t'. rewrite dict_value_get. auto.
Qed.
Print Assumptions C90_sentences.

(** In float32 not: 甲乙丙 on its own is cut 甲乙|丙, which is the more probable reading; after 64 full stops it is cut 甲|乙丙. *)
Definition os_90 : list (dop demo) := [add (str "甲") 99 []; add (str "乙丙") 101 []; add (str "甲乙") 100 []; add (str "丙") 100 []].
Definition d_90 : dict demo := dict_of cfg0 (os_90 ++ [@OpCalc demo]).
Definition stops_90 : list bytes := repeat (str "。") 64.
Theorem C90_float32_refuted : exists (d0 d : dict demo) s1 r s2 q1 q2 q2', reachable cfg0 d0 /\ calc_token d0 = Ok d /\ real (d_total d) = Some 400%R /\
  (forall w f, stored d w f -> (exists a, real f = Some a /\ (0 < a < 400)%R) /\ ~ occurs (enc r) w) /\ scalar r = true /\ alnum_unit demo cfg0 (r, enc r) = false /\
  seg_slice cfg0 (Some d) s1 false = Ok q1 /\ seg_slice cfg0 (Some d) s2 false = Ok q2 /\
  seg_slice cfg0 (Some d) (s1 ++ enc r ++ s2) false = Ok (q1 ++ enc r :: q2') /\ q2 <> q2'.
Proof.
  exists (dict_of cfg0 os_90), d_90, (concat (tl stops_90)), 12290%Z, (str "甲乙丙"), (tl stops_90), (map str ["甲乙"; "丙"]), (map str ["甲"; "乙丙"]).
  split; [apply dict_of_reachable|]. split; [unfold d_90; apply dict_of_calc|].
  split; [apply (@real_lit (d_total d_90) 400); [lia|vm_compute; reflexivity|vm_compute; reflexivity]|].
  split.
  { assert (Hr : reachable cfg0 d_90) by apply dict_of_reachable.
    intros w f (v & t & Hv & N & <-). rewrite dict_value_get in Hv. destruct (ok_entry (inv_ok (reachable_inv Hr)) Hv) as (t' & N' & _ & Hw & _). assert (t' = t) by congruence. subst t'. split.
    - assert (K : forallb (fun t : token demo => @BinarySingleNaN.is_finite 53 1024 (t_freq t) && (eqb64 demo (t_freq t) (lit64 demo 99 0) || eqb64 demo (t_freq t) (lit64 demo 100 0) ||
        eqb64 demo (t_freq t) (lit64 demo 101 0))) (d_tokens d_90) = true) by (vm_compute; reflexivity).
      rewrite forallb_forall in K. specialize (K t (nth_error_In _ _ N)). apply andb_prop in K as [K1 K2]. apply orb_prop in K2 as [K2|K2]; [apply orb_prop in K2 as [K2|K2]|];
        (eexists; split; [eapply real_lit; [|exact K1|exact K2]; lia|lra]).
    - assert (K : forallb (fun t : token demo => forallb (fun b => negb (Byte.eqb b x80)) (concat (t_text t))) (d_tokens d_90) = true) by (vm_compute; reflexivity).
      rewrite forallb_forall in K. specialize (K t (nth_error_In _ _ N)). rewrite Hw in K. intros (a & b & ->). rewrite !forallb_app in K.
      apply andb_prop in K as [_ K]. apply andb_prop in K as [K _]. vm_compute in K. discriminate K. }
  split; [reflexivity|]. split; [vm_compute; reflexivity|]. split; [vm_compute; reflexivity|]. split; [vm_compute; reflexivity|]. split; [vm_compute; reflexivity|].
  vm_compute. discriminate.
Qed.
Print Assumptions C90_float32_refuted.

Example C90_ex : seg_slice cfg0 (Some T_Seg.d1) (str "你好世界。世界") false = Ok (map str ["你好世界"; "。"; "世界"]) /\
  seg_slice cfg0 (Some T_Seg.d1) (str "你好世界") false = Ok (map str ["你好世界"]) /\ seg_slice cfg0 (Some T_Seg.d1) (str "世界") false = Ok (map str ["世界"]) /\
  enc 12290 = str "。" /\ alnum_unit demo cfg0 (12290%Z, enc 12290) = false.
Proof. repeat split; vm_compute; reflexivity. Qed.
(** In exact arithmetic, whatever the frequencies. *)
Example C90_ex_exact : forall (x y : R) d0 d q1 q2, (0 < x)%R -> (0 < y)%R -> run_ops cfg0 (new_dict xdemo) (os_x (Some x) (Some y)) = Ok d0 -> calc_token d0 = Ok d ->
  seg_slice cfg0 (Some d) (str "你好世界") false = Ok q1 -> seg_slice cfg0 (Some d) (str "世界") false = Ok q2 ->
  seg_slice cfg0 (Some d) (str "你好世界。世界") false = Ok (q1 ++ str "。" :: q2).
Proof.
  intros x y d0 d q1 q2 Hx Hy Hd0 Hd. assert (Hr0 : reachable cfg0 d0) by (eexists; exact Hd0).
  destruct (C15_counters xdemo cfg0 _ d0 Hd0) as (_ & K1 & _ & K2). cbv zeta in *.
  assert (Ke : effective_ops cfg0 (new_dict xdemo) (os_x (Some x) (Some y)) = [(map str ["你"; "好"], Some x, []); (map str ["世"; "界"], Some y, [])]) by (vm_compute; reflexivity).
  rewrite Ke in *. cbn [map fst snd fold_left] in K1.
  destruct (calc_token_spec (inv_ok (reachable_inv Hr0))) as (d1 & C1 & _ & C0 & _ & C2 & _ & C3 & _). rewrite Hd in C1. injection C1 as <-.
  assert (HT : d_total d = (Some (x + y)%R : f64 xdemo)) by (rewrite C2, K1; change (Some (0 * 1 + x + y)%R = Some (x + y)%R); f_equal; lra).
  assert (K3 : map (@t_freq xdemo) (d_tokens d) = [Some x; Some y]) by (rewrite C3; apply (f_equal (map (fun i => snd (fst i)))) in K2; rewrite map_map in K2; exact K2).
  assert (K4 : map (@t_text xdemo) (d_tokens d0) = [map str ["你"; "好"]; map str ["世"; "界"]]) by (apply (f_equal (map (fun i => fst (fst i)))) in K2; rewrite map_map in K2; exact K2).
  intros H1 H2. refine (C90_sentences xdemo _ _ cfg0 d0 d (x + y) (str "你好世界") 12290 (str "世界") q1 q2 C87_exact_exists Hr0 Hd HT _ eq_refl _ H1 H2); [|vm_compute; reflexivity].
  intros w f (v & t & Hv & N & Hf). split.
  - apply (map_nth_error (@t_freq xdemo)) in N. rewrite K3, Hf in N. destruct v as [|[|v]]; cbn [nth_error] in N.
    + injection N as <-. exists x. split; [reflexivity|lra].
    + injection N as <-. exists y. split; [reflexivity|lra].
    + destruct v; discriminate.
  - rewrite dict_value_get, C0 in Hv. destruct (ok_entry (inv_ok (reachable_inv Hr0)) Hv) as (t' & N' & _ & Hw & _).
    apply (map_nth_error (@t_text xdemo)) in N'. rewrite K4 in N'.
    assert (K : forallb (fun b => negb (Byte.eqb b x80)) w = true) by (rewrite <- Hw; destruct v as [|[|v]]; cbn [nth_error] in N'; [injection N' as <-; vm_compute; reflexivity|injection N' as <-; vm_compute; reflexivity|destruct v; discriminate]).
    intros (a & b & ->). rewrite !forallb_app in K. apply andb_prop in K as [_ K]. apply andb_prop in K as [K _]. vm_compute in K. discriminate K.
Qed.
