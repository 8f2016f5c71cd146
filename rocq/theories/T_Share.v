(** C83: several Segmenters and copies of them. *)
From Verif Require Import S_Share P_Api P_Seg2 P_Share Ieee Demo T_Split T_Seg T_Load T_Idf T_Api.
Local Open Scope lit_scope.

(** C83 *)
(** Each of many Segmenters is in the state a single one reaches by the calls that count for it. *)
Theorem C83_each_sees_its_calls : forall E (os : list (wop E)) w, w_run (w_nil E) os = Ok w ->
  length (w_segs w) = length (lines_of os) /\
  forall j h l, nth_error (w_segs w) j = Some h -> nth_error (lines_of os) j = Some l -> run_aops (l_zero l) (l_calls l) = Ok (view w h).
Proof.
  intros E os w H. pose proof (inv_run_w (inv_nil E) H) as I. split; [exact (i_len I)|]. intros j h l Hh Hl. destruct (i_seen I Hh Hl) as (_ & _ & K & _). exact K.
Qed.
Print Assumptions C83_each_sees_its_calls.
Theorem C83_histories_in_order_return : forall E (os : list (wop E)), named 0 os ->
  (forall j l, nth_error (lines_of os) j = Some l -> fine (false, false) (l_calls l)) -> exists w, w_run (w_nil E) os = Ok w.
Proof. intros E os Hn Hf. exact (world_total (inv_nil E) Hn Hf). Qed.
Print Assumptions C83_histories_in_order_return.
(** Copies made before the first dictionary do not affect each other. *)
Theorem C83_early_copies_are_independent : forall E (os : list (wop E)) w, early_copies [] os -> w_run (w_nil E) os = Ok w ->
  length (w_segs w) = length (alone os) /\
  forall j h s0 cs, nth_error (w_segs w) j = Some h -> nth_error (alone os) j = Some (s0, cs) -> run_aops s0 cs = Ok (view w h).
Proof.
  intros E os w He H. destruct (C83_each_sees_its_calls E os w H) as [K1 K2].
  assert (K : map (@plain_line E) (lines_of os) = alone os).
  { refine (early_lines (inv_nil E) H _ He). intros i j a b m N. destruct i; discriminate. }
  rewrite <- K, map_length. split; [exact K1|]. intros j h s0 cs Hh Hl. rewrite nth_error_map in Hl. destruct (nth_error (lines_of os) j) as [l|] eqn:El; [|discriminate]. injection Hl as <- <-. exact (K2 _ _ _ Hh El).
Qed.
Print Assumptions C83_early_copies_are_independent.
(** A copy of a Segmenter with a dictionary stays equal to it, whichever of the two is called. *)
Theorem C83_late_copies_stay_equal : forall E (os1 os2 : list (wop E)) w1 w h i, w_run (w_nil E) os1 = Ok w1 -> nth_error (w_segs w1) i = Some h -> s_dict (view w1 h) <> None ->
  (forall k o, In (WCall k o) os2 -> k = i \/ k = length (w_segs w1) -> keeps (s_load (view w1 h)) o) ->
  w_run (w_nil E) (os1 ++ WCopy i :: os2) = Ok w ->
  exists h1 h2, nth_error (w_segs w) i = Some h1 /\ nth_error (w_segs w) (length (w_segs w1)) = Some h2 /\ view w h1 = view w h2 /\ s_dict (view w h1) <> None.
Proof.
  intros E os1 os2 w1 w h i H1 Hi Hd Hk H. rewrite w_run_app, H1 in H. cbn [bind w_run] in H. apply bind_Ok in H as (w2 & H2 & H3). pose proof (inv_run_w (inv_nil E) H1) as I1. pose proof (inv_step I1 H2) as I2. pose proof (inv_run_w I2 H3) as I3.
  cbn [w_step] in H2. assert (Hg : get (w_segs w1) i = Ok h) by (apply get_Ok; exact Hi). rewrite Hg in H2. cbn [bind] in H2. injection H2 as <-.
  assert (Hp : p_dict h <> None) by (intro N; apply Hd; cbn; rewrite N; reflexivity).
  destruct (@pair_run E os2 _ _ _ w i (length (w_segs w1)) h I2) as [K1 K2]; try assumption.
  - cbn [w_segs]. rewrite nth_error_app1; [exact Hi|]. eapply nth_error_Some_lt; eauto.
  - cbn [w_segs]. rewrite nth_error_app2, Nat.sub_diag by lia. reflexivity.
  - exists h, h. split; [exact K1|]. split; [exact K2|]. split; [reflexivity|].
    destruct (nth_error (lines (S (0 + length os1)) (next_lines (0 + length os1) (lines 0 [] os1) (WCopy i)) os2) i) as [l|] eqn:El; [|apply nth_error_None in El; pose proof (i_len I3); apply nth_error_Some_lt in K1; lia].
    intro N. apply (seen_dict (i_seen I3 K1 El)) in N. congruence.
Qed.
Print Assumptions C83_late_copies_stay_equal.

(** What Segmenter number [j] makes of a text. *)
Definition cut_by (os : list (wop demo)) (j : nat) (txt : bytes) : option (list (nat * nat)) :=
  match w_run (w_nil demo) os with
  | Ok w => match nth_error (w_segs w) j with
            | Some h => match internal_segment (s_cfg (view w h)) (s_dict (view w h)) txt false with Ok l => Some (map (fun x => (sg_start x, sg_end x)) l) | _ => None end
            | None => None
            end
  | _ => None
  end.
Definition sh_load : wop demo := WCall 0 (ALoad (LStr (str "你 3 n
好 2 n"))).
Definition sh_more (i : nat) : wop demo := WCall i (ALoad (LStr (str "世界 9 n"))).
(** A call on a copy changes the original, *)
Theorem C83_copies_are_independent_refuted : ~ (forall E (os : list (wop E)) i j o w h w', i <> j -> w_run (w_nil E) os = Ok w -> w_run w [WCall j o] = Ok w' ->
  nth_error (w_segs w) i = Some h -> view w' h = view w h).
Proof.
  intro H. pose (os := [WZero zs; sh_load; WCopy 0]).
  assert (A : exists w h w', w_run (w_nil demo) os = Ok w /\ w_run w [sh_more 1] = Ok w' /\ nth_error (w_segs w) 0 = Some h /\ nth_error (w_segs w') 0 = Some h).
  { assert (F : forall o, o = os \/ o = os ++ [sh_more 1] -> exists w, w_run (w_nil demo) o = Ok w).
    { intros o Ho. apply C83_histories_in_order_return; [destruct Ho as [->| ->]; cbn; lia|]. intros j l Hl.
      destruct Ho as [->| ->]; (destruct j as [|[|j]]; cbn in Hl; [injection Hl as <-; cbn; intuition discriminate|injection Hl as <-; cbn; intuition discriminate|destruct j; discriminate]). }
    destruct (F os ltac:(auto)) as (w & Hw). destruct (F (os ++ [sh_more 1]) ltac:(auto)) as (w' & Hw'). rewrite w_run_app, Hw in Hw'. cbn [bind] in Hw'.
    pose proof (inv_run_w (inv_nil demo) Hw) as I. pose proof (i_len I) as Il.
    destruct (nth_error (w_segs w) 0) as [h|] eqn:E0; [|apply nth_error_None in E0; cbn in Il; lia]. exists w, h, w'. split; [exact Hw|]. split; [exact Hw'|]. split; [exact E0|].
    assert (E1 : nth_error (w_segs w) 1 = Some h).
    { unfold os in Hw. change [WZero zs; sh_load; WCopy 0] with ([WZero zs; sh_load] ++ [WCopy 0]) in Hw. rewrite w_run_app in Hw. apply bind_Ok in Hw as (w1 & J1 & J2). pose proof (i_len (inv_run_w (inv_nil demo) J1)) as L1. cbn in L1.
      cbn [w_run w_step] in J2. apply bind_Ok in J2 as (w2 & J2 & J3). injection J3 as ->. apply bind_Ok in J2 as (h0 & J2 & J3). injection J3 as <-. cbn [w_segs] in *. apply get_Ok in J2. rewrite nth_error_app2, L1 by lia. rewrite nth_error_app1 in E0 by lia. cbn. congruence. }
    assert (Hd : p_dict h <> None).
    { intro N. pose proof (i_seen I E0 (l := nth 0 (lines_of os) {| l_zero := zs; l_calls := []; l_made := None |}) eq_refl) as Sn. destruct (seen_says Sn) as [_ [Sa _]].
      assert (s_dict (view w h) <> None) as Nd by (apply Sa; reflexivity). apply Nd. cbn. rewrite N. reflexivity. }
    apply (pair_run I E0 E1 Hd (os := [sh_more 1])) in Hw' as [K _]; [exact K|]. intros k o [X|[]] _. injection X as <- <-. exact Logic.I. }
  destruct A as (w & h & w' & A1 & A2 & A3 & A4).
  assert (B : cut_by (os ++ [sh_more 1]) 0 (str "世界") = cut_by os 0 (str "世界")).
  { unfold cut_by. rewrite w_run_app, A1. cbn [bind]. unfold sh_more in A2 |- *. rewrite A2, A3, A4. rewrite (H _ os 0 1 _ w h w' ltac:(discriminate) A1 A2 A3). reflexivity. }
  clear - B. revert B. vm_compute. intro B. discriminate B.
Qed.
Print Assumptions C83_copies_are_independent_refuted.

Example C83_ex : cut_by [WZero zs; sh_load; WCopy 0; sh_more 1] 0 (str "世界你") = Some [(0, 6); (6, 9)] /\
  cut_by [WZero zs; sh_load; WCopy 0; sh_more 1] 1 (str "世界你") = Some [(0, 6); (6, 9)] /\
  cut_by [WZero zs; sh_load; WCopy 0] 0 (str "世界你") = Some [(0, 3); (3, 6); (6, 9)] /\
  (* copied before loading: no dictionary *)
  cut_by [WZero zs; WCopy 0; sh_load] 1 (str "世界") = Some [] /\ cut_by [WZero zs; WCopy 0; sh_load] 0 (str "世界") = Some [(0, 3); (3, 6)] /\
  (* Empty on one leaves the other *)
  cut_by [WZero zs; sh_load; WCopy 0; WCall 0 (AEmpty demo); sh_more 1] 1 (str "世界") = Some [(0, 6)] /\
  cut_by [WZero zs; sh_load; WCopy 0; WCall 0 (AEmpty demo); sh_more 1] 0 (str "世界") = Some [] /\
  early_copies [] [WZero zs; WCopy 0; sh_load] /\ map (fun l => length (snd l)) (alone [WZero zs; WCopy 0; sh_load]) = [1; 0] /\
  map (fun l => length (l_calls l)) (lines_of [WZero zs; sh_load; WCopy 0; WCall 0 (AEmpty demo); sh_more 1]) = [2; 2] /\
  map (fun l => length (l_calls l)) (lines_of [WZero zs; sh_load; WCopy 0; sh_more 1]) = [2; 2] /\
  map (fun l => length (snd l)) (alone [WZero zs; sh_load; WCopy 0; sh_more 1]) = [1; 2].
Proof.
  repeat match goal with |- _ /\ _ => split end; try (vm_compute; reflexivity). all: cbn; auto.
Qed.
