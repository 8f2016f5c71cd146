(** C55: goroutines that share a dictionary. *)
From Verif Require Import S_Conc P_Split P_Seg2 P_Conc P_Dict Ieee Demo T_Split T_Seg.
Local Open Scope lit_scope.

(** Any number of Segment and Find calls under any schedule: the dictionary stays the same, none panics, and a call that got enough steps has returned
    what it returns alone. *)
Theorem C55_readers_do_not_interfere : forall E c (d : dict E) ks i k, reachable c d -> (forall k', In k' ks -> reads_only k') -> nth_error ks i = Some k ->
  exists a n, alone c d k = Ok (d, a) /\ forall sched, let m := run sched (start c d ks) in
    fst m = d /\ exists p, nth_error (snd m) i = Some p /\ (p = Ret a \/ exists f, p = Read f) /\ (n <= count_occ Nat.eq_dec sched i -> p = Ret a).
Proof. exact readers. Qed.
Print Assumptions C55_readers_do_not_interfere.
(** The step-by-step programs do what the functions of the other properties do, if nothing else runs. *)
Theorem C55_alone : forall E c (d : dict E) ks i k d' a, nth_error ks i = Some k -> alone c d k = Ok (d', a) ->
  exists n, run (repeat i n) (start c d ks) = (d', upd (map (@call_p E c) ks) i (Ret a)).
Proof. exact call_alone. Qed.
Print Assumptions C55_alone.
(** 'Segment does not panic while another goroutine adds a word' is false for every dictionary and every new word of at most MaxTokenLen units. *)
Theorem C55_reader_during_add_token_refuted : forall E c (d : dict E) w freq pos, reachable c d ->
  w <> [] -> dict_value d (norm E c w) = None -> (forall ws, split_words E c w = Ok ws -> length ws <= d_max d) ->
  exists sched, nth_error (snd (run sched (start c d [CAdd w freq pos; CSegment w false]))) 1 = Some Crash.
Proof. intros E c d w freq pos _ Hw Hv Hl. apply add_token_panics; auto. apply Hl. apply split_words_eq. Qed.
Print Assumptions C55_reader_during_add_token_refuted.
(** ... and it can panic even if all of AddToken happens at one moment. *)
Definition crashed (m : dict demo * list (prog demo (answer demo))) (i : nat) : bool := match nth_error (snd m) i with Some Crash => true | _ => false end.
Definition returned (m : dict demo * list (prog demo (answer demo))) (i : nat) : bool := match nth_error (snd m) i with Some (Ret _) => true | _ => false end.
Definition d_one := dict_of cfg0 [add (str "你") 3 (str "n"); OpCalc].
Definition add_and_cut := start cfg0 d_one [CAdd (E := demo) (str "你好") (lit_64 3 0) (str "l"); CSegment (E := demo) (str "你好") false].
Theorem C55_reader_around_add_token_refuted : exists n, returned (run (repeat 0 n) add_and_cut) 0 = true /\
  exists k l, crashed (run (repeat 1 k ++ repeat 0 n ++ repeat 1 l) add_and_cut) 1 = true.
Proof. exists 9. split; [vm_compute; reflexivity|]. exists 1, 9. vm_compute. reflexivity. Qed.
Print Assumptions C55_reader_around_add_token_refuted.
(** 'Two concurrent AddToken calls add both words' is false: for any two new words there is a schedule after which both calls have returned and
    both words stand for the token of the first. *)
Theorem C55_two_writers_refuted : forall E c (d : dict E) w1 f1 p1 w2 f2 p2, reachable c d ->
  dict_value d (norm E c w1) = None -> dict_value d (norm E c w2) = None ->
  exists sched d', run sched (start c d [CAdd w1 f1 p1; CAdd w2 f2 p2]) = (d', [Ret (@AAdded E); Ret (@AAdded E)]) /\
    (forall w, w = w1 \/ w = w2 -> dict_find d' (norm E c w) = Ok (f1, p1, true)) /\
    (forall w i t, w = w1 \/ w = w2 -> dict_value d' (norm E c w) = Some i -> nth_error (d_tokens d') i = Some t -> concat (t_text t) = norm E c w1).
Proof.
  intros E c d w1 f1 p1 w2 f2 p2 _ H1 H2. destruct (add_add (w1 := w1) (w2 := w2) f1 p1 f2 p2 H1 H2) as (sched & d' & H & G1 & G2 & t1 & t2 & Ht & X1 & X2 & X3 & X4).
  assert (N : nth_error (d_tokens d') (length (d_tokens d)) = Some t1) by (rewrite Ht, nth_error_app2, Nat.sub_diag by lia; reflexivity).
  assert (G : forall w, w = w1 \/ w = w2 -> dict_value d' (norm E c w) = Some (length (d_tokens d))) by (intros w [->| ->]; assumption).
  exists sched, d'. split; [exact H|]. split.
  - intros w Hw. specialize (G w Hw). unfold dict_value in G. unfold dict_find. destruct (t_jump _ _ _); [|discriminate]. rewrite G. unfold get. rewrite N. cbn. rewrite X2, X3. reflexivity.
  - intros w i t Hw Hi Hn. rewrite (G w Hw) in Hi. injection Hi as <-. rewrite N in Hn. injection Hn as <-. rewrite X1. apply split_concat.
Qed.
Print Assumptions C55_two_writers_refuted.

(** After such a schedule, Segment of 世 returns the text 好. *)
Definition d_two := dict_of cfg0 [add (str "纽约") 3 (str "ns"); OpCalc].
Definition two := start cfg0 d_two [CAdd (E := demo) (str "好") (lit_64 3 0) (str "l"); CAdd (E := demo) (str "世") (lit_64 3 0) (str "n"); CSegment (E := demo) (str "世") false].
Definition texts (m : dict demo * list (prog demo (answer demo))) (i : nat) : option (list bytes) :=
  match nth_error (snd m) i with
  | Some (Ret (ASegs l)) => Some (map (fun s => match deref (fst m) (sg_tok s) with Ok t => concat (t_text t) | _ => [] end) l)
  | _ => None
  end.
Example C55_ex : texts (run (repeat 0 9 ++ repeat 1 9 ++ repeat 2 20) two) 2 = Some [str "世"] /\
  texts (run ([0; 0; 1; 1; 0; 1] ++ repeat 0 6 ++ repeat 1 6 ++ repeat 2 20) two) 2 = Some [str "好"] /\
  crashed (run ([0; 0; 0] ++ repeat 2 20) two) 2 = false /\ crashed (run ([1; 1; 1] ++ repeat 2 20) two) 2 = true.
Proof. repeat apply conj; vm_compute; reflexivity. Qed.
Example C55_ex_readers : reachable cfg0 d_two /\
  let m := run (concat (repeat [0; 1; 2] 60)) (start cfg0 d_two [CSegment (E := demo) (str "纽约") false; CSegment (E := demo) (str "a纽约b") false; CFind (E := demo) (str "纽约")]) in
  texts m 0 = Some (map str ["纽"; "约"]) /\ texts m 1 = Some (map str ["a"; "纽约"; "b"]) /\ returned m 2 = true.
Proof. split; [apply dict_of_reachable|]. vm_compute. auto. Qed.
