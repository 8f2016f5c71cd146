(** C97: the worker pool of tools/benchmark/goroutines. *)
From Verif Require Import S_Conc P_Split P_Seg2 P_Conc P_Dict P_Pool Ieee Demo T_Split T_Seg T_Conc.
From Coq Require Import Sorting.Permutation.
Local Open Scope lit_scope.

(** As long as main has not received from every worker, some goroutine can go on. *)
Theorem C97_no_deadlock : forall E c (d : dict E) threads cap lines runs sched, reachable c d -> 1 <= threads -> 1 <= cap ->
  let s := pool_run c threads cap sched (pool_start threads d lines runs) in
  pool_over threads s \/ exists g, pool_step c threads cap g s <> None.
Proof. intros E c d threads cap lines runs sched Hr Ht Hc s. exact (progress Hr Hc Ht (run_inv Hr Hc Ht sched (start_inv c threads d lines runs))). Qed.
Print Assumptions C97_no_deadlock.
(** There is a number of rounds after which main has left its last loop, however the goroutines are ordered, as long as every one gets a turn in every round. *)
Theorem C97_terminates : forall E c (d : dict E) threads cap lines runs, reachable c d -> 1 <= threads -> 1 <= cap ->
  exists n, forall rounds, n <= length rounds -> (forall round g, In round rounds -> g <= threads -> In g round) ->
    pool_over threads (pool_run c threads cap (concat rounds) (pool_start threads d lines runs)).
Proof.
  intros E c d threads cap lines runs Hr Ht Hc. eexists. intros rounds Hn Hf. exact (fair_over Hr Hc Ht (start_inv c threads d lines runs) Hn Hf).
Qed.
Print Assumptions C97_terminates.
(** When main has left its last loop, every line has been segmented as often as it was to be, every call has returned what it returns alone, the dictionary
    is the same, and no goroutine has anything left to do. *)
Theorem C97_complete : forall E c (d : dict E) threads cap lines runs sched, reachable c d -> 1 <= threads -> 1 <= cap ->
  let s := pool_run c threads cap sched (pool_start threads d lines runs) in
  pool_over threads s ->
  p_dict s = d /\ Permutation (map fst (p_log s)) (concat (repeat lines runs)) /\
  (forall l a, In (l, a) (p_log s) -> alone c d (CSegment l false) = Ok (d, a)) /\
  forall g, pool_step c threads cap g s = None.
Proof.
  intros E c d threads cap lines runs sched Hr Ht Hc s Ho.
  pose proof (run_inv Hr Hc Ht sched (start_inv c threads d lines runs)) as H. fold s in H. destruct (over_all Hc Ht H Ho) as (H1 & _ & H3 & H4).
  split; [exact H1|]. split; [exact H3|]. split; [|intro g; exact (over_stops Hc Ht g H Ho)].
  intros l a Hin. exact (proj1 (Forall_forall _ _) H4 _ Hin).
Qed.
Print Assumptions C97_complete.
(** A worker never waits at line 28: the channel done has room for all. *)
Theorem C97_done_has_room : forall E c (d : dict E) threads cap lines runs sched i, reachable c d -> 1 <= threads -> 1 <= cap ->
  let s := pool_run c threads cap sched (pool_start threads d lines runs) in
  nth_error (p_work s) i = Some WEnd -> pool_step c threads cap (S i) s <> None.
Proof. intros E c d threads cap lines runs sched i Hr Ht Hc s Hi. exact (end_free Hc Ht (run_inv Hr Hc Ht sched (start_inv c threads d lines runs)) Hi). Qed.
Print Assumptions C97_done_has_room.

(** Two workers, three lines twice, room for one line. *)
Definition pool_d := dict_of cfg0 [add (str "你好") 8 (str "l"); add (str "世界") 4 (str "n"); OpCalc].
Definition pool_texts (s : pool demo) : list (bytes * list bytes) :=
  map (fun la => (fst la, match snd la with ASegs l => map (fun g => match deref (p_dict s) (sg_tok g) with Ok t => concat (t_text t) | _ => [] end) l | _ => [] end)) (p_log s).
Definition pool_ended (s : pool demo) : bool := match p_send s with [] => p_closed s && (p_recv s =? 2) | _ => false end.
Definition pool_ex (sched : list nat) := pool_run cfg0 2 1 sched (pool_start 2 pool_d (map str ["你好世界"; "世"; "a"]) 2).
Definition line_count (l : bytes) (s : pool demo) : nat := length (filter (fun la => if list_eq_dec Byte.byte_eq_dec (fst la) l then true else false) (p_log s)).
Example C97_ex : reachable cfg0 pool_d /\
  (let s := pool_ex (concat (repeat [0; 1; 2] 200)) in pool_ended s = true /\
    map (fun l => line_count (str l) s) ["你好世界"; "世"; "a"] = [2; 2; 2] /\
    nth_error (pool_texts s) 0 = Some (str "世", [str "世"]) /\ In (str "你好世界", map str ["你好"; "世界"]) (pool_texts s)) /\
  (let s := pool_ex (concat (repeat [0; 2] 200)) in pool_ended s = false /\ length (p_log s) = 6) /\
  pool_step cfg0 2 1 0 (pool_ex [0; 0]) = None.
Proof.
  split; [apply dict_of_reachable|]. split; [|split].
  - split; [vm_compute; reflexivity|]. split; [vm_compute; reflexivity|]. split; [vm_compute; reflexivity|]. vm_compute. auto 10.
  - split; vm_compute; reflexivity.
  - reflexivity.
Qed.
