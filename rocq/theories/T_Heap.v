(** C88: token pointers and kept results. *)
From Verif Require Import S_Heap S_Seg P_Seg2 P_Heap Ieee Demo T_Split T_Seg.
Local Open Scope lit_scope.

(** A Segmenter whose segments hold addresses of tokens gives what one with indices gives, however append grows Dict.Tokens. *)
Theorem C88_pointers_and_indices : forall (E : env) g c (os : list (hop E)), exists h hd d,
  h_run g c (h_new []) os = Ok (h, hd) /\ run_ops c (new_dict E) (last_calls os) = Ok d /\
  forall s m, (do segs <- h_segment c h hd s m ; h_to_slice (depth s) h segs m) = seg_slice c (Some d) s m /\
              (do segs <- h_segment c h hd s m ; h_to_string (depth s) h segs m) = seg_string c (Some d) s m /\
              (do segs <- h_segment c h hd s m ; h_to_pos (depth s) h segs m) = seg_pos c (Some d) s m.
Proof.
  intros E g c os. destruct (runs g c os) as (h & hd & d & R1 & R2 & -> & I). exists h, hd, (view h hd). split; [exact R1|]. split; [exact R2|]. exact (outputs c (i_good I)).
Qed.
Print Assumptions C88_pointers_and_indices.

(** Segments kept by the caller while the dictionary changes or is replaced: ToSlice, ToPos and ToString go on giving the same; in search mode
    they still return, and give at least the same words in the same order. *)
Theorem C88_kept_results : forall (E : env) g c (os os' : list (hop E)) s m, exists h hd segs h' hd',
  h_run g c (h_new []) os = Ok (h, hd) /\ h_segment c h hd s m = Ok segs /\ h_run g c (h, hd) os' = Ok (h', hd') /\
  (exists l l', h_to_slice (depth s) h segs false = Ok l /\ h_to_slice (depth s) h' segs false = Ok l /\ h_to_slice (depth s) h' segs true = Ok l' /\ subseq l l') /\
  (exists l l', h_to_pos (depth s) h segs false = Ok l /\ h_to_pos (depth s) h' segs false = Ok l /\ h_to_pos (depth s) h' segs true = Ok l' /\ subseq l l') /\
  (exists l l', h_to_string (depth s) h segs false = Ok l /\ h_to_string (depth s) h' segs false = Ok l /\ h_to_string (depth s) h' segs true = Ok l').
Proof.
  intros E g c os os' s m. destruct (runs g c os) as (h & hd & d & R1 & _ & _ & I). destruct (run_inv g os' I) as (h' & hd' & R2 & _).
  destruct (c01 s m (i_reach I)) as (sg & S1 & _). pose proof (segment_sim c h hd s m) as S2. rewrite S1 in S2. eexists h, hd, _, h', hd'. split; [exact R1|]. split; [exact S2|]. split; [exact R2|].
  split; [|split].
  - refine (kept (c := c) (leaf := fun t => [M_Out.join (h_text t)]) _ I S2 R2). intros x y (K1 & _). rewrite K1. reflexivity.
  - refine (kept (c := c) (leaf := fun t => [(M_Out.join (h_text t), h_pos t)]) _ I S2 R2). intros x y (K1 & _ & K2). rewrite K1, K2. reflexivity.
  - destruct (kept (c := c) (leaf := fun t : cell E => M_Out.render (M_Out.join (h_text t), h_pos t)) (fun x y K => ltac:(destruct K as (K1 & _ & K2); rewrite K1, K2; reflexivity)) I S2 R2) as (l & l' & L1 & L2 & L3 & _).
    exists l, l'. auto.
Qed.
Print Assumptions C88_kept_results.

(** In search mode they may change, and whether they do depends on the capacity of a slice: a kept 你好世界 shows the words 你好 and 世界 added
    later if append found room, and does not if it moved the tokens. *)
Definition os_88 : list (hop demo) := [HOp (add (str "你好世界") 10 []); HOp (add (str "吗") 10 []); HOp (@OpCalc demo)].
Definition os_88' : list (hop demo) := [HOp (add (str "你好") 10 []); HOp (add (str "世界") 10 []); HOp (@OpCalc demo)].
Definition later (g : nat -> nat) : res (list bytes * list bytes * list bytes) :=
  let s := str "你好世界" in
  do p <- h_run g cfg0 (h_new []) os_88 ;
  do segs <- h_segment cfg0 (fst p) (snd p) s false ;
  do p' <- h_run g cfg0 p os_88' ;
  do l <- h_to_slice (depth s) (fst p) segs true ;
  do l' <- h_to_slice (depth s) (fst p') segs true ;
  do new <- h_segment cfg0 (fst p') (snd p') s false ;
  do l2 <- h_to_slice (depth s) (fst p') new true ;
  Ok (l, l', l2).
Theorem C88_kept_search_refuted : exists g g', later g = Ok ([str "你好世界"], [str "你好世界"], map str ["你好"; "世界"; "你好世界"]) /\
  later g' = Ok ([str "你好世界"], map str ["你好"; "世界"; "你好世界"], map str ["你好"; "世界"; "你好世界"]).
Proof. exists (fun _ => 0), (fun _ => 4). split; vm_compute; reflexivity. Qed.
Print Assumptions C88_kept_search_refuted.

(** The dictionary replaced by another: the kept result stays. *)
Example C88_ex : (do p <- h_run (fun n => n) cfg0 (h_new []) os_88 ;
    do segs <- h_segment cfg0 (fst p) (snd p) (str "你好世界吧") false ;
    do p' <- h_run (fun n => n) cfg0 p [HReset; HOp (add (str "世界吧") 5 (str "n")); HOp (@OpCalc demo)] ;
    do l <- h_to_slice 20 (fst p') segs false ;
    do new <- h_segment cfg0 (fst p') (snd p') (str "你好世界吧") false ;
    do l' <- h_to_slice 20 (fst p') new false ; Ok (l, l')) = Ok (map str ["你好世界"; "吧"], map str ["你"; "好"; "世界吧"]).
Proof. vm_compute. reflexivity. Qed.
