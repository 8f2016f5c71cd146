(** C89: results that share memory with the argument. *)
From Verif Require Import S_Alias P_Split P_Seg2 P_Alias Ieee Demo T_Split T_Seg.
Local Open Scope lit_scope.

(** Segments kept by the caller: their texts are parts of the (normalised) argument, and after the argument's array was overwritten with [buf]
    those of words that are not in the dictionary are what is now at their place. *)
Theorem C89_segments_share : forall E c (d : dict E) s m segs, reachable c d -> internal_segment c (Some d) s m = Ok segs ->
  exists l, segment_refs c d s m = Ok l /\ map fst l = segs /\
    texts_now d s l = Ok (map (fun sg => slice (norm E c s) (sg_start sg) (sg_end sg)) segs) /\
    forall buf, texts_now d buf l = Ok (map (shown c d s buf) segs).
Proof.
  intros E c d s m segs Hr H. destruct (kept_segments Hr H) as ((l & L1 & L2 & L3) & L4). exists l. split; [exact L1|]. split; [exact L2|].
  split; [rewrite L3, L4; reflexivity|exact L3].
Qed.
Print Assumptions C89_segments_share.

(** The words of SplitTextToWords likewise; none depends on the dictionary. *)
Theorem C89_words_share : forall E c s ws, split_words E c s = Ok ws -> exists rs, split_refs E c s = Ok rs /\ map (wread s) rs = ws /\
  forall buf, map (wread buf) rs = shown_words E c s buf 0 ws.
Proof. exact words_refs. Qed.
Print Assumptions C89_words_share.

Definition s89 : bytes := str "世界A甲乙".
Definition buf89 : bytes := str "0123456789abc".
(** Not so: the result of Segment can be used after the argument was overwritten. *)
Theorem C89_reuse_refuted : exists (d : dict demo) l buf, reachable cfg0 d /\ segment_refs cfg0 d s89 false = Ok l /\ length buf = length s89 /\
  texts_now d s89 l = Ok (map str ["世界"; "a"; "甲"; "乙"]) /\ texts_now d buf l = Ok (map str ["世界"; "a"; "789"; "abc"]).
Proof.
  exists d1. eexists. exists buf89. split; [exact d1_reachable|]. split; [vm_compute; reflexivity|]. split; [reflexivity|]. split; vm_compute; reflexivity.
Qed.
Print Assumptions C89_reuse_refuted.

Example C89_ex : (do ws <- split_words demo cfg0 s89 ; Ok (shown_words demo cfg0 s89 buf89 0 ws)) = Ok (map str ["012"; "345"; "a"; "789"; "abc"]) /\
  (let c := {| c_alphanum := false; c_alpha := false; c_num := false; c_lower := false |} in
   do rs <- split_refs demo c s89 ; Ok (map (wread buf89) rs)) = Ok (map str ["012"; "345"; "6"; "789"; "abc"]) /\
  alnum_at demo cfg0 s89 6 = true.
Proof. vm_compute. repeat split. Qed.
