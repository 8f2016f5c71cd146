(** A pos.Segmenter and a TextRanker over their lives: hmm/pos/pos_seg.go:43-56, hmm/pos/dict.go, hmm/idf/textrank.go:18-33. *)
From Verif Require Export M_Rank M_New.
Set Implicit Arguments. Unset Strict Implicit.
Local Open Scope lit_scope.

Section Ranker.
  Variable E : env.

  (** Both hold one gse.Segmenter (hmm/pos/pos_seg.go:43-45, hmm/pos/dict.go:24-27); the field HMM of TextRanker is not read, the
      fields total and logTotal of Dict are not written. Setting up, hmm/pos/pos_seg.go:48-56 and hmm/idf/textrank.go:24-33.
      The Segmenter given to WithGse is copied (the copy shares its dictionary with the original; the client does not
      change the original afterwards). *)
  Inductive rop : Type :=
  | RGse (s : seg E)                            (* WithGse *)
  | RDict (fs : fsys) (arg : option bytes).     (* LoadDict *)
  (** The error returned by LoadDict is dropped. *)
  Definition r_step (s : seg E) (o : rop) : res (seg E) :=
    match o with RGse s' => Ok s' | RDict fs arg => do r <- load_dict s fs arg ; Ok (fst r) end.
  Fixpoint r_run (s : seg E) (os : list rop) : res (seg E) :=
    match os with [] => Ok s | o :: t => do s' <- r_step s o ; r_run s' t end.

  (** hmm/pos/pos_seg.go:319-355 Cut. With a nil dictionary the first lookup (getDag, hmm/pos/pos_seg.go:123) panics, and every block
      that is cut has a first character. *)
  Definition pos_cut_opt (od : option (dict E)) (tb : ptab E) (ord : nat -> nat -> nat -> orders) (text : bytes) (hmm : bool) : res (list (bytes * bytes)) :=
    match od with
    | Some d => pos_cut d tb ord text hmm
    | None =>
      do blks <- split_by (reg_run (han_internal E)) text ;
      concat_res (map (fun blk : bytes =>
        if matches (reg_run (han_internal E)) blk then Panic
        else do xs <- split_by re_skip_internal blk ;
             Ok (flat_map (fun x => if matches re_skip_internal x then [(x, str "x")] else pos_chars x) xs)) blks)
    end.
  (** hmm/idf/textrank.go:141-187 TextRankWithPOS, TextRank *)
  Definition r_rank_pos (srt : sort_fn) (oc : cmap E -> cmap E) (o1 o2 : list (bytes * f64 E) -> list (bytes * f64 E))
      (s : seg E) (tb : ptab E) (ord : nat -> nat -> nat -> orders) (text : bytes) (topK : Z) (allow : list bytes) : res (list (wseg E)) :=
    do ps <- pos_cut_opt (s_dict s) tb ord text true ;
    Ok (rank_pieces srt oc o1 o2 ps topK allow).
  Definition r_rank srt oc o1 o2 s tb ord text topK := r_rank_pos srt oc o1 o2 s tb ord text topK default_pos.
End Ranker.
Arguments RDict {E}.
