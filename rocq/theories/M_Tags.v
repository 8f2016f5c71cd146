(** A TagExtracter over its life: hmm/idf/tag_extracker.go. *)
From Verif Require Export M_Idf M_New.
Set Implicit Arguments. Unset Strict Implicit.

Section Tags.
  Variable E : env.

  (** hmm/idf/tag_extracker.go:13-18 TagExtracter; the StopWord is a number into [h_sws]. *)
  Record textr : Type := { te_seg : seg E; te_idf : option (idf E); te_stop : option nat }.
  (** One extractor and all maps of stop words. *)
  Record tstate : Type := { x_heap : sheap; x_te : textr }.

  (** Calls of a client. The Segmenter given to WithGse is copied (the copy shares its dictionary with the original;
      the client does not change the original afterwards). *)
  Inductive top : Type :=
  | TGse (s : seg E)                                                (* WithGse *)
  | TDict (fs : fsys) (arg : option bytes)                          (* LoadDict *)
  | TIdf (fs : fsys) (path : bytes) (arg : option bytes)            (* LoadIdf *)
  | TIdfStr (text : bytes)                                          (* LoadIdfStr *)
  | TIdfAdd (text : bytes) (freq : f64 E) (pos : bytes)             (* t.Idf.AddToken *)
  | TStop (fs : spath -> option bytes) (files : list bytes)         (* LoadStopWords *)
  | TOther (o : swop).                                              (* a call on some StopWord, or of NewStopWord *)

  Definition new_stop (x : tstate) : tstate :=
    {| x_heap := h_step (x_heap x) WNew;
       x_te := {| te_seg := te_seg (x_te x); te_idf := te_idf (x_te x); te_stop := Some (length (h_sws (x_heap x))) |} |}.
  Definition with_seg (x : tstate) (s : seg E) : tstate :=
    {| x_heap := x_heap x; x_te := {| te_seg := s; te_idf := te_idf (x_te x); te_stop := te_stop (x_te x) |} |}.
  Definition with_idf (x : tstate) (i : idf E) : tstate :=
    {| x_heap := x_heap x; x_te := {| te_seg := te_seg (x_te x); te_idf := Some i; te_stop := te_stop (x_te x) |} |}.

  (** hmm/idf/tag_extracker.go:21-49, one call; the errors returned are dropped (their effects are not). [s0] is the zero
      Segmenter of NewIdf (hmm/idf/idf.go:66-69). *)
  Definition t_step (srt : sort_fn) (s0 : seg E) (x : tstate) (o : top) : res tstate :=
    match o with
    | TGse s => Ok (with_seg (new_stop x) s)
    | TDict fs arg => let x := new_stop x in do r <- load_dict (te_seg (x_te x)) fs arg ; Ok (with_seg x (fst r))
    | TIdf fs path arg => do r <- load_idf fs path s0 arg ; Ok (with_idf x (fst r))
    | TIdfStr text => do i <- load_idf_str s0 text ; Ok (with_idf x i)
    | TIdfAdd text freq pos =>
      match te_idf (x_te x) with None => Panic | Some i => do i' <- idf_add srt i text freq pos ; Ok (with_idf x i') end
    | TStop fs files =>
      Ok {| x_heap := h_step (x_heap (new_stop x)) (WLoad (length (h_sws (x_heap x))) fs files); x_te := x_te (new_stop x) |}
    | TOther o => Ok {| x_heap := h_step (x_heap x) o; x_te := x_te x |}
    end.
  Fixpoint t_run (srt : sort_fn) (s0 : seg E) (x : tstate) (os : list top) : res tstate :=
    match os with [] => Ok x | o :: t => do x' <- t_step srt s0 x o ; t_run srt s0 x' t end.
  (** [var te idf.TagExtracter] *)
  Definition t_zero (h : sheap) (s0 : seg E) : tstate := {| x_heap := h; x_te := {| te_seg := s0; te_idf := None; te_stop := None |} |}.

  (** The map of t.stopWord *)
  Definition stop_map (x : tstate) : option (list bytes) :=
    match te_stop (x_te x) with
    | None => None
    | Some n => match nth_error (h_sws (x_heap x)) n with Some (p, _) => Some (nth p (h_maps (x_heap x)) []) | None => Some [] end
    end.
  (** hmm/idf/tag_extracker.go:52-99: with a nil dictionary calc (dag.go:176) panics, also for the empty text. *)
  Definition t_extract (srt : sort_fn) (o1 o2 : fmap E -> fmap E) (em : emits E) (x : tstate) (text : bytes) (topK : Z) : res (list (wseg E)) :=
    match s_dict (te_seg (x_te x)) with
    | None => Panic
    | Some d => extract_tags srt o1 o2 d (s_cfg (te_seg (x_te x))) em (stop_map x) (te_idf (x_te x)) text topK
    end.
End Tags.
Arguments TDict {E}. Arguments TIdf {E}. Arguments TIdfStr {E}. Arguments TStop {E}. Arguments TOther {E}.
