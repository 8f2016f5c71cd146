(** Token pointers: the backing arrays of Dict.Tokens. In M_Dict and M_Seg a pointer to a token is an index; here it is an address. *)
From Verif Require Export M_Out.
Set Implicit Arguments. Unset Strict Implicit.

Section Heap.
  Variable E : env.

  (** A *Token: entry [i] of the array [a] (dictionary.go:97), or a token allocated at segmenter.go:150-151, which nothing writes to afterwards. *)
  Inductive hptr : Type := HTok (a i : nat) | HNew (w : bytes).
  (** token.go:35-46 Segment *)
  Record hseg : Type := { hs_start : nat; hs_end : nat; hs_tok : hptr }.
  (** token.go:70-90 Token *)
  Record cell : Type := { h_text : list bytes; h_freq : f64 E; h_pos : bytes; h_dist : f32 E; h_segs : list hseg }.
  (** The arrays allocated so far; of each the entries written. No garbage collection: an array nobody points to is harmless. *)
  Definition heap : Type := list (list cell).
  (** dictionary.go:21-27 Dictionary: the slice header of Tokens is the array [hd_arr] (length: that of the list) and the capacity [hd_cap]. *)
  Record hdict : Type := { hd_trie : trie; hd_max : nat; hd_arr : nat; hd_cap : nat; hd_total : f64 E }.

  Definition array (h : heap) (a : nat) : list cell := nth a h [].
  Definition new_cell (w : bytes) : cell := {| h_text := [w]; h_freq := lit64 E 1 0; h_pos := [x78]; h_dist := lit32 E 32 0; h_segs := [] |}.
  Definition h_deref (h : heap) (p : hptr) : res cell := match p with HTok a i => get (array h a) i | HNew w => Ok (new_cell w) end.

  (** dictionary.go:30-32 NewDict; the nil slice is an empty array of capacity 0. *)
  Definition h_new (h : heap) : heap * hdict := (h ++ [[]], {| hd_trie := []; hd_max := 0; hd_arr := length h; hd_cap := 0; hd_total := lit64 E 0 0 |}).

  (** append(dict.Tokens, token): in place if there is room, otherwise a copy in a new array. How much room that one has is left open ([g]). *)
  Definition h_append (g : nat -> nat) (h : heap) (hd : hdict) (t : cell) : heap * nat * nat :=
    let l := array h (hd_arr hd) in
    if length l <? hd_cap hd then (upd h (hd_arr hd) (l ++ [t]), hd_arr hd, hd_cap hd)
    else (h ++ [l ++ [t]], length h, S (length l) + g (length l)).

  (** dictionary.go:50-71 Dictionary.AddToken *)
  Definition h_add_token (g : nat -> nat) (h : heap) (hd : hdict) (t : cell) : heap * hdict :=
    let key := text_bytes (h_text t) in
    match t_get (hd_trie hd) key with
    | Some _ => (h, hd)
    | None =>
      let n := length (array h (hd_arr hd)) in
      let r := h_append g h hd t in
      (fst (fst r), {| hd_trie := t_insert (hd_trie hd) key n; hd_arr := snd (fst r); hd_cap := snd r;
                       hd_total := add64 E (hd_total hd) (h_freq t);
                       hd_max := if hd_max hd <? length (h_text t) then length (h_text t) else hd_max hd |})
    end.
  (** dictionary.go:74-78 Dictionary.RemoveToken *)
  Definition h_remove_token (hd : hdict) (text : list bytes) : option hdict :=
    match t_delete (q_drop E) (hd_trie hd) (text_bytes text) with
    | None => None
    | Some t => Some {| hd_trie := t; hd_max := hd_max hd; hd_arr := hd_arr hd; hd_cap := hd_cap hd; hd_total := hd_total hd |}
    end.
  (** dict_util.go:63-72 ToToken *)
  Definition h_to_token (c : cfg) (text : bytes) (freq : f64 E) (pos : bytes) : res cell :=
    do ws <- split_words E c text ;
    Ok {| h_text := ws; h_freq := freq; h_pos := pos; h_dist := lit32 E 0 0; h_segs := [] |}.

  (** segmenter.go:104-183 segmentWords. It reads text and distance of entries &dict.Tokens[v] of the current array and nothing through
      other pointers, so M_Seg.segment_words is used on these; the indices it returns become pointers into the current array. *)
  Definition flat (h : heap) (hd : hdict) : dict E :=
    {| d_trie := hd_trie hd; d_max := hd_max hd; d_total := hd_total hd;
       d_tokens := map (fun x => {| t_text := h_text x; t_freq := h_freq x; t_pos := h_pos x; t_dist := h_dist x; t_segs := [] |}) (array h (hd_arr hd)) |}.
  Definition point (a : nat) (s : segment) : hseg :=
    {| hs_start := sg_start s; hs_end := sg_end s; hs_tok := match sg_tok s with InDict v => HTok a v | Fallback w => HNew w end |}.
  Definition h_segment_words (h : heap) (hd : hdict) (text : list bytes) (search : bool) : res (list hseg) :=
    do segs <- segment_words (Some (flat h hd)) text search ; Ok (map (point (hd_arr hd)) segs).
  (** segmenter.go:91-102 internalSegment *)
  Definition h_segment (c : cfg) (h : heap) (hd : hdict) (s : bytes) (search : bool) : res (list hseg) :=
    match s with [] => Ok [] | _ => do text <- split_words E c s ; h_segment_words h hd text search end.

  (** dict_util.go:471-501: which sub-segments are kept *)
  Fixpoint h_keep_subs (h : heap) (segs : list hseg) : res (list hseg) :=
    match segs with
    | [] => Ok []
    | s :: rest =>
      do t <- h_deref h (hs_tok s) ;
      do rest' <- h_keep_subs h rest ;
      Ok (if keep_sub E (h_text t) then s :: rest' else rest')
    end.
  Definition cell_dist (t : cell) (x : f32 E) : cell :=
    {| h_text := h_text t; h_freq := h_freq t; h_pos := h_pos t; h_dist := x; h_segs := h_segs t |}.
  Definition cell_segs (t : cell) (l : list hseg) : cell :=
    {| h_text := h_text t; h_freq := h_freq t; h_pos := h_pos t; h_dist := h_dist t; h_segs := l |}.
  (** dict_util.go:457-461: written into the current array *)
  Definition h_calc_dist (h : heap) (hd : hdict) : heap :=
    let lt := to32 E (m_log2 E (hd_total hd)) in
    upd h (hd_arr hd) (map (fun t => cell_dist t (sub32 E lt (to32 E (m_log2 E (h_freq t))))) (array h (hd_arr hd))).
  (** dict_util.go:465-502: one token after the other, written into the current array *)
  Fixpoint h_calc_segs (hd : hdict) (todo i : nat) (h : heap) : res heap :=
    match todo with
    | O => Ok h
    | S k =>
      do t <- get (array h (hd_arr hd)) i ;
      do segs <- h_segment_words h hd (h_text t) true ;
      do kept <- h_keep_subs h segs ;
      h_calc_segs hd k (S i) (upd h (hd_arr hd) (upd (array h (hd_arr hd)) i (cell_segs t kept)))
    end.
  (** dict_util.go:454-503 CalcToken *)
  Definition h_calc_token (h : heap) (hd : hdict) : res heap :=
    let h1 := h_calc_dist h hd in h_calc_segs hd (length (array h1 (hd_arr hd))) 0 h1.

  (** The calls of M_Seg.dop, and a new dictionary in place of the old one. *)
  Inductive hop : Type := HReset | HOp (o : dop E).
  Definition h_op (g : nat -> nat) (c : cfg) (s : heap * hdict) (o : hop) : res (heap * hdict) :=
    let (h, hd) := s in
    match o with
    | HReset => Ok (h_new h)
    | HOp (OpAdd text freq pos) => do t <- h_to_token c text freq pos ; Ok (h_add_token g h hd t)
    | HOp (OpReAdd text freq pos) =>
      do t <- h_to_token c text freq pos ;
      Ok (match h_remove_token hd (h_text t) with None => (h, hd) | Some hd' => h_add_token g h hd' t end)
    | HOp (OpRemove text) =>
      do ws <- split_words E c text ; Ok (match h_remove_token hd ws with None => (h, hd) | Some hd' => (h, hd') end)
    | HOp OpCalc => do h' <- h_calc_token h hd ; Ok (h', hd)
    end.
  Fixpoint h_run (g : nat -> nat) (c : cfg) (s : heap * hdict) (os : list hop) : res (heap * hdict) :=
    match os with [] => Ok s | o :: os' => do s' <- h_op g c s o ; h_run g c s' os' end.

  (** seg_utils.go: as in M_Out, through the pointers. *)
  Fixpoint h_walk (A : Type) (rec : cell -> res (list A)) (h : heap) (subs : list hseg) (hasOnly : bool) (out : list A) : res (list A) :=
    match subs with
    | [] => Ok out
    | s :: rest =>
      do t <- h_deref h (hs_tok s) ;
      do b <- (if 1 <? length (h_segs t) then Ok true else do w <- get (h_text t) 0 ; Ok (is_jp E w)) ;
      let hasOnly' := if (b : bool) then false else hasOnly in
      if hasOnly' then h_walk rec h rest hasOnly' out else do o <- rec t ; h_walk rec h rest hasOnly' (out ++ o)
    end.
  (** seg_utils.go:98-112 tokenToSlice, :52-66 tokenToString, :140-159 tokenToPos, which differ in [leaf] *)
  Fixpoint h_token (A : Type) (leaf : cell -> list A) (fuel : nat) (h : heap) (t : cell) : res (list A) :=
    match fuel with
    | O => Hang
    | S f => do out <- h_walk (h_token leaf f h) h (h_segs t) true [] ; Ok (out ++ leaf t)
    end.
  Fixpoint h_loop (A : Type) (f : cell -> res (list A)) (h : heap) (segs : list hseg) (out : list A) : res (list A) :=
    match segs with
    | [] => Ok out
    | s :: rest => do t <- h_deref h (hs_tok s) ; do o <- f t ; h_loop f h rest (out ++ o)
    end.
  (** seg_utils.go:79-96 ToSlice, :32-50 ToString, :115-138 ToPos *)
  Definition h_out (A : Type) (leaf : cell -> list A) (fuel : nat) (h : heap) (segs : list hseg) (mode : bool) : res (list A) :=
    h_loop (if mode then h_token leaf fuel h else fun t => Ok (leaf t)) h segs [].
  Definition h_to_slice : nat -> heap -> list hseg -> bool -> res (list bytes) := h_out (fun t => [join (h_text t)]).
  Definition h_to_string : nat -> heap -> list hseg -> bool -> res bytes := h_out (fun t => render (join (h_text t), h_pos t)).
  Definition h_to_pos : nat -> heap -> list hseg -> bool -> res (list (bytes * bytes)) := h_out (fun t => [(join (h_text t), h_pos t)]).
End Heap.
Arguments HReset {E}.
