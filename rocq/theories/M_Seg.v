(** Shortest-path segmentation: segmenter.go:61-199, and CalcToken (dict_util.go:454-503). *)
From Verif Require Export M_Dict.
Set Implicit Arguments. Unset Strict Implicit.

Section Seg.
  Variable E : env.

  (** The token a pointer refers to; the fallback token is segmenter.go:151. *)
  Definition fallback_token (w : bytes) : token E :=
    {| t_text := [w]; t_freq := lit64 E 1 0; t_pos := [x78]; t_dist := lit32 E 32 0; t_segs := [] |}.
  Definition deref (d : dict E) (r : tref) : res (token E) :=
    match r with
    | InDict i => get (d_tokens d) i
    | Fallback w => Ok (fallback_token w)
    end.

  (** segmenter.go:63-66 jumper; a nil token is [None]. *)
  Definition jumper : Type := (f32 E * option tref)%type.

  (** segmenter.go:193-199 updateJumper *)
  Definition update_jumper (j : jumper) (base dist : f32 E) (tok : tref) : jumper :=
    let nd := add32 E base dist in
    if eqb32 E (fst j) (lit32 E 0 0) || ltb32 E nd (fst j) then (nd, Some tok) else j.

  (** segmenter.go:140-145, the loop over the tokens found at [current]. *)
  Fixpoint update_all (d : dict E) (search : bool) (n current : nat) (base : f32 E)
           (found : list nat) (js : list jumper) : res (list jumper) :=
    match found with
    | [] => Ok js
    | v :: vs =>
      do t <- get (d_tokens d) v ;
      (* location := current + len(text) - 1; for an empty text this could be current-1 *)
      match current + length (t_text t) with
      | O => Panic
      | S location =>
        if negb search || negb (current =? 0) || negb (S location =? n) then
          do j <- get js location ;
          update_all d search n current base vs (upd js location (update_jumper j base (t_dist t) (InDict v)))
        else update_all d search n current base vs js
      end
    end.

  (** segmenter.go:122-153, one iteration of the forward loop *)
  Definition seg_step (d : dict E) (search : bool) (text : list bytes) (current : nat)
             (js : list jumper) : res (list jumper) :=
    do base <- (match current with
                | O => Ok (lit32 E 0 0)
                | S p => do j <- get js p ; Ok (fst j)
                end) ;
    do tx <- gslice text current (Nat.min (current + d_max d) (length text)) ;
    do found <- lookup_tokens d (d_max d) tx ;
    do js' <- update_all d search (length text) current base found js ;
    do add <- (match found with
               | [] => Ok true
               | v :: _ => do t <- get (d_tokens d) v ; Ok (1 <? length (t_text t))
               end) ;
    if (add : bool) then
      do w <- get text current ;
      do j <- get js' current ;
      Ok (upd js' current (update_jumper j base (lit32 E 32 0) (Fallback w)))
    else Ok js'.

  (** the forward loop, [todo] iterations from [current] *)
  Fixpoint seg_forward (d : dict E) (search : bool) (text : list bytes) (todo current : nat)
           (js : list jumper) : res (list jumper) :=
    match todo with
    | O => Ok js
    | S k => do js' <- seg_step d search text current js ;
             seg_forward d search text k (S current) js'
    end.

  (** segmenter.go:155-172: the two backward scans, fused (the first only counts, the second writes the
      same number of entries). [idx1] is index+1; index - len + 1 - 1 below zero stops the loop, as does
      truncated subtraction here. A nil token panics. *)
  Fixpoint seg_back (d : dict E) (fuel : nat) (js : list jumper) (idx1 : nat) (acc : list tref) : res (list tref) :=
    match idx1 with
    | O => Ok acc
    | S index =>
      match fuel with
      | O => Hang
      | S f =>
        do j <- get js index ;
        match snd j with
        | None => Panic
        | Some r => do t <- deref d r ;
                    seg_back d f js (idx1 - length (t_text t)) (r :: acc)
        end
      end
    end.

  (** seg_utils.go:175-180 textSliceByteLen *)
  Fixpoint text_len (text : list bytes) : nat :=
    match text with [] => 0 | w :: ws => length w + text_len ws end.

  (** segmenter.go:174-180, byte positions *)
  Fixpoint positions (d : dict E) (pos : nat) (rs : list tref) : res (list segment) :=
    match rs with
    | [] => Ok []
    | r :: rs' =>
      do t <- deref d r ;
      let e := pos + text_len (t_text t) in
      do rest <- positions d e rs' ;
      Ok ({| sg_start := pos; sg_end := e; sg_tok := r |} :: rest)
    end.

  (** segmenter.go:104-183 segmentWords; [None] is a nil Dict. nil and empty results are not distinguished. *)
  Definition segment_words (od : option (dict E)) (text : list bytes) (search : bool) : res (list segment) :=
    if search && (length text =? 1) then Ok []
    else
      match od with
      | None => Ok []
      | Some d =>
        do js <- seg_forward d search text (length text) 0 (repeat (lit32 E 0 0, None) (length text)) ;
        do rs <- seg_back d (length text) js (length text) [] ;
        positions d 0 rs
      end.

  (** segmenter.go:91-102 internalSegment; Segment is mode false, ModeSegment(bytes, m) mode m. *)
  Definition internal_segment (c : cfg) (od : option (dict E)) (s : bytes) (search : bool) : res (list segment) :=
    match s with
    | [] => Ok []
    | _ => do text <- split_words E c s ; segment_words od text search
    end.

  (** dict_util.go:442-451 IsJp: some rune is Hiragana or Katakana *)
  Definition is_jp (s : bytes) : bool := existsb (is_kana E) (runes_of s).

  (** dict_util.go:471-501: which sub-segments are kept *)
  Definition keep_sub (text : list bytes) : bool :=
    match text with
    | [] => false
    | [w] => negb (is_jp w)
    | _ => true
    end.

  Fixpoint keep_subs (d : dict E) (segs : list segment) : res (list segment) :=
    match segs with
    | [] => Ok []
    | s :: rest =>
      do t <- deref d (sg_tok s) ;
      do rest' <- keep_subs d rest ;
      Ok (if keep_sub (t_text t) then s :: rest' else rest')
    end.

  Definition set_dist (t : token E) (x : f32 E) : token E :=
    {| t_text := t_text t; t_freq := t_freq t; t_pos := t_pos t; t_dist := x; t_segs := t_segs t |}.
  Definition set_segs (t : token E) (l : list segment) : token E :=
    {| t_text := t_text t; t_freq := t_freq t; t_pos := t_pos t; t_dist := t_dist t; t_segs := l |}.
  Definition set_tokens (d : dict E) (l : list (token E)) : dict E :=
    {| d_trie := d_trie d; d_max := d_max d; d_tokens := l; d_total := d_total d |}.

  (** dict_util.go:457-461 *)
  Definition calc_dist (d : dict E) : dict E :=
    let lt := to32 E (m_log2 E (d_total d)) in
    set_tokens d (map (fun t => set_dist t (sub32 E lt (to32 E (m_log2 E (t_freq t))))) (d_tokens d)).

  (** dict_util.go:465-502. segmentWords reads only text and distance of tokens, which this loop does
      not change, so all tokens are segmented against the same dictionary. *)
  Fixpoint calc_segs (d : dict E) (ts : list (token E)) : res (list (token E)) :=
    match ts with
    | [] => Ok []
    | t :: ts' =>
      do segs <- segment_words (Some d) (t_text t) true ;
      do kept <- keep_subs d segs ;
      do rest <- calc_segs d ts' ;
      Ok (set_segs t kept :: rest)
    end.

  (** dict_util.go:454-503 CalcToken (nil Dict handled by callers) *)
  Definition calc_token (d : dict E) : res (dict E) :=
    let d1 := calc_dist d in
    do ts <- calc_segs d1 (d_tokens d1) ;
    Ok (set_tokens d1 ts).

  (** dict_util.go:82-86 AddTokenForce *)
  Definition seg_add_force (c : cfg) (d : dict E) (text : bytes) (freq : f64 E) (pos : bytes) : res (dict E) :=
    do d' <- seg_add_token c d text freq pos ; calc_token d'.

  (** Dictionaries reachable from an empty one by API calls under fixed splitting options [c].
      (The loaders of M_Load are sequences of these steps.) *)
  Inductive dop : Type :=
  | OpAdd (text : bytes) (freq : f64 E) (pos : bytes)
  | OpReAdd (text : bytes) (freq : f64 E) (pos : bytes)
  | OpRemove (text : bytes)
  | OpCalc.

  Definition run_op (c : cfg) (d : dict E) (o : dop) : res (dict E) :=
    match o with
    | OpAdd text freq pos => seg_add_token c d text freq pos
    | OpReAdd text freq pos => do r <- seg_readd_token c d text freq pos ; Ok (fst r)
    | OpRemove text => do r <- seg_remove_token c d text ; Ok (fst r)
    | OpCalc => calc_token d
    end.

  Fixpoint run_ops (c : cfg) (d : dict E) (os : list dop) : res (dict E) :=
    match os with
    | [] => Ok d
    | o :: os' => do d' <- run_op c d o ; run_ops c d' os'
    end.

  Definition reachable (c : cfg) (d : dict E) : Prop := exists os, run_ops c (new_dict E) os = Ok d.
End Seg.
Arguments OpRemove {E} text.
Arguments OpCalc {E}.
