(** Memory shared with the caller: Segment and SplitTextToWords take a []byte and return parts of it. *)
From Verif Require Export M_Seg.
Set Implicit Arguments. Unset Strict Implicit.

(** A word ([]byte): bytes from-to of the caller's array, or its own copy. *)
Inductive wref : Type := Part (from to : nat) | Copy (w : bytes).
(** What it reads as when the caller's array holds [buf]. *)
Definition wread (buf : bytes) (r : wref) : bytes := match r with Part a b => slice buf a b | Copy w => w end.

Section Alias.
  Variable E : env.
  Variable c : cfg.

  (** segmenter.go:250-270 toLow(text[a:b]): toLower copies. *)
  Definition low_ref (text : bytes) (a b : nat) : res wref :=
    do w <- gslice text a b ; Ok (if c_lower c then Copy (to_lower w) else Part a b).
  Definition part_ref (text : bytes) (a b : nat) : res wref := do w <- gslice text a b ; Ok (Part a b).

  (** segmenter.go:210-245, as M_Split.split_loop *)
  Fixpoint ref_loop (fuel : nat) (text : bytes) (current alnumStart : nat) (inAlnum : bool) (output : list wref) : res (list wref) :=
    if current <? length text then
      match fuel with
      | O => Hang
      | S f =>
        let rs := decode_rune (skipn current text) in
        let r := fst rs in
        let size := snd rs in
        let isNum := is_number E r && negb (c_num c) in
        let isAlpha := is_letter E r && negb (c_alpha c) in
        if (size <=? 2) && (isAlpha || isNum) then
          let alnumStart' := if inAlnum then alnumStart else current in
          do output' <- (if c_alphanum c then do w <- low_ref text current (current + size) ; Ok (output ++ [w]) else Ok output) ;
          ref_loop f text (current + size) alnumStart' true output'
        else
          do output' <- (if inAlnum then
                           if negb (current =? 0) && negb (c_alphanum c) then do w <- low_ref text alnumStart current ; Ok (output ++ [w])
                           else Ok output
                         else Ok output) ;
          do w <- part_ref text current (current + size) ;
          ref_loop f text (current + size) alnumStart false (output' ++ [w])
      end
    else if inAlnum && negb (c_alphanum c) then
      if negb (current =? 0) then do w <- low_ref text alnumStart current ; Ok (output ++ [w]) else Ok output
    else Ok output.
  (** segmenter.go:208-248 SplitTextToWords *)
  Definition split_refs (text : bytes) : res (list wref) := ref_loop (length text) text 0 0 true [].

  (** segmenter.go:150-151: the fallback token for word number [current] holds text[current] itself; the tokens of the dictionary were
      made from strings (dict_util.go:65 []byte(text)), which are copied. [rs]: the words not yet passed. *)
  Fixpoint attach (d : dict E) (rs : list wref) (segs : list segment) : res (list (segment * option wref)) :=
    match segs with
    | [] => Ok []
    | s :: rest =>
      do t <- deref d (sg_tok s) ;
      do o <- (match sg_tok s with Fallback _ => do r <- get rs 0 ; Ok (Some r) | InDict _ => Ok None end) ;
      do l <- attach d (skipn (length (t_text t)) rs) rest ;
      Ok ((s, o) :: l)
    end.
  (** segmenter.go:91-102 internalSegment: the segments, and for fallback tokens where their word is. *)
  Definition segment_refs (d : dict E) (s : bytes) (m : bool) : res (list (segment * option wref)) :=
    do segs <- internal_segment c (Some d) s m ;
    do rs <- split_refs s ;
    attach d rs segs.
  (** token.go:93-95 Token.Text of each, when the caller's array holds [buf]. *)
  Fixpoint texts_now (d : dict E) (buf : bytes) (l : list (segment * option wref)) : res (list bytes) :=
    match l with
    | [] => Ok []
    | (s, o) :: rest =>
      do w <- (match o with Some r => Ok (wread buf r) | None => do t <- deref d (sg_tok s) ; Ok (concat (t_text t)) end) ;
      do l' <- texts_now d buf rest ;
      Ok (w :: l')
    end.
End Alias.
