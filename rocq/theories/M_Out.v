(** Turning segments into strings: seg_utils.go, and Slice/String/Pos/Cut of gse.go. *)
From Verif Require Export M_Seg.
Set Implicit Arguments. Unset Strict Implicit.

(** [copy(b[bp:], s)]: the new buffer and the number of bytes copied. *)
Definition copy_at (b : bytes) (bp : nat) (s : bytes) : bytes * nat :=
  let n := Nat.min (length b - bp) (length s) in
  (firstn bp b ++ firstn n s ++ skipn (bp + n) b, n).

Fixpoint join_rest (b : bytes) (bp : nat) (text : list bytes) : bytes :=
  match text with
  | [] => b
  | w :: ws => let r := copy_at b bp w in join_rest (fst r) (bp + snd r) ws
  end.

(** seg_utils.go:192-219 Join *)
Definition join (text : list bytes) : bytes :=
  match text with
  | [] => []
  | [a] => a
  | [a; b] => a ++ b
  | [a; b; c] => a ++ b ++ c
  | a :: rest =>
    let n := text_len text in
    let b := repeat x00 n in
    let r := copy_at b 0 a in
    join_rest (fst r) (snd r) rest
  end.

(** token.go:118-141 Token.Equals: the byte loops. [idx] is the position in str. *)
Fixpoint eq_bytes (w : bytes) (s : bytes) (idx : nat) : res (option nat) :=
  match w with
  | [] => Ok (Some idx)
  | b :: w' => do c <- get s idx ; if Byte.eqb b c then eq_bytes w' s (S idx) else Ok None
  end.
Fixpoint eq_words (ws : list bytes) (s : bytes) (idx : nat) : res bool :=
  match ws with
  | [] => Ok true
  | w :: ws' => do r <- eq_bytes w s idx ;
                match r with None => Ok false | Some idx' => eq_words ws' s idx' end
  end.
Definition token_equals (text : list bytes) (s : bytes) : res bool :=
  if text_len text =? length s then eq_words text s 0 else Ok false.

Section Out.
  Variable E : env.

  (** The loop shared by tokenToString, tokenToSlice and tokenToPos (seg_utils.go:53-62, 99-108, 141-150;
      the three differ only in the type of the output and in the redundant test s != nil). *)
  Fixpoint walk_subs (A : Type) (rec : token E -> res (list A)) (d : dict E) (subs : list segment)
           (hasOnly : bool) (out : list A) : res (list A) :=
    match subs with
    | [] => Ok out
    | s :: rest =>
      do t <- deref d (sg_tok s) ;
      do b <- (if 1 <? length (t_segs t) then Ok true
               else do w <- get (t_text t) 0 ; Ok (is_jp E w)) ;
      let hasOnly' := if (b : bool) then false else hasOnly in
      if hasOnly' then walk_subs rec d rest hasOnly' out
      else do o <- rec t ; walk_subs rec d rest hasOnly' (out ++ o)
    end.

  (** seg_utils.go:98-112 tokenToSlice *)
  Fixpoint token_to_slice (fuel : nat) (d : dict E) (t : token E) : res (list bytes) :=
    match fuel with
    | O => Hang
    | S f => do out <- walk_subs (token_to_slice f d) d (t_segs t) true [] ;
             Ok (out ++ [join (t_text t)])
    end.

  (** fmt.Sprintf("%s/%s ", text, pos) *)
  Definition render (tp : bytes * bytes) : bytes := fst tp ++ [x2f] ++ snd tp ++ [x20].

  (** seg_utils.go:52-66 tokenToString *)
  Fixpoint token_to_string (fuel : nat) (d : dict E) (t : token E) : res bytes :=
    match fuel with
    | O => Hang
    | S f => do out <- walk_subs (token_to_string f d) d (t_segs t) true [] ;
             Ok (out ++ render (join (t_text t), t_pos t))
    end.

  (** seg_utils.go:140-159 tokenToPos; SegPos (gse.go:159-161) is a pair text, pos *)
  Fixpoint token_to_pos (fuel : nat) (d : dict E) (t : token E) : res (list (bytes * bytes)) :=
    match fuel with
    | O => Hang
    | S f => do out <- walk_subs (token_to_pos f d) d (t_segs t) true [] ;
             Ok (out ++ [(join (t_text t), t_pos t)])
    end.

  (** seg_utils.go:79-96 ToSlice, :32-50 ToString, :115-138 ToPos: loops over the segments. *)
  Fixpoint seg_loop (A : Type) (f : token E -> res (list A)) (d : dict E) (segs : list segment)
           (out : list A) : res (list A) :=
    match segs with
    | [] => Ok out
    | s :: rest => do t <- deref d (sg_tok s) ;
                   do o <- f t ;
                   seg_loop f d rest (out ++ o)
    end.

  Definition to_slice (fuel : nat) (d : dict E) (segs : list segment) (mode : bool) : res (list bytes) :=
    if mode then seg_loop (token_to_slice fuel d) d segs []
    else seg_loop (fun t => Ok [join (t_text t)]) d segs [].
  Definition to_string (fuel : nat) (d : dict E) (segs : list segment) (mode : bool) : res bytes :=
    if mode then seg_loop (token_to_string fuel d) d segs []
    else seg_loop (fun t => Ok (render (join (t_text t), t_pos t))) d segs [].
  Definition to_pos (fuel : nat) (d : dict E) (segs : list segment) (mode : bool) : res (list (bytes * bytes)) :=
    if mode then seg_loop (token_to_pos fuel d) d segs []
    else seg_loop (fun t => Ok [(join (t_text t), t_pos t)]) d segs [].

  (** A recursion depth that always suffices for the sub-token trees (proved in C08): one more than the
      number of bytes of the text. *)
  Definition depth (s : bytes) : nat := S (length s).

  (** gse.go:146-149 Slice, :153-156 String, :164-167 Pos. With a nil Dict there are no segments. *)
  Definition seg_slice (c : cfg) (od : option (dict E)) (s : bytes) (mode : bool) : res (list bytes) :=
    do segs <- internal_segment c od s mode ;
    match od with Some d => to_slice (depth s) d segs mode | None => Ok [] end.
  Definition seg_string (c : cfg) (od : option (dict E)) (s : bytes) (mode : bool) : res bytes :=
    do segs <- internal_segment c od s mode ;
    match od with Some d => to_string (depth s) d segs mode | None => Ok [] end.
  Definition seg_pos (c : cfg) (od : option (dict E)) (s : bytes) (mode : bool) : res (list (bytes * bytes)) :=
    do segs <- internal_segment c od s mode ;
    match od with Some d => to_pos (depth s) d segs mode | None => Ok [] end.

  (** gse.go:68-72 Cut without hmm argument *)
  Definition cut_default (c : cfg) (od : option (dict E)) (s : bytes) : res (list bytes) :=
    seg_slice c od s false.
  (** gse.go:82-85 CutSearch without hmm argument *)
  Definition cut_search_default (c : cfg) (od : option (dict E)) (s : bytes) : res (list bytes) :=
    seg_slice c od s true.
End Out.
