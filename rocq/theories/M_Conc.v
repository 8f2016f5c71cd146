(** Goroutines that share a dictionary: Segment, Find, AddToken, RemoveToken and CalcToken as programs that access it step by step.
    Simplifications: the accesses are sequentially consistent and those written as one step here are atomic, in particular each call of the trie. *)
From Verif Require Export M_Seg.
Set Implicit Arguments. Unset Strict Implicit.

Section Prog.
  Variable E : env.
  (** A goroutine that still has to run: every [Read] or [Write] is one step. [Crash]: it has panicked. [Stuck]: the fuel of a loop is exhausted. *)
  Inductive prog (A : Type) : Type :=
  | Ret (a : A)
  | Crash
  | Stuck
  | Read (f : dict E -> prog A)
  | Write (f : dict E -> dict E) (p : prog A).
  Arguments Crash {A}. Arguments Stuck {A}.
  Fixpoint bnd (A B : Type) (p : prog A) (k : A -> prog B) : prog B :=
    match p with
    | Ret a => k a
    | Crash => Crash
    | Stuck => Stuck
    | Read f => Read (fun d => bnd (f d) k)
    | Write f p => Write f (bnd p k)
    end.
  Definition local (A : Type) (r : res A) : prog A := match r with Ok a => Ret a | Panic => Crash | Hang => Stuck end.
  Definition read (A : Type) (f : dict E -> res A) : prog A := Read (fun d => local (f d)).

  (** dictionary.go:82-103 LookupTokens *)
  Fixpoint lookup_p (cap : nat) (words : list bytes) (id : bytes) (acc : list nat) : prog (list nat) :=
    match words with
    | [] => Ret acc
    | w :: ws =>
      Read (fun d => match t_jump (d_trie d) w id with
        | None => Ret acc
        | Some id' =>
          Read (fun d => match t_value (d_trie d) id' with
            | None => lookup_p cap ws id' acc
            | Some v => Read (fun d => if (length acc <? cap) && (v <? length (d_tokens d)) then lookup_p cap ws id' (acc ++ [v]) else Crash)
            end)
        end)
    end.
  (** segmenter.go:140-145; the text and the distance of a token are read together. *)
  Fixpoint update_all_p (search : bool) (n current : nat) (base : f32 E) (found : list nat) (js : list (jumper E)) : prog (list (jumper E)) :=
    match found with
    | [] => Ret js
    | v :: vs =>
      bnd (read (fun d => get (d_tokens d) v)) (fun t =>
      match current + length (t_text t) with
      | O => Crash
      | S location =>
        if negb search || negb (current =? 0) || negb (S location =? n) then
          bnd (local (get js location)) (fun j =>
          update_all_p search n current base vs (upd js location (update_jumper j base (t_dist t) (InDict v))))
        else update_all_p search n current base vs js
      end)
    end.
  (** segmenter.go:122-153; [cap]: the length of the slice made at 121. *)
  Definition seg_step_p (cap : nat) (search : bool) (text : list bytes) (current : nat) (js : list (jumper E)) : prog (list (jumper E)) :=
    bnd (local (match current with O => Ok (lit32 E 0 0) | S p => do j <- get js p ; Ok (fst j) end)) (fun base =>
    bnd (read (fun d => gslice text current (Nat.min (current + d_max d) (length text)))) (fun tx =>
    bnd (lookup_p cap tx [] []) (fun found =>
    bnd (update_all_p search (length text) current base found js) (fun js' =>
    bnd (match found with [] => Ret true | v :: _ => read (fun d => do t <- get (d_tokens d) v ; Ok (1 <? length (t_text t))) end) (fun add : bool =>
    if add then
      bnd (local (get text current)) (fun w =>
      bnd (local (get js' current)) (fun j =>
      Ret (upd js' current (update_jumper j base (lit32 E 32 0) (Fallback w)))))
    else Ret js'))))).
  Fixpoint seg_forward_p (cap : nat) (search : bool) (text : list bytes) (todo current : nat) (js : list (jumper E)) : prog (list (jumper E)) :=
    match todo with
    | O => Ret js
    | S k => bnd (seg_step_p cap search text current js) (fun js' => seg_forward_p cap search text k (S current) js')
    end.
  (** segmenter.go:155-172, fused as in M_Seg. *)
  Fixpoint seg_back_p (fuel : nat) (js : list (jumper E)) (idx1 : nat) (acc : list tref) : prog (list tref) :=
    match idx1 with
    | O => Ret acc
    | S index =>
      match fuel with
      | O => Stuck
      | S f =>
        bnd (local (get js index)) (fun j =>
        match snd j with
        | None => Crash
        | Some r => bnd (read (fun d => deref d r)) (fun t => seg_back_p f js (idx1 - length (t_text t)) (r :: acc))
        end)
      end
    end.
  (** segmenter.go:174-180 *)
  Fixpoint positions_p (pos : nat) (rs : list tref) : prog (list segment) :=
    match rs with
    | [] => Ret []
    | r :: rs' =>
      bnd (read (fun d => deref d r)) (fun t =>
      let e := pos + text_len (t_text t) in
      bnd (positions_p e rs') (fun rest => Ret ({| sg_start := pos; sg_end := e; sg_tok := r |} :: rest)))
    end.
  (** segmenter.go:104-183 segmentWords, with a Dict *)
  Definition segment_words_p (text : list bytes) (search : bool) : prog (list segment) :=
    if search && (length text =? 1) then Ret []
    else
      bnd (read (fun d => Ok (d_max d))) (fun cap =>
      bnd (seg_forward_p cap search text (length text) 0 (repeat (lit32 E 0 0, None) (length text))) (fun js =>
      bnd (seg_back_p (length text) js (length text) []) (fun rs =>
      positions_p 0 rs))).
  (** segmenter.go:77-102 Segment, ModeSegment, internalSegment *)
  Definition segment_p (c : cfg) (s : bytes) (search : bool) : prog (list segment) :=
    match s with
    | [] => Ret []
    | _ => bnd (local (split_words E c s)) (fun text => segment_words_p text search)
    end.
  (** dictionary.go:107-132 Find *)
  Definition find_p (word : bytes) : prog (f64 E * bytes * bool) :=
    Read (fun d => match t_jump (d_trie d) word [] with
      | None => Ret (lit64 E 0 0, [], false)
      | Some id =>
        Read (fun d => match t_value (d_trie d) id with
          | None => match id with [] => Ret (lit64 E 0 0, [], false) | _ => Ret (lit64 E 0 0, [], true) end
          | Some v => read (fun d => do t <- get (d_tokens d) v ; Ok (t_freq t, t_pos t, true))
          end)
      end).

  (** dictionary.go:50-71 AddToken *)
  Definition add_token_p (t : token E) : prog unit :=
    let key := text_bytes (t_text t) in
    Read (fun d => match t_get (d_trie d) key with
      | Some _ => Ret tt
      | None =>
        Read (fun d => let n := length (d_tokens d) in
        Write (fun d => {| d_trie := t_insert (d_trie d) key n; d_max := d_max d; d_tokens := d_tokens d; d_total := d_total d |})
        (Read (fun d => let ts := d_tokens d in
        Write (fun d => {| d_trie := d_trie d; d_max := d_max d; d_tokens := ts ++ [t]; d_total := d_total d |})
        (Read (fun d => let f := d_total d in
        Write (fun d => {| d_trie := d_trie d; d_max := d_max d; d_tokens := d_tokens d; d_total := add64 E f (t_freq t) |})
        (Read (fun d => if d_max d <? length (t_text t)
          then Write (fun d => {| d_trie := d_trie d; d_max := length (t_text t); d_tokens := d_tokens d; d_total := d_total d |}) (Ret tt)
          else Ret tt)))))))
      end).
  (** dict_util.go:75-78 Segmenter.AddToken *)
  Definition seg_add_token_p (c : cfg) (text : bytes) (freq : f64 E) (pos : bytes) : prog unit :=
    bnd (local (to_token (E := E) c text freq pos)) add_token_p.

  (** dictionary.go:74-78 RemoveToken: Delete searches the path, then removes the key. [true]: error. *)
  Definition remove_token_p (text : list bytes) : prog bool :=
    let key := text_bytes text in
    Read (fun d => match t_delete (q_drop E) (d_trie d) key with
      | None => Ret true
      | Some _ =>
        Write (fun d => {| d_trie := match t_delete (q_drop E) (d_trie d) key with Some t => t | None => d_trie d end;
                           d_max := d_max d; d_tokens := d_tokens d; d_total := d_total d |}) (Ret false)
      end).
  (** dict_util.go:99-104 Segmenter.RemoveToken *)
  Definition seg_remove_token_p (c : cfg) (text : bytes) : prog bool :=
    bnd (local (split_words E c text)) remove_token_p.

  (** dict_util.go:458-461: the number of tokens is read once, each token again. *)
  Fixpoint calc_dist_p (lt : f32 E) (is : list nat) : prog unit :=
    match is with
    | [] => Ret tt
    | i :: is' =>
      bnd (read (fun d => do t <- get (d_tokens d) i ; Ok (t_freq t))) (fun f =>
      Write (fun d => match nth_error (d_tokens d) i with
                      | Some t => set_tokens d (upd (d_tokens d) i (set_dist t (sub32 E lt (to32 E (m_log2 E f)))))
                      | None => d
                      end) (calc_dist_p lt is'))
    end.
  (** dict_util.go:469-501, the loops over the sub-segments fused. *)
  Fixpoint keep_subs_p (segs : list segment) : prog (list segment) :=
    match segs with
    | [] => Ret []
    | s :: rest =>
      bnd (read (fun d => deref d (sg_tok s))) (fun t =>
      bnd (keep_subs_p rest) (fun rest' => Ret (if keep_sub E (t_text t) then s :: rest' else rest')))
    end.
  (** dict_util.go:465-502; token.segments, which no other modelled call reads, is written in one step. *)
  Fixpoint calc_segs_p (is : list nat) : prog unit :=
    match is with
    | [] => Ret tt
    | i :: is' =>
      bnd (read (fun d => do t <- get (d_tokens d) i ; Ok (t_text t))) (fun text =>
      bnd (segment_words_p text true) (fun segs =>
      bnd (keep_subs_p segs) (fun kept =>
      Write (fun d => match nth_error (d_tokens d) i with
                      | Some t => set_tokens d (upd (d_tokens d) i (set_segs t kept))
                      | None => d
                      end) (calc_segs_p is'))))
    end.
  (** dict_util.go:454-503 CalcToken *)
  Definition calc_token_p : prog unit :=
    Read (fun d => let lt := to32 E (m_log2 E (d_total d)) in
    Read (fun d => bnd (calc_dist_p lt (seq 0 (length (d_tokens d)))) (fun _ =>
    Read (fun d => calc_segs_p (seq 0 (length (d_tokens d))))))).

  (** The calls that goroutines make, and their results. *)
  Inductive call : Type :=
  | CSegment (s : bytes) (search : bool)
  | CFind (word : bytes)
  | CAdd (text : bytes) (freq : f64 E) (pos : bytes)
  | CRemove (text : bytes)
  | CCalc.
  Inductive answer : Type :=
  | ASegs (l : list segment)
  | AFound (r : f64 E * bytes * bool)
  | AAdded
  | ARemoved (err : bool)
  | ACalc.
  Definition call_p (c : cfg) (k : call) : prog answer :=
    match k with
    | CSegment s m => bnd (segment_p c s m) (fun l => Ret (ASegs l))
    | CFind w => bnd (find_p w) (fun r => Ret (AFound r))
    | CAdd text freq pos => bnd (seg_add_token_p c text freq pos) (fun _ => Ret AAdded)
    | CRemove text => bnd (seg_remove_token_p c text) (fun e => Ret (ARemoved e))
    | CCalc => bnd calc_token_p (fun _ => Ret ACalc)
    end.

  (** The machine: one step of goroutine [i]; nothing happens if there is none or it is done. *)
  Definition step (i : nat) (m : dict E * list (prog answer)) : dict E * list (prog answer) :=
    match nth_error (snd m) i with
    | Some (Read f) => (fst m, upd (snd m) i (f (fst m)))
    | Some (Write f p) => (f (fst m), upd (snd m) i p)
    | _ => m
    end.
  (** A schedule says which goroutine makes each step. *)
  Fixpoint run (sched : list nat) (m : dict E * list (prog answer)) : dict E * list (prog answer) :=
    match sched with [] => m | i :: t => run t (step i m) end.
  Definition start (c : cfg) (d : dict E) (ks : list call) : dict E * list (prog answer) := (d, map (call_p c) ks).
End Prog.
Arguments Crash {E A}. Arguments Stuck {E A}. Arguments Ret {E A} _. Arguments Read {E A} _. Arguments Write {E A} _ _.
Arguments CFind {E} _. Arguments CSegment {E} _ _. Arguments AAdded {E}. Arguments ASegs {E} _.
Arguments CRemove {E} _. Arguments CCalc {E}. Arguments ARemoved {E} _. Arguments ACalc {E}. Arguments AFound {E} _.
