(** Package idf (hmm/idf): TextRank. *)
From Verif Require Export M_Idf M_Pos.
Set Implicit Arguments. Unset Strict Implicit.
Local Open Scope lit_scope.

Section Rank.
  Variable E : env.

  (** cm: distinct pairs of texts; the order of the list is that of the first insertions. *)
  Definition cmap := list ((bytes * bytes) * f64 E).
  Definition pair_eqb (p q : bytes * bytes) : bool := beqb (fst p) (fst q) && beqb (snd p) (snd q).
  (** hmm/idf/textrank.go:162-166 *)
  Fixpoint cm_add (m : cmap) (k : bytes * bytes) : cmap :=
    match m with
    | [] => [(k, lit64 E 1 0)]
    | (k', w) :: t => if pair_eqb k' k then (k', add64 E w (lit64 E 1 0)) :: t else (k', w) :: cm_add t k
    end.
  (** hmm/idf/textrank.go:157-167: the words [ps] at j = i+1, ..., at most i+4, after the word [a] at i. *)
  Fixpoint cm_row (allow : list bytes) (a : bytes) (ps : list (bytes * bytes)) (m : cmap) : cmap :=
    match ps with
    | [] => m
    | (b, p) :: t => cm_row allow a t (if in_list p allow then cm_add m (a, b) else m)
    end.
  (** hmm/idf/textrank.go:154-169 *)
  Fixpoint cm_rows (allow : list bytes) (ps : list (bytes * bytes)) (m : cmap) : cmap :=
    match ps with
    | [] => m
    | (a, p) :: t => cm_rows allow t (if in_list p allow then cm_row allow a (firstn 4 t) m else m)
    end.

  (** hmm/idf/textrank.go:54-57 undirectWeightedGraph: the edges (end, weight) of each key; the order of the list is that of the field keys. *)
  Definition graph := list (bytes * list (bytes * f64 E)).
  Fixpoint g_app (g : graph) (start : bytes) (e : bytes * f64 E) : graph :=
    match g with
    | [] => [(start, [e])]
    | (k, es) :: t => if beqb k start then (k, es ++ [e]) :: t else (k, es) :: g_app t start e
    end.
  (** hmm/idf/textrank.go:66-83 addEdge *)
  Definition add_edge (g : graph) (e : (bytes * bytes) * f64 E) : graph :=
    g_app (g_app g (fst (fst e)) (snd (fst e), snd e)) (snd (fst e)) (fst (fst e), snd e).

  (** ws: map[string]float64; reading a missing key gives 0. *)
  Fixpoint w_get (ws : list (bytes * f64 E)) (n : bytes) : f64 E :=
    match ws with [] => lit64 E 0 0 | (k, x) :: t => if beqb k n then x else w_get t n end.
  Fixpoint w_put (ws : list (bytes * f64 E)) (n : bytes) (x : f64 E) : list (bytes * f64 E) :=
    match ws with [] => [(n, x)] | (k, y) :: t => if beqb k n then (k, x) :: t else (k, y) :: w_put t n x end.
  Definition edges_of (g : graph) (n : bytes) : list (bytes * f64 E) :=
    match find (fun kv => beqb (fst kv) n) g with Some (_, es) => es | None => [] end.
  (** hmm/idf/textrank.go:98-105: outSum[n]; a missing key gives 0, the sum of no edges. *)
  Definition out_sum (g : graph) (n : bytes) : f64 E := fold_left (fun s e => add64 E s (snd e)) (edges_of g n) (lit64 E 0 0).
  (** hmm/idf/textrank.go:109-114; 1 - dampingFactor = 0.15 and dampingFactor = 0.85 are constants; no fused multiply-add. *)
  Definition rank_step (g : graph) (ws : list (bytes * f64 E)) (n : bytes) : list (bytes * f64 E) :=
    let s := fold_left (fun s e => add64 E s (mul64 E (div64 E (snd e) (out_sum g (fst e))) (w_get ws (fst e)))) (edges_of g n) (lit64 E 0 0) in
    w_put ws n (add64 E (lit64 E 5404319552844595 (-55)) (mul64 E (lit64 E 7656119366529843 (-53)) s)).
  (** hmm/idf/textrank.go:107-116 *)
  Fixpoint rank_rounds (k : nat) (g : graph) (keys : list bytes) (ws : list (bytes * f64 E)) : list (bytes * f64 E) :=
    match k with O => ws | S k => rank_rounds k g keys (fold_left (rank_step g) keys ws) end.
  (** sort.IsSorted (library) *)
  Fixpoint is_sorted (l : list bytes) : bool :=
    match l with
    | a :: (b :: _) as t => negb (ltb_str b a) && is_sorted t
    | _ => true
    end.
  (** hmm/idf/textrank.go:118-126: (minRank, maxRank) *)
  Definition min_max (vs : list (f64 E)) : f64 E * f64 E :=
    fold_left (fun mm w => if ltb64 E w (fst mm) then (w, snd mm) else if ltb64 E (snd mm) w then (fst mm, w) else mm) vs
              (lit64 E 9007199254740991 971, lit64 E 1 (-1074)).
  (** hmm/idf/textrank.go:85-137 rank; [o1], [o2]: the orders in which ws is ranged over (120, 129); the order of the range over the graph (98) has no effect. *)
  Definition rank (srt : sort_fn) (o1 o2 : list (bytes * f64 E) -> list (bytes * f64 E)) (g : graph) : list (bytes * f64 E) :=
    let keys := map fst g in
    let keys := if is_sorted keys then keys else srt bytes ltb_str keys in
    let def := match g with [] => lit64 E 1 0 | _ => div64 E (lit64 E 1 0) (lit64 E (Z.of_nat (length g)) 0) end in
    let ws := rank_rounds 10 g keys (map (fun kv => (fst kv, def)) g) in
    let mm := min_max (map snd (o1 ws)) in
    let low := div64 E (fst mm) (lit64 E 10 0) in
    srt (wseg E) (reverse_less (@seg_less E))
        (map (fun nw => (fst nw, div64 E (sub64 E (snd nw) low) (sub64 E (snd mm) low))) (o2 ws)).

  (** hmm/idf/textrank.go:142-180: TextRankWithPOS after Cut; [oc]: the order in which cm is ranged over (171). *)
  Definition rank_pieces (srt : sort_fn) (oc : cmap -> cmap) (o1 o2 : list (bytes * f64 E) -> list (bytes * f64 E))
      (ps : list (bytes * bytes)) (topK : Z) (allow : list bytes) : list (wseg E) :=
    let cm := cm_rows allow ps [] in
    let g := fold_left add_edge (oc cm) [] in
    let tags := rank srt o1 o2 g in
    if (0 <? topK)%Z && (topK <? Z.of_nat (length tags))%Z then firstn (Z.to_nat topK) tags else tags.
  (** hmm/idf/textrank.go:141-181 TextRankWithPOS *)
  Definition text_rank_pos (srt : sort_fn) (oc : cmap -> cmap) (o1 o2 : list (bytes * f64 E) -> list (bytes * f64 E))
      (d : dict E) (tb : ptab E) (od : nat -> nat -> nat -> orders) (text : bytes) (topK : Z) (allow : list bytes) : res (list (wseg E)) :=
    do ps <- pos_cut d tb od text true ;
    Ok (rank_pieces srt oc o1 o2 ps topK allow).
  (** hmm/idf/textrank.go:14-16, 185-187 TextRank *)
  Definition default_pos : list bytes := map str ["ns"; "n"; "vn"; "v"].
  Definition text_rank srt oc o1 o2 d tb od text topK : res (list (wseg E)) := text_rank_pos srt oc o1 o2 d tb od text topK default_pos.
End Rank.
