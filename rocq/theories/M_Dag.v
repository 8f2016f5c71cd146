(** The DAG segmenters: dag.go and Cut/CutSearch/CutAll of gse.go. The dictionary is never nil (dag.go panics on a nil
    [seg.Dict]). *)
From Verif Require Export M_Out M_Hmm.
Set Implicit Arguments. Unset Strict Implicit.

Section Dag.
  Variable E : env.
  Variable d : dict E.

  (** dag.go:39-41 Find *)
  Definition seg_find (w : bytes) : res (f64 E * bytes * bool) := dict_find d w.

  (** dag.go:141-157: the inner loop of getDag. *)
  Fixpoint dag_row (fuel : nat) (runes : list rune) (k i : nat) (acc : list nat) : res (list nat) :=
    match fuel with
    | O => Hang
    | S f =>
      do r <- seg_find (string_of_runes (slice runes k (S i))) ;
      if negb (snd r) then Ok acc
      else
        let acc' := if ltb64 E (lit64 E 0 0) (fst (fst r)) then acc ++ [i] else acc in
        if length runes <=? S i then Ok acc' else dag_row f runes k (S i) acc'
    end.
  (** dag.go:136-162; dag[k] for k = 0 .. n-1 as a list of rows. *)
  Fixpoint dag_rows (runes : list rune) (ks : list nat) : res (list (list nat)) :=
    match ks with
    | [] => Ok []
    | k :: ks' =>
      do row <- dag_row (S (length runes)) runes k k [] ;
      do rows <- dag_rows runes ks' ;
      Ok ((match row with [] => [k] | _ => row end) :: rows)
    end.
  (** dag.go:127-165 getDag *)
  Definition get_dag (runes : list rune) : res (list (list nat)) := dag_rows runes (seq 0 (length runes)).

  (** dag.go:33-36 route *)
  Definition route := (f64 E * nat)%type.

  (** dag.go:189-196: keep the larger weight, on equality the larger index. *)
  Definition better (old : option route) (r : route) : route :=
    match old with
    | None => r
    | Some v => if ltb64 E (fst v) (fst r) || (eqb64 E (fst v) (fst r) && (snd v <? snd r)) then r else v
    end.

  (** dag.go:178-197: the loop over dag[idx]; [rs] holds rs[idx+1], rs[idx+2], ... (a missing key reads as the
      zero route). *)
  Fixpoint calc_row (runes : list rune) (logT : f64 E) (idx : nat) (row : list nat) (rs : list route) (cur : option route) :
    res (option route) :=
    match row with
    | [] => Ok cur
    | i :: row' =>
      do r <- seg_find (string_of_runes (slice runes idx (S i))) ;
      let w := if (snd r : bool) then sub64 E (m_log E (fst (fst r))) logT
               else sub64 E (m_log E (lit64 E 1 0)) logT in
      let f := add64 E w (fst (nth (i - idx) rs (lit64 E 0 0, 0))) in
      calc_row runes logT idx row' rs (Some (better cur (f, i)))
    end.
  (** dag.go:177-198: idx from n-1 down to 0; [rows] are dag[idx], dag[idx+1], ... *)
  Fixpoint calc_rows (runes : list rune) (logT : f64 E) (idx : nat) (rows : list (list nat)) : res (list route) :=
    match rows with
    | [] => Ok [(lit64 E 0 0, 0)]
    | row :: rows' =>
      do rs <- calc_rows runes logT (S idx) rows' ;
      do cur <- calc_row runes logT idx row rs None ;
      Ok ((match cur with Some r => r | None => (lit64 E 0 0, 0) end) :: rs)
    end.
  (** dag.go:167-201 calc; package pos has the same function with another logarithm of the total. *)
  Definition calc_with (logT : f64 E) (runes : list rune) : res (list route) :=
    do dag <- get_dag runes ;
    calc_rows runes logT 0 dag.
  Definition calc (runes : list rune) : res (list route) := calc_with (m_log E (d_total d)) runes.

  (** runes[x:y] *)
  Definition rslice (runes : list rune) (x y : nat) : res (list rune) :=
    if (x <=? y) && (y <=? length runes) then Ok (slice runes x y) else Panic.
  (** routes[x].index, a map read. *)
  Definition route_index (routes : list route) (x : nat) : nat := snd (nth x routes (lit64 E 0 0, 0)).

  (** dag.go:31 reEng `[[:alnum:]]` *)
  Definition re_eng (s : bytes) : bool := existsb is_alnum_b s.

  (** dag.go:283-300 *)
  Fixpoint nohmm_loop (fuel : nat) (runes : list rune) (routes : list route) (x : nat) (buf : list rune) (result : list bytes) :
    res (list rune * list bytes) :=
    if length runes <=? x then Ok (buf, result)
    else match fuel with
    | O => Hang
    | S f =>
      let y := S (route_index routes x) in
      do frag <- rslice runes x y ;
      if re_eng (string_of_runes frag) && (length frag =? 1)
      then nohmm_loop f runes routes y (buf ++ frag) result
      else
        let result1 := match buf with [] => result | _ => result ++ [string_of_runes buf] end in
        nohmm_loop f runes routes y [] (result1 ++ [string_of_runes frag])
    end.
  (** dag.go:222-225, 273-276, 314-317: lower-case and convert. ToLower is the global of dict_util.go ([c_lower]). *)
  Definition dag_runes (c : cfg) (s : bytes) : list rune := runes_of (if c_lower c then to_lower_str E s else s).
  (** dag.go:269-308 cutDAGNoHMM *)
  Definition cut_dag_nohmm (c : cfg) (s : bytes) : res (list bytes) :=
    let runes := dag_runes c s in
    do routes <- calc runes ;
    do r <- nohmm_loop (length runes) runes routes 0 [] [] ;
    Ok (match fst r with [] => snd r | buf => snd r ++ [string_of_runes buf] end).

  (** dag.go:203-215 hmm *)
  Definition dag_hmm (em : emits E) (bufString : bytes) (buf : list rune) (reg : list matcher) : res (list bytes) :=
    do r <- seg_find bufString ;
    if negb (snd r) || eqb64 E (fst (fst r)) (lit64 E 0 0)
    then hmm_cut em bufString reg
    else Ok (map string_of_rune buf).
  (** dag.go:239-248, 256-264: what happens to the buffered single runes. *)
  Definition flush (em : emits E) (reg : list matcher) (buf : list rune) : res (list bytes) :=
    match buf with
    | [] => Ok []
    | [_] => Ok [string_of_runes buf]
    | _ => dag_hmm em (string_of_runes buf) buf reg
    end.
  (** dag.go:232-254 *)
  Fixpoint dag_loop (fuel : nat) (em : emits E) (reg : list matcher) (runes : list rune) (routes : list route) (x : nat)
           (buf : list rune) (result : list bytes) : res (list rune * list bytes) :=
    if length runes <=? x then Ok (buf, result)
    else match fuel with
    | O => Hang
    | S f =>
      let y := S (route_index routes x) in
      do frag <- rslice runes x y ;
      if y - x =? 1 then dag_loop f em reg runes routes y (buf ++ frag) result
      else
        do o <- flush em reg buf ;
        dag_loop f em reg runes routes y [] (result ++ o ++ [string_of_runes frag])
    end.
  (** dag.go:217-267 cutDAG *)
  Definition cut_dag (c : cfg) (em : emits E) (s : bytes) (reg : list matcher) : res (list bytes) :=
    let runes := dag_runes c s in
    do routes <- calc runes ;
    do r <- dag_loop (length runes) em reg runes routes 0 [] [] ;
    do o <- flush em reg (fst r) ;
    Ok (snd r ++ o).

  (** dag.go:327-342; [start] is the Go value plus one. *)
  Fixpoint all_row (runes : list rune) (k : nat) (l : list nat) (start : nat) (result : list bytes) : nat * list bytes :=
    match l with
    | [] => (start, result)
    | j :: l' => if k <? j then all_row runes k l' (S j) (result ++ [string_of_runes (slice runes k (S j))])
                 else all_row runes k l' start result
    end.
  Fixpoint all_loop (runes : list rune) (k : nat) (rows : list (list nat)) (start : nat) (result : list bytes) : list bytes :=
    match rows with
    | [] => result
    | l :: rows' =>
      match l with
      | [j] => if start <=? k then all_loop runes (S k) rows' (S j) (result ++ [string_of_runes (slice runes k (S j))])
               else let r := all_row runes k l start result in all_loop runes (S k) rows' (fst r) (snd r)
      | _ => let r := all_row runes k l start result in all_loop runes (S k) rows' (fst r) (snd r)
      end
    end.
  (** dag.go:310-345 cutAll *)
  Definition cut_all (c : cfg) (s : bytes) : res (list bytes) :=
    let runes := dag_runes c s in
    do dag <- get_dag runes ;
    Ok (all_loop runes 0 dag 0 []).

  (** gse.go:68-79 Cut with its optional argument. *)
  Definition cut (c : cfg) (em : emits E) (s : bytes) (hmm : option bool) : res (list bytes) :=
    match hmm with
    | None => seg_slice c (Some d) s false
    | Some false => cut_dag_nohmm c s
    | Some true => cut_dag c em s []
    end.

  (** dag.go:361-367 *)
  Fixpoint grams (runes : list rune) (incr : nat) (is : list nat) (result : list bytes) : res (list bytes) :=
    match is with
    | [] => Ok result
    | i :: is' =>
      let gram := string_of_runes (slice runes i (i + incr)) in
      do r <- seg_find gram ;
      grams runes incr is' (if snd r && ltb64 E (lit64 E 0 0) (fst (fst r)) then result ++ [gram] else result)
    end.
  (** dag.go:355-368 *)
  Definition grams_of (runes : list rune) (incr : nat) (result : list bytes) : res (list bytes) :=
    if length runes <=? incr then Ok result else grams runes incr (seq 0 (length runes - incr + 1)) result.
  (** dag.go:353-371 *)
  Fixpoint search_loop (ws : list bytes) (result : list bytes) : res (list bytes) :=
    match ws with
    | [] => Ok result
    | w :: ws' =>
      let runes := runes_of w in
      do r2 <- grams_of runes 2 result ;
      do r3 <- grams_of runes 3 r2 ;
      search_loop ws' (r3 ++ [w])
    end.
  (** dag.go:347-374 cutForSearch, gse.go:82-88 CutSearch *)
  Definition cut_for_search (c : cfg) (em : emits E) (s : bytes) (hmm : bool) : res (list bytes) :=
    do ws <- cut c em s (Some hmm) ; search_loop ws [].
  Definition cut_search (c : cfg) (em : emits E) (s : bytes) (hmm : option bool) : res (list bytes) :=
    match hmm with
    | None => seg_slice c (Some d) s true
    | Some b => cut_for_search c em s b
    end.

  (** dag.go:383-390, 407-414: multiply by the frequency if found, divide by the total. *)
  Fixpoint suggest_loop (total : f64 E) (ws : list bytes) (freq : f64 E) : res (f64 E) :=
    match ws with
    | [] => Ok freq
    | w :: ws' =>
      do r <- seg_find w ;
      suggest_loop total ws' (div64 E (if (snd r : bool) then mul64 E freq (fst (fst r)) else freq) total)
    end.
  (** dag.go:378-430 SuggestFreq *)
  Definition suggest_freq (c : cfg) (words : list bytes) : res (f64 E) :=
    let total := d_total d in
    match words with
    | [] => Panic
    | [word] =>
      do segs <- cut_dag_nohmm c word ;
      do freq <- suggest_loop total segs (lit64 E 1 0) ;
      let freq := add64 E (trunc64 E (mul64 E freq total)) (lit64 E 1 0) in
      do r <- seg_find word ;
      let wordFreq := if (snd r : bool) then fst (fst r) else lit64 E 1 0 in
      Ok (if ltb64 E freq wordFreq then wordFreq else freq)
    | _ =>
      do freq <- suggest_loop total words (lit64 E 1 0) ;
      let freq := trunc64 E (mul64 E freq total) in
      do r <- seg_find (concat words) ;
      let wordFreq := if (snd r : bool) then fst (fst r) else lit64 E 0 0 in
      Ok (if ltb64 E wordFreq freq then wordFreq else freq)
    end.
End Dag.
