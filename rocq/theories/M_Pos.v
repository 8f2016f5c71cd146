(** Package pos (hmm/pos) and RegexpSplit of hmm/util. *)
From Verif Require Export M_Dag M_PosTab.
Set Implicit Arguments. Unset Strict Implicit.
Local Open Scope lit_scope.

(** ** hmm/util/util.go *)

(** hmm/util/util.go:25-40, the loop of RegexpSplit over the match positions; [cap] is len(re.SubexpNames()) > 1. *)
Fixpoint rsplit_loop (cap : bool) (n : Z) (s : bytes) (ms : list (nat * nat)) (b e : nat) (strs : list bytes) : res (nat * nat * list bytes) :=
  match ms with
  | [] => Ok (b, e, strs)
  | (m0, m1) :: ms' =>
    if (0 <? n)%Z && (n - 1 <=? Z.of_nat (length strs))%Z then Ok (b, e, strs)
    else
      do strs1 <- (if m1 =? 0 then Ok strs else do x <- gslice s b m0 ; Ok (strs ++ [x])) ;
      do strs2 <- (if cap then do x <- gslice s m0 m1 ; Ok (strs1 ++ [x]) else Ok strs1) ;
      rsplit_loop cap n s ms' m1 m0 strs2
  end.
(** hmm/util/util.go:9-47 RegexpSplit. [ms] are the matches FindAll...Index(s, n) returns, [ne] is len(re.String()) > 0. *)
Definition regexp_split (ne cap : bool) (s : bytes) (n : Z) (ms : list (nat * nat)) : res (list bytes) :=
  if (n =? 0)%Z then Ok []
  else match s with
  | [] => if ne then Ok [[]] else
            do r <- rsplit_loop cap n s ms 0 0 [] ;
            (let '(b, e, strs) := r in if e =? 0 then Ok strs else do x <- gslice s b (length s) ; Ok (strs ++ [x]))
  | _ => do r <- rsplit_loop cap n s ms 0 0 [] ;
         (let '(b, e, strs) := r in if e =? length s then Ok strs else do x <- gslice s b (length s) ; Ok (strs ++ [x]))
  end.

(** FindAllStringSubmatchIndex(s, -1) of an expression that never matches the empty string and does not look at its
    surroundings: the first match, then the matches of the rest. *)
Fixpoint find_all (fuel : nat) (m : matcher) (s : bytes) (off : nat) : list (nat * nat) :=
  match fuel with
  | O => []
  | S f => match m s with
           | None => []
           | Some (a, b) => (off + a, off + b) :: find_all f m (skipn b s) (off + b)
           end
  end.
(** RegexpSplit(re, s, -1) for the expressions of package pos, all capturing. *)
Definition split_by (m : matcher) (s : bytes) : res (list bytes) := regexp_split true true s (-1) (find_all (length s) m s 0).

(** ** Regular expressions of hmm/pos/pos_seg.go:26-36 *)

(** `[class]+`: the first maximal run of runes of a class. *)
Definition reg_run (p : rune -> bool) : matcher := fun s =>
  let us := units s in
  let pre := take_while (fun u => negb (p (fst u))) us in
  let run := take_while (fun u => p (fst u)) (skipn (length pre) us) in
  match run with
  | [] => None
  | _ => let a := length (concat (map snd pre)) in Some (a, a + length (concat (map snd run)))
  end.
Definition matches (m : matcher) (s : bytes) : bool := match m s with Some _ => true | None => false end.

(** reSkipDetail `([[\.[:digit:]]+|[:alnum:]]+)`: a run of '[', '.', digits; or one of ':', 'a', 'l', 'n', 'u', 'm' and a
    run of ']'. *)
Definition skip_a (b : byte) : bool := is_digit_b b || Byte.eqb b x2e || Byte.eqb b x5b.
Definition skip_b (b : byte) : bool := existsb (Byte.eqb b) (str ":alnum").
Definition skip_at (s : bytes) : nat :=
  match take_while skip_a s with
  | [] => match s with
          | b :: s' => if skip_b b then match take_while (Byte.eqb x5d) s' with [] => 0 | l => S (length l) end else 0
          | [] => 0
          end
  | l => length l
  end.
(** The first position where a match of positive length begins. *)
Fixpoint first_at (len : bytes -> nat) (s : bytes) (i : nat) : option (nat * nat) :=
  match len s with
  | O => match s with [] => None | _ :: s' => first_at len s' (S i) end
  | S k => Some (i, i + S k)
  end.
Definition re_skip_detail : matcher := fun s => first_at skip_at s 0.

(** reSkipInternal `(\r\n|\s)`; \s is [\t\n\f\r ]. *)
Definition is_ws (b : byte) : bool := existsb (Byte.eqb b) [x09; x0a; x0c; x0d; x20].
Definition ws_at (s : bytes) : nat :=
  match s with
  | b :: t => if Byte.eqb b x0d && match t with c :: _ => Byte.eqb c x0a | [] => false end then 2 else if is_ws b then 1 else 0
  | [] => 0
  end.
Definition re_skip_internal : matcher := fun s => first_at ws_at s 0.

(** reNum `[\.[:digit:]]+`, as MatchString. *)
Definition re_num (s : bytes) : bool := existsb (fun b => is_digit_b b || Byte.eqb b x2e) s.

(** ** Tags: hmm/pos/char_state_tab.go:5-48 *)
Inductive tpos : Set := TB | TE | TM | TS | TNone.
(** hmm/pos/char_state_tab.go:7-20 tag.position; a tag is a uint16, here a non-negative [Z]. *)
Definition tag_position (t : Z) : tpos :=
  let q := (t / 100)%Z in
  if (q =? 4)%Z then TS else if (q =? 3)%Z then TM else if (q =? 2)%Z then TE else if (q =? 1)%Z then TB else TNone.
(** hmm/pos/char_state_tab.go:22-24 tag.pos *)
Definition tag_pos (t : Z) : res bytes := get poss (Z.to_nat (t mod 100)).

Section Pos.
  Variable E : env.

  (** The tables: charStateTab, probTrans (its keys and the rows), probStart, probEmit. A row that is absent reads as
      the empty map. *)
  Record ptab : Type := {
    p_char : rune -> option (list Z);
    p_keys : list Z;
    p_trans : Z -> list (Z * f64 E);
    p_start : Z -> f64 E;
    p_emit : Z -> rune -> option (f64 E)
  }.

  Fixpoint assoc {A} (l : list (Z * A)) (k : Z) : option A :=
    match l with [] => None | (k', a) :: t => if (k' =? k)%Z then Some a else assoc t k end.

  (** hmm/pos/prob_trans.go:7-17: inf and probTransMap.Get; -Inf is computed as -2^1023 - 2^1023. *)
  Definition neg_inf : f64 E := add64 E (lit64 E (-1) 1023) (lit64 E (-1) 1023).
  Definition trans_get (tb : ptab) (x y : Z) : f64 E := match assoc (p_trans tb x) y with Some v => v | None => neg_inf end.
  (** hmm/pos/prob_emit.go:7-15 *)
  Definition emit_get (tb : ptab) (y : Z) (o : rune) : f64 E := match p_emit tb y o with Some v => v | None => min_float E end.

  (** The orders in which Go ranges over maps: of probTrans in init (hmm/pos/prob_trans.go:281-285), of memPath[t-1] and
      prevStatesExpectNext at time [t] (hmm/pos/viterbi.go:88-93, 110-114), of the last memPath (hmm/pos/viterbi.go:68-71). *)
  Record orders : Type := {
    o_keys : list Z -> list Z;
    o_prev : nat -> list Z -> list Z;
    o_next : nat -> list Z -> list Z;
    o_last : list Z -> list Z
  }.

  (** hmm/pos/char_state_tab.go:52-58 charStateTabMap.get; probTransKeys is the result of init. *)
  Definition char_get (tb : ptab) (od : orders) (o : rune) : list Z :=
    match p_char tb o with Some l => l | None => o_keys od (p_keys tb) end.

  (** One time step: the keys of memPath[t] (those of vtb[t] too) and the two maps. *)
  Record column : Type := { k_keys : list Z; k_v : Z -> f64 E; k_m : Z -> Z }.

  (** hmm/pos/viterbi.go:122-136: the better predecessor. *)
  Definition pmax (m p : f64 E * Z) : f64 E * Z :=
    if ltb64 E (fst m) (fst p) || (eqb64 E (fst p) (fst m) && (snd m <? snd p)%Z) then p else m.
  Definition pcand (tb : ptab) (v : Z -> f64 E) (y : Z) (o : rune) (y0 : Z) : f64 E * Z :=
    (add64 E (add64 E (v y0) (trans_get tb y0 y)) (emit_get tb y o), y0).
  Definition best_prev (tb : ptab) (v : Z -> f64 E) (prev : list Z) (y : Z) (o : rune) : f64 E * Z :=
    match map (pcand tb v y o) prev with
    | [] => (lit64 E 0 0, 0%Z)
    | a :: l => fold_left pmax l a
    end.

  (** hmm/pos/viterbi.go:88-118: prevStates and obsStates. *)
  Definition prev_states (tb : ptab) (od : orders) (t : nat) (c : column) : list Z :=
    filter (fun x => 0 <? length (p_trans tb x)) (o_prev od t (k_keys c)).
  Definition expect_next (tb : ptab) (prev : list Z) : list Z := nodup Z.eq_dec (flat_map (fun x => map fst (p_trans tb x)) prev).
  Definition inZ (y : Z) (l : list Z) : bool := existsb (Z.eqb y) l.
  Definition obs_states (tb : ptab) (od : orders) (t : nat) (prev : list Z) (o : rune) : list Z :=
    let nexts := expect_next tb prev in
    match filter (fun y => inZ y nexts) (char_get tb od o) with
    | [] => match o_next od t nexts with
            | [] => o_keys od (p_keys tb)
            | l => l
            end
    | l => l
    end.

  (** A Go map with the keys [ys], read with the zero value for absent keys. *)
  Definition memo {A} (ys : list Z) (f : Z -> A) (z : A) : Z -> A :=
    let l := map (fun y => (y, f y)) ys in
    fun y => match assoc l y with Some a => a | None => z end.

  (** hmm/pos/viterbi.go:85-140 probs, the body of its loop. *)
  Definition pos_step (tb : ptab) (od : orders) (t : nat) (c : column) (o : rune) : column :=
    let prev := prev_states tb od t c in
    let ys := obs_states tb od t prev o in
    let best := memo ys (fun y => best_prev tb (k_v c) prev y o) (lit64 E 0 0, 0%Z) in
    {| k_keys := nodup Z.eq_dec ys;
       k_v := fun y => fst (best y);
       k_m := fun y => snd (best y) |}.
  (** The columns 0..t, the last first. *)
  Fixpoint pos_cols (tb : ptab) (od : orders) (t : nat) (c : column) (obs : list rune) (acc : list column) : list column :=
    match obs with
    | [] => acc
    | o :: os => let c' := pos_step tb od t c o in pos_cols tb od (S t) c' os (c' :: acc)
    end.
  (** hmm/pos/viterbi.go:50-61 *)
  Definition pos_init (tb : ptab) (od : orders) (o : rune) : column :=
    let ys := char_get tb od o in
    {| k_keys := nodup Z.eq_dec ys;
       k_v := memo ys (fun y => add64 E (emit_get tb y o) (p_start tb y)) (lit64 E 0 0);
       k_m := fun _ => 0%Z |}.

  (** hmm/pos/viterbi.go:37-43 Less, and the first element after sort.Sort(sort.Reverse(last)), a largest element. The result
      of sorting is taken to be the last maximum of the order; for values without NaN all keys differ, so there is only one. *)
  Definition last_state_of (od : orders) (c : column) : option Z :=
    match map (fun y => (k_v c y, y)) (o_last od (k_keys c)) with
    | [] => None
    | a :: l => Some (snd (fold_left pmax l a))
    end.
  (** hmm/pos/viterbi.go:75-80: the route, read backwards from the columns. *)
  Fixpoint pos_route (cols : list column) (state : Z) (route : list Z) : list Z :=
    match cols with
    | [] => route
    | c :: cols' => pos_route cols' (k_m c state) (state :: route)
    end.
  (** hmm/pos/viterbi.go:49-83 viterbi *)
  Definition pos_viterbi (tb : ptab) (od : orders) (obs : list rune) : res (list Z) :=
    match obs with
    | [] => Panic
    | o :: os =>
      let c0 := pos_init tb od o in
      let cols := pos_cols tb od 1 c0 os [c0] in
      match last_state_of od (hd c0 cols) with
      | None => Panic
      | Some s => Ok (pos_route cols s [])
      end
    end.

  Notation segpos := (bytes * bytes)%type.

  (** hmm/pos/pos_seg.go:62-76, the loop of cutDetailInternal. *)
  Fixpoint detail_loop (runes : list rune) (i : nat) (rest : list rune) (tags : list Z) (begin next : nat) (out : list segpos) :
    res (nat * list segpos) :=
    match rest with
    | [] => Ok (next, out)
    | ch :: rest' =>
      do t <- get tags i ;
      match tag_position t with
      | TB => detail_loop runes (S i) rest' tags i next out
      | TE => do w <- rslice runes begin (S i) ; do p <- tag_pos t ;
              detail_loop runes (S i) rest' tags begin (S i) (out ++ [(string_of_runes w, p)])
      | TS => do p <- tag_pos t ;
              detail_loop runes (S i) rest' tags begin (S i) (out ++ [(string_of_rune ch, p)])
      | _ => detail_loop runes (S i) rest' tags begin next out
      end
    end.
  (** hmm/pos/pos_seg.go:58-83 cutDetailInternal *)
  Definition detail_internal (tb : ptab) (od : orders) (text : bytes) : res (list segpos) :=
    let runes := runes_of text in
    do tags <- pos_viterbi tb od runes ;
    do r <- detail_loop runes 0 runes tags 0 0 [] ;
    if fst r <? length runes
    then do t <- get tags (fst r) ; do p <- tag_pos t ; Ok (snd r ++ [(string_of_runes (skipn (fst r) runes), p)])
    else Ok (snd r).

  (** hmm/pos/pos_seg.go:92-105 *)
  Definition detail_other (x : bytes) : list segpos :=
    match x with
    | [] => []
    | _ => [(x, if re_num x then str "m" else if re_eng x then str "eng" else str "x")]
    end.
  Fixpoint concat_res {A} (l : list (res (list A))) : res (list A) :=
    match l with [] => Ok [] | x :: t => do a <- x ; do b <- concat_res t ; Ok (a ++ b) end.
  (** hmm/pos/pos_seg.go:85-109 cutDetail. The iteration orders of separate calls of viterbi may differ: [od] is given per block. *)
  Definition cut_detail (tb : ptab) (od : nat -> orders) (text : bytes) : res (list segpos) :=
    do blks <- split_by (reg_run (is_han E)) text ;
    concat_res (map (fun ib : nat * bytes => let (i, blk) := ib in
      if matches (reg_run (is_han E)) blk then detail_internal tb (od i) blk
      else do xs <- split_by re_skip_detail blk ; Ok (flat_map detail_other xs))
      (combine (seq 0 (length blks)) blks)).

  Variable d : dict E.

  (** hmm/pos/dict.go:53-61 Dict.Pos; gse.Segmenter.Value (dag.go:44-46) returns value 0 with an error. *)
  Definition pos_dict_pos (key : bytes) : res (bytes * bool) :=
    match dict_value d key with
    | None | Some 0 => Ok ([], false)
    | Some v => do t <- get (d_tokens d) v ; Ok (t_pos t, true)
    end.
  (** The recurring lookup: the tag, or "x". *)
  Definition tagged (w : bytes) : res segpos :=
    do p <- pos_dict_pos w ; Ok (w, if snd p then fst p else str "x").
  Fixpoint tagged_all (rs : list rune) : res (list segpos) :=
    match rs with [] => Ok [] | r :: t => do a <- tagged (string_of_rune r) ; do b <- tagged_all t ; Ok (a :: b) end.

  (** hmm/pos/pos_seg.go:111-185 getDag, calc, with logTotal: it is the zero value, as updateLogTotal (hmm/pos/dict.go:43-45) is never called. *)
  Definition pos_calc (runes : list rune) : res (list (route E)) := calc_with d (lit64 E 0 0) runes.

  (** hmm/pos/pos_seg.go:250-277 bufn, and the same code at 206-232. *)
  Definition pos_flush (tb : ptab) (od : nat -> orders) (buf : list rune) : res (list segpos) :=
    match buf with
    | [] => Ok []
    | [_] => do a <- tagged (string_of_runes buf) ; Ok [a]
    | _ => do r <- seg_find d (string_of_runes buf) ;
           if negb (snd r) || eqb64 E (fst (fst r)) (lit64 E 0 0)
           then cut_detail tb od (string_of_runes buf)
           else tagged_all buf
    end.
  (** hmm/pos/pos_seg.go:197-241. When one character is buffered, 208-217 append it and `continue` without advancing x: the next
      iteration sees the same fragment with an empty buffer. [k] numbers the calls of viterbi. *)
  Fixpoint pos_dag_loop (fuel : nat) (tb : ptab) (od : nat -> nat -> orders) (k : nat) (runes : list rune) (routes : list (route E)) (x : nat)
           (buf : list rune) (result : list segpos) : res (list rune * list segpos) :=
    if length runes <=? x then Ok (buf, result)
    else match fuel with
    | O => Hang
    | S f =>
      let y := S (route_index routes x) in
      do frag <- rslice runes x y ;
      if y - x =? 1 then pos_dag_loop f tb od k runes routes y (buf ++ frag) result
      else match buf with
      | [_] => do o <- pos_flush tb (od k) buf ; pos_dag_loop f tb od (S k) runes routes x [] (result ++ o)
      | _ => do o <- pos_flush tb (od k) buf ;
             do a <- tagged (string_of_runes frag) ;
             pos_dag_loop f tb od (S k) runes routes y [] (result ++ o ++ [a])
      end
    end.
  (** hmm/pos/pos_seg.go:189-248 cutDAG *)
  Definition pos_cut_dag (tb : ptab) (od : nat -> nat -> orders) (text : bytes) : res (list segpos) :=
    let runes := runes_of text in
    do routes <- pos_calc runes ;
    do r <- pos_dag_loop (2 * length runes) tb od 1 runes routes 0 [] [] ;
    do o <- pos_flush tb (od 0) (fst r) ;
    Ok (snd r ++ o).

  (** hmm/pos/pos_seg.go:286-307; reEng1 `[[:alnum:]]$` on a fragment of one character. *)
  Definition eng_end (s : bytes) : bool := match rev s with b :: _ => is_alnum_b b | [] => false end.
  Fixpoint pos_nohmm_loop (fuel : nat) (runes : list rune) (routes : list (route E)) (x : nat) (buf : list rune) (result : list segpos) :
    res (list rune * list segpos) :=
    if length runes <=? x then Ok (buf, result)
    else match fuel with
    | O => Hang
    | S f =>
      let y := S (route_index routes x) in
      do frag <- rslice runes x y ;
      if eng_end (string_of_runes frag) && (length frag =? 1)
      then pos_nohmm_loop f runes routes y (buf ++ frag) result
      else
        let result1 := match buf with [] => result | _ => result ++ [(string_of_runes buf, str "eng")] end in
        do a <- tagged (string_of_runes frag) ;
        pos_nohmm_loop f runes routes y [] (result1 ++ [a])
    end.
  (** hmm/pos/pos_seg.go:279-315 cutDAGNoHMM *)
  Definition pos_cut_nohmm (text : bytes) : res (list segpos) :=
    let runes := runes_of text in
    do routes <- pos_calc runes ;
    do r <- pos_nohmm_loop (length runes) runes routes 0 [] [] ;
    Ok (match fst r with [] => snd r | buf => snd r ++ [(string_of_runes buf, str "eng")] end).

  (** reHanInternal `([\p{Han}+[:alnum:]+#&\._]+)` *)
  Definition han_internal (r : rune) : bool :=
    is_han E r || ascii_alnum r || existsb (Z.eqb r) [43; 35; 38; 46; 95]%Z.
  (** hmm/pos/pos_seg.go:339-349: the characters of [x] between white space. *)
  Definition pos_chars (x : bytes) : list segpos :=
    map (fun xx => let s := string_of_rune xx in
                   if re_num s then (s, str "m") else if re_eng x then (x, str "eng") else (s, str "x")) (runes_of x).
  (** hmm/pos/pos_seg.go:319-355 Cut *)
  Definition pos_cut (tb : ptab) (od : nat -> nat -> nat -> orders) (text : bytes) (hmm : bool) : res (list segpos) :=
    do blks <- split_by (reg_run han_internal) text ;
    concat_res (map (fun ib : nat * bytes => let (i, blk) := ib in
      if matches (reg_run han_internal) blk then (if hmm then pos_cut_dag tb (od i) blk else pos_cut_nohmm blk)
      else do xs <- split_by re_skip_internal blk ;
           Ok (flat_map (fun x => if matches re_skip_internal x then [(x, str "x")] else pos_chars x) xs))
      (combine (seq 0 (length blks)) blks)).
End Pos.

(** ** The built-in tables; the emission table (prob_emit.go) is a parameter here and that of the source is in M_Emit. *)
(** The digits of a hexadecimal literal, three at a time, from the right. *)
Fixpoint hex_states (fuel : nat) (z : Z) (acc : list Z) : list Z :=
  match fuel with
  | O => acc
  | S f => if (z =? 0)%Z then acc
           else hex_states f (Z.shiftr z 12) ((Z.land (Z.shiftr z 8) 15 * 100 + Z.land (Z.shiftr z 4) 15 * 10 + Z.land z 15)%Z :: acc)
  end.
Definition char_states : list (Z * list Z) := map (fun p => (fst p, hex_states 100 (snd p) [])) char_hex.
Definition builtin (E : env) (em : Z -> rune -> option (f64 E)) : ptab E :=
  {| p_char := assoc char_states;
     p_keys := map fst trans_tab;
     p_trans := fun x => match assoc trans_tab x with
                         | Some l => map (fun t => (fst (fst t), lit64 E (snd (fst t)) (snd t))) l
                         | None => []
                         end;
     p_start := fun x => match find (fun t => (fst (fst t) =? x)%Z) start_tab with
                         | Some t => lit64 E (snd (fst t)) (snd t)
                         | None => lit64 E 0 0
                         end;
     p_emit := em |}.
