(** FindAllOccs and Analyze (dag.go). *)
From Verif Require Export M_Dict M_Utf8 M_Dag.
Set Implicit Arguments. Unset Strict Implicit.

(** bytes.LastIndex (library): the largest offset of [sep] in [s]; [None] is -1. *)
Fixpoint last_index (s sep : bytes) : option nat :=
  match s with
  | [] => match sep with [] => Some 0 | _ => None end
  | _ :: t => match last_index t sep with
              | Some i => Some (S i)
              | None => if is_prefix sep s then Some 0 else None
              end
  end.

(** The map from search words to offsets; a missing key has the nil slice. *)
Definition occs := bytes -> list nat.
Definition occs_set (m : occs) (k : bytes) (l : list nat) : occs := fun w => if beqb w k then l else m w.

(** dag.go:54-62, the inner loop of FindAllOccs *)
Fixpoint occ_loop (fuel : nat) (tmp search : bytes) (index : nat) (m : occs) : res occs :=
  match fuel with
  | O => Hang
  | S f =>
    match last_index (firstn index tmp) search with
    | None => Ok m
    | Some i => occ_loop f tmp search i (occs_set m search (m search ++ [i]))
    end
  end.
(** dag.go:49-66 FindAllOccs; [fuel] bounds the iterations of each inner loop. *)
Fixpoint find_occs (fuel : nat) (data : bytes) (searches : list bytes) (m : occs) : res occs :=
  match searches with
  | [] => Ok m
  | s :: t => do m' <- occ_loop fuel data s (length data) m ; find_occs fuel data t m'
  end.
Definition find_all_occs (fuel : nat) (data : bytes) (searches : list bytes) : res occs := find_occs fuel data searches (fun _ => []).

Section Analyze.
  Variable E : env.
  (** token.go:19-32 AnalyzeToken; Len and Type are never set. *)
  Record atoken : Type := { a_start : nat; a_end : nat; a_position : nat; a_text : bytes; a_freq : f64 E; a_pos : bytes }.

  Variable d : dict E.
  (** len([]rune(v)) or len([]byte(v)) (dag.go:76-80, 91-95); [by_] tells whether the optional argument is given. *)
  Definition word_len (by_ : bool) (v : bytes) : nat := if by_ then length (runes_of v) else length v.

  (** dag.go:88-121, the loop of Analyze; [prev] is az[k-1].End. [ex] is the map isEx. *)
  Fixpoint analyze_loop (t1 : bytes) (by_ : bool) (all : occs) (text : list bytes) (k start end_ : nat) (prev : option nat)
      (ex : bytes -> option nat) (az : list atoken) : res (list atoken) :=
    match text with
    | [] => Ok az
    | v :: t =>
      do se <- (if (0 <? k) && beqb t1 [] then
                  match prev with Some e => Ok (e, e + word_len by_ v) | None => Panic end
                else Ok (start, end_)) ;
      do r <- (if negb (beqb t1 []) then
                 let n := match ex v with Some n => S n | None => 0 end in
                 do st <- (if 0 <? length (all v) then get (all v) n else Ok (fst se)) ;
                 Ok ((st, st + length v), fun w => if beqb w v then Some n else ex w)
               else Ok (se, ex)) ;
      do f <- dict_find d v ;
      analyze_loop t1 by_ all t (S k) (fst (fst r)) (snd (fst r)) (Some (snd (fst r))) (snd r)
        (az ++ [{| a_start := fst (fst r); a_end := snd (fst r); a_position := k; a_text := v; a_freq := fst (fst f); a_pos := snd (fst f) |}])
    end.
  (** dag.go:69-124 Analyze *)
  Definition analyze (fuel : nat) (c : cfg) (text : list bytes) (t1 : bytes) (by_ : bool) : res (list atoken) :=
    match text with
    | [] => Ok []
    | w :: _ =>
      let end_ := if beqb t1 [] then word_len by_ w else 0 in
      let t1 := if c_lower c then to_lower_str E t1 else t1 in
      do all <- find_all_occs fuel t1 text ;
      analyze_loop t1 by_ all text 0 0 end_ None (fun _ => None) []
    end.
End Analyze.
