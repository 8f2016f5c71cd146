(** Specification of TextRank. *)
From Verif Require Export M_Rank S_Idf.
Set Implicit Arguments. Unset Strict Implicit.

(** The texts of the words at positions i and j, if i < j < i + 5 and both have an allowed tag. *)
Definition near_at (allow : list bytes) (ps : list (bytes * bytes)) (i j : nat) : list (bytes * bytes) :=
  match nth_error ps i, nth_error ps j with
  | Some (a, p), Some (b, q) => if in_list p allow && in_list q allow then [(a, b)] else []
  | _, _ => []
  end.
Definition nears (allow : list bytes) (ps : list (bytes * bytes)) : list (bytes * bytes) :=
  flat_map (fun i => flat_map (near_at allow ps i) (seq (S i) 4)) (seq 0 (length ps)).
(** The words that are ranked: those with an allowed tag that have another one within four positions. *)
Definition ranked (allow : list bytes) (ps : list (bytes * bytes)) (w : bytes) : Prop :=
  exists i j p q b, nth_error ps i = Some (w, p) /\ nth_error ps j = Some (b, q) /\ In p allow /\ In q allow /\ i <> j /\ i < j + 5 /\ j < i + 5.

Fixpoint pair_tally (k : bytes * bytes) (l : list (bytes * bytes)) : nat :=
  match l with [] => 0 | (a, b) :: t => (if beqb (fst k) a && beqb (snd k) b then 1 else 0) + pair_tally k t end.

(** The words of the pairs, and without repetition. *)
Definition members (ns : list (bytes * bytes)) : list bytes := flat_map (fun p => [fst p; snd p]) ns.
Definition words (ns : list (bytes * bytes)) : list bytes := nodup (list_eq_dec Byte.byte_eq_dec) (members ns).

Section Rank.
  Variable E : env.
  Notation N z := (lit64 E (Z.of_nat z) 0).
  (** [l]: the pairs of words and how often they are near each other, in any order. *)
  Definition counts (ns : list (bytes * bytes)) (l : list ((bytes * bytes) * f64 E)) : Prop :=
    NoDup (map fst l) /\ (forall k, In k (map fst l) <-> In k ns) /\ (forall k x, In (k, x) l -> x = N (pair_tally k ns)).
  (** The neighbours of a word with the weights, in the order of [l]; a word near itself is its own neighbour twice. *)
  Definition neighbours (l : list ((bytes * bytes) * f64 E)) (w : bytes) : list (bytes * f64 E) :=
    flat_map (fun e => (if beqb (fst (fst e)) w then [(snd (fst e), snd e)] else []) ++ (if beqb (snd (fst e)) w then [(fst (fst e), snd e)] else [])) l.
  (** How many pairs a word is in. *)
  Definition degree (ns : list (bytes * bytes)) (w : bytes) : nat := tally w (members ns).
  (** The recurrence: [sc x w] is the score of [w] after [x] rounds; a round treats the words in increasing order. *)
  Definition scores (ns : list (bytes * bytes)) (l : list ((bytes * bytes) * f64 E)) (size : nat) (sc : nat -> bytes -> f64 E) : Prop :=
    forall w, In w (members ns) ->
      sc 0 w = div64 E (N 1) (N size) /\
      forall x, sc (S x) w = add64 E (lit64 E 5404319552844595 (-55)) (mul64 E (lit64 E 7656119366529843 (-53))
        (fold_left (fun s e => add64 E s (mul64 E (div64 E (snd e) (N (degree ns (fst e)))) (sc (if ltb_str (fst e) w then S x else x) (fst e))))
                   (neighbours l w) (N 0))).
  (** The largest value that has a value not larger before it; the smallest positive number if there is none. *)
  Definition after (vs : list (f64 E)) (x : f64 E) : Prop := exists a b y, vs = a ++ x :: b /\ In y a /\ ltb64 E x y = false.
  Definition late_max (vs : list (f64 E)) (m : f64 E) : Prop :=
    (after vs m /\ forall x, after vs x -> ltb64 E m x = false) \/ ((forall x, ~ after vs x) /\ m = lit64 E 1 (-1074)).
  Definition least (vs : list (f64 E)) (m : f64 E) : Prop := In m vs /\ forall x, In x vs -> ltb64 E x m = false.
  Definition greatest (vs : list (f64 E)) (m : f64 E) : Prop := In m vs /\ forall x, In x vs -> ltb64 E m x = false.
  (** [all]: the words with their weights; [vs]: the scores after ten rounds in the order in which they are visited. *)
  Definition ranking (ns : list (bytes * bytes)) (l : list ((bytes * bytes) * f64 E)) (sc : nat -> bytes -> f64 E) (vs : list (f64 E)) (lo hi : f64 E) (all : list (bytes * f64 E)) : Prop :=
    counts ns l /\ scores ns l (length (words ns)) sc /\ Permutation vs (map (sc 10) (words ns)) /\ (vs <> [] -> least vs lo) /\ late_max vs hi /\
    Permutation (words ns) (map fst all) /\ StronglySorted (@above E) all /\
    forall t, In t all -> snd t = div64 E (sub64 E (sc 10 (fst t)) (div64 E lo (N 10))) (sub64 E hi (div64 E lo (N 10))).
End Rank.
