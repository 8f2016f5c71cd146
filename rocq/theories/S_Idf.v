(** Specification of package idf. *)
From Verif Require Export M_Idf S_Dict S_Trim.
From Verif Require Export P_Laws64.
From Coq Require Export Sorting.Sorted Sorting.Permutation.
Set Implicit Arguments. Unset Strict Implicit.

(** The contract of sort.Sort and sort.Float64s: the result is a permutation, and if Less is a strict weak order on the elements,
    no element is less than an earlier one. *)
Definition weak_order (A : Type) (less : A -> A -> bool) (l : list A) : Prop :=
  (forall x, In x l -> less x x = false) /\
  (forall x y z, In x l -> In y l -> In z l -> less x y = true -> less y z = true -> less x z = true) /\
  (forall x y z, In x l -> In y l -> In z l -> less x y = false -> less y z = false -> less x z = false).
Definition sorts (srt : sort_fn) : Prop := forall A (less : A -> A -> bool) l,
  Permutation l (srt A less l) /\ (weak_order less l -> StronglySorted (fun a b => less b a = false) (srt A less l)).

Fixpoint tally (w : bytes) (l : list bytes) : nat := match l with [] => 0 | v :: t => (if beqb w v then 1 else 0) + tally w t end.

Section Idf.
  Variable E : env.
  (** The words that count: trimmed, of two or more characters, no stop word. *)
  Definition kept (stop_words ws : list bytes) : list bytes :=
    filter (fun w => (2 <=? length (runes_of w)) && negb (in_list w stop_words)) (map (trim_space E) ws).
  (** The stored value of a word; the default value for words not found. *)
  Definition idf_is (i : idf E) (w : bytes) (x : f64 E) : Prop :=
    exists d f p b, s_dict (i_seg i) = Some d /\ dict_find d w = Ok (f, p, b) /\ x = if b : bool then f else i_median i.
  Definition tag_is (i : idf E) (k : list bytes) (t : bytes * f64 E) : Prop :=
    exists x, idf_is i (fst t) x /\
      snd t = mul64 E x (div64 E (lit64 E (Z.of_nat (tally (fst t) k)) 0) (lit64 E (Z.of_nat (length k)) 0)).
  (** Larger weight, or the same weight and the larger text. *)
  Definition above (a b : bytes * f64 E) : Prop :=
    ltb64 E (snd b) (snd a) = true \/ eqb64 E (snd b) (snd a) = true /\ ltb_str (fst b) (fst a) = true.
  Definition same_keys_in_any_order (o : fmap E -> fmap E) : Prop := forall m, Permutation m (o m).

  (** The values added by a history. *)
  Fixpoint added (os : list (iop E)) : list (f64 E) :=
    match os with [] => [] | IAdd _ f _ :: t => f :: added t | _ :: t => added t end.
  (** [x] is the value at index n/2 of the n values in increasing order (NaNs first). *)
  Definition upper_median (l : list (f64 E)) (x : f64 E) : Prop :=
    exists s, Permutation l s /\ StronglySorted (fun a b => ltb64 E b a = false /\ (num64 b \/ ~ num64 a)) s /\ nth_error s (length l / 2) = Some x.
End Idf.
