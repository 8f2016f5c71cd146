(** Specification: which calls a Segmenter among several has seen. *)
From Verif Require Export M_Share.
Set Implicit Arguments. Unset Strict Implicit.

Section Share.
  Variable E : env.
  (** A Segmenter: the options it started with, the calls that count for it, and the number of the call that made its dictionary. *)
  Record line : Type := { l_zero : seg E; l_calls : list (aop E); l_made : option nat }.
  Fixpoint repl {A} (l : list A) (i : nat) (a : A) : list A :=
    match l, i with [], _ => [] | _ :: t, O => a :: t | x :: t, S i => x :: repl t i a end.
  Definition counts (l : line) (o : aop E) (m : option nat) : line := {| l_zero := l_zero l; l_calls := l_calls l ++ [o]; l_made := m |}.
  (** Does the call make a dictionary after these calls? *)
  Definition makes (os : list (aop E)) (o : aop E) : bool :=
    let m := fold_left (@next E) os (false, false) in
    match o with
    | ALoad (LDict _ _) => negb (snd m)
    | ALoad (LStr _) | ALoad (LMap _) | AEmbed _ _ _ => negb (fst m)
    | _ => false
    end.
  Definition zero (s : seg E) : seg E := {| s_cfg := s_cfg s; s_dict := None; s_load := false; s_lc := s_lc s |}.
  Definition same_made (a b : option nat) : bool := match a, b with Some x, Some y => x =? y | _, _ => false end.
  (** The effect of call number [n]: one that makes or drops a dictionary counts for its Segmenter only, any other also for those
      whose dictionary was made by the same call. *)
  Definition next_lines (n : nat) (ls : list line) (o : wop E) : list line :=
    match o with
    | WZero s => ls ++ [{| l_zero := zero s; l_calls := []; l_made := None |}]
    | WCopy i => match nth_error ls i with None => ls | Some l => ls ++ [l] end
    | WCall i o =>
      match nth_error ls i with
      | None => ls
      | Some l =>
        if makes (l_calls l) o then repl ls i (counts l o (Some n))
        else match o with
             | AEmpty _ => repl ls i (counts l o None)
             | _ => map (fun jl : nat * line => let (j, k) := jl in
                          if (j =? i) || same_made (l_made l) (l_made k) then counts k o (l_made k) else k)
                        (combine (seq 0 (length ls)) ls)
             end
      end
    end.
  Fixpoint lines (n : nat) (ls : list line) (os : list (wop E)) : list line :=
    match os with [] => ls | o :: t => lines (S n) (next_lines n ls o) t end.
  Definition lines_of (os : list (wop E)) : list line := lines 0 [] os.

  (** The Segmenters named exist. *)
  Fixpoint named (n : nat) (os : list (wop E)) : Prop :=
    match os with
    | [] => True
    | WZero _ :: t => named (S n) t
    | WCopy i :: t => i < n /\ named (S n) t
    | WCall i _ :: t => i < n /\ named n t
    end.

  (** Had every copy its own dictionary: the options and the calls of a Segmenter and, before the copying, of the one copied. *)
  Definition next_alone (ls : list (seg E * list (aop E))) (o : wop E) : list (seg E * list (aop E)) :=
    match o with
    | WZero s => ls ++ [(zero s, [])]
    | WCopy i => match nth_error ls i with None => ls | Some l => ls ++ [l] end
    | WCall i o => match nth_error ls i with None => ls | Some l => repl ls i (fst l, snd l ++ [o]) end
    end.
  Definition alone (os : list (wop E)) : list (seg E * list (aop E)) := fold_left next_alone os [].
  Definition has_dictionary (os : list (aop E)) : bool := fst (fold_left (@next E) os (false, false)).
  (** Only Segmenters without a dictionary are copied. *)
  Fixpoint early_copies (ls : list (seg E * list (aop E))) (os : list (wop E)) : Prop :=
    match os with
    | [] => True
    | o :: t => match o with WCopy i => match nth_error ls i with Some l => has_dictionary (snd l) = false | None => True end | _ => True end /\
                early_copies (next_alone ls o) t
    end.
  (** Calls that keep the dictionary of a Segmenter on which LoadDict has ([b]) or has not been called. *)
  Definition keeps (b : bool) (o : aop E) : Prop :=
    match o with AEmpty _ => False | ALoad (LDict _ _) => b = true | _ => True end.
End Share.
