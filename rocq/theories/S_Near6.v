(** Exact TextRank scores. *)
From Verif Require Export S_Rank.
From Coq Require Export Reals.
Set Implicit Arguments. Unset Strict Implicit.

(** [X x w]: the exact score of [w] after [x] rounds, over all the pairs of near words. A word passes on its score in equal parts to
    its partners in the pairs; a round treats the words in increasing order. *)
Definition exact_scores (ns : list (bytes * bytes)) (X : nat -> bytes -> R) : Prop := forall w, In w (members ns) ->
  (X 0%nat w = 1 / INR (length (words ns)))%R /\
  forall x, let part v := (X (if ltb_str v w then S x else x) v / INR (degree ns v))%R in
    (X (S x) w = 15 / 100 + 85 / 100 * fold_right Rplus 0 (map (fun p => (if beqb (fst p) w then part (snd p) else 0) + (if beqb (snd p) w then part (fst p) else 0)) ns))%R.
