(** Specification of the search-mode listings, independent of the walks over the tree. *)
From Verif Require Export S_Seg M_New.
Set Implicit Arguments. Unset Strict Implicit.

Section Spec.
  Variable E : env.

  (** A sub-segment that is divided further, or whose text begins with a unit that has kana. *)
  Definition opens (d : dict E) (s : segment) : Prop :=
    exists t, deref d (sg_tok s) = Ok t /\
      (2 <= length (t_segs t) \/ exists w r k, t_text t = w :: r /\ In k (runes_of w) /\ is_kana E k = true).

  (** What search mode lists for a token: the listings of its sub-segments from the first one that [opens] on, then
      the token itself. *)
  Inductive listing (d : dict E) : token E -> list (bytes * bytes) -> Prop :=
  | listing_intro : forall t skipped rest items, t_segs t = skipped ++ rest -> Forall (fun s => ~ opens d s) skipped ->
      (rest = [] \/ exists s r, rest = s :: r /\ opens d s) -> listings d rest items ->
      listing d t (items ++ [(concat (t_text t), t_pos t)])
  with listings (d : dict E) : list segment -> list (bytes * bytes) -> Prop :=
  | listings_nil : listings d [] []
  | listings_cons : forall s rest t a b, deref d (sg_tok s) = Ok t -> listing d t a -> listings d rest b -> listings d (s :: rest) (a ++ b).

  (** The whole tree, children first. *)
  Inductive tree (d : dict E) : token E -> list (bytes * bytes) -> Prop :=
  | tree_intro : forall t items, trees d (t_segs t) items -> tree d t (items ++ [(concat (t_text t), t_pos t)])
  with trees (d : dict E) : list segment -> list (bytes * bytes) -> Prop :=
  | trees_nil : trees d [] []
  | trees_cons : forall s rest t a b, deref d (sg_tok s) = Ok t -> tree d t a -> trees d rest b -> trees d (s :: rest) (a ++ b).
End Spec.

(** Loading several texts one after the other with Reader. *)
Inductive readers (E : env) (c : cfg) (l : lcfg E) : dict E -> list bytes -> dict E -> Prop :=
| readers_nil : forall d, readers c l d [] d
| readers_cons : forall d x d1 xs d2, reader c l x REof (Some d) = Ok (Some d1) -> readers c l d1 xs d2 -> readers c l d (x :: xs) d2.
