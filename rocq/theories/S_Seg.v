(** Specification of segmentation. *)
From Verif Require Export M_Seg S_Split.
Set Implicit Arguments. Unset Strict Implicit.

Section Spec.
  Variable E : env.

  (** The words [p] form one step of a tiling, with token [r]: a dictionary word, or one word that is not in
      the dictionary. ([dict_value] is the API function Dictionary.Value.) *)
  Inductive piece (d : dict E) : list bytes -> tref -> Prop :=
  | piece_dict : forall p v, p <> [] -> dict_value d (concat p) = Some v -> piece d p (InDict v)
  | piece_fallback : forall w, dict_value d w = None -> piece d [w] (Fallback w).

  (** [rs] is a tiling of the words [ws]. *)
  Definition tiling (d : dict E) (ws : list bytes) (rs : list tref) : Prop :=
    exists ps, concat ps = ws /\ Forall2 (piece d) ps rs.

  Definition dist_of (d : dict E) (r : tref) : f32 E :=
    match deref d r with Ok t => t_dist t | _ => lit32 E 0 0 end.

  (** Total path length, added left to right in float32. *)
  Definition cost (d : dict E) (rs : list tref) : f32 E :=
    fold_left (fun a r => add32 E a (dist_of d r)) rs (lit32 E 0 0).

  (** The segments cover [from, to) of [text] without gap or overlap, none empty, and each token's text is the
      covered range. *)
  Inductive covers (d : dict E) (text : bytes) : nat -> nat -> list segment -> Prop :=
  | cov_nil : forall p, covers d text p p []
  | cov_cons : forall from mid to s rest t,
      sg_start s = from -> sg_end s = mid -> from < mid ->
      deref d (sg_tok s) = Ok t -> concat (t_text t) = slice text from mid ->
      covers d text mid to rest -> covers d text from to (s :: rest).
End Spec.

Section SpecSubs.
  Variable E : env.

  (** More than one unit of text, or one without kana. *)
  Definition kept (d : dict E) (s : segment) : bool :=
    match deref d (sg_tok s) with
    | Ok t => match t_text t with
              | [] => false
              | [w] => forallb (fun r => negb (is_kana E r)) (runes_of w)
              | _ :: _ :: _ => true
              end
    | _ => false
    end.

  (** The sub-segments of a token: none, or those parts of a tiling of its text by at least two segments that are
      not a single kana word. *)
  Definition subs_ok (d : dict E) (t : token E) : Prop :=
    t_segs t = [] \/
    exists full, covers d (concat (t_text t)) 0 (length (concat (t_text t))) full /\ 2 <= length full /\
                 t_segs t = filter (kept d) full.
  (** After CalcToken: a word of at most one unit has none. *)
  Definition subs_full (d : dict E) (t : token E) : Prop :=
    (length (t_text t) <= 1 -> t_segs t = []) /\
    (2 <= length (t_text t) -> exists full, covers d (concat (t_text t)) 0 (length (concat (t_text t))) full /\ 2 <= length full /\
       t_segs t = filter (kept d) full).
End SpecSubs.

(** [l] is a subsequence of [l']. *)
Inductive subseq (A : Type) : list A -> list A -> Prop :=
| ss_nil : forall l, subseq [] l
| ss_take : forall a l l', subseq l l' -> subseq (a :: l) (a :: l')
| ss_skip : forall a l l', subseq l l' -> subseq l (a :: l').
