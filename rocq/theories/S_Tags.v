(** Specification of the life of a TagExtracter: what a history says about it. *)
From Verif Require Export M_Tags S_Idf.
Set Implicit Arguments. Unset Strict Implicit.

Section Tags.
  Variable E : env.
  (** Calls for the dictionary, for the idf values, for the stop words. *)
  Definition for_dict (o : top E) : bool := match o with TGse _ | TDict _ _ => true | _ => false end.
  Definition for_idf (o : top E) : bool := match o with TIdf _ _ _ | TIdfStr _ | TIdfAdd _ _ _ => true | _ => false end.
  Definition for_stop (o : top E) : bool := match o with TStop _ _ | TOther _ => true | _ => false end.
  (** A segmenter as clients have one: New or LoadDict was called, or nothing. *)
  Definition usable (s : seg E) : Prop := match s_dict s with Some d => reachable (s_cfg s) d | None => s_load s = false end.
  (** [n] StopWords exist already; the package variable is not assigned to. *)
  Definition plain (n : nat) (o : top E) : Prop :=
    match o with
    | TGse s => usable s
    | TOther (WAdd s _) | TOther (WRemove s _) => s < n
    | TOther (WLoad _ _ _) | TOther (WAssign _) => False
    | _ => True
    end.
  (** The last call for the dictionary gave one. *)
  Fixpoint has_dict (b : bool) (os : list (top E)) : bool :=
    match os with
    | [] => b
    | TGse s :: t => has_dict (match s_dict s with Some _ => true | None => false end) t
    | TDict _ _ :: t => has_dict true t
    | _ :: t => has_dict b t
    end.
  Definition has_idf (os : list (top E)) : bool := existsb (fun o => match o with TIdf _ _ _ | TIdfStr _ => true | _ => false end) os.
  (** Whether [w] is a stop word after the calls, if [b] says so before. *)
  Fixpoint stopped (w : bytes) (b : bool) (os : list (top E)) : bool :=
    match os with
    | [] => b
    | TStop fs files :: t => stopped w (b || (negb (snd (load_stop fs None files)) && is_stop (fst (load_stop fs None files)) w)) t
    | TOther (WAdd _ v) :: t => stopped w (b || beqb w v) t
    | TOther (WRemove _ v) :: t => stopped w (b && negb (beqb w v)) t
    | _ :: t => stopped w b t
    end.
  (** Files can be read to the end, and AddToken of an Idf comes after LoadIdf or LoadIdfStr. *)
  Definition readable (fs : fsys) : Prop := forall p x fin, fs p = Some (x, fin) -> fin = REof.
  Fixpoint in_order (b : bool) (os : list (top E)) : Prop :=
    match os with
    | [] => True
    | TDict fs _ :: t => readable fs /\ in_order b t
    | TIdf fs _ _ :: t => readable fs /\ in_order true t
    | TIdfStr _ :: t => in_order true t
    | TIdfAdd _ _ _ :: t => b = true /\ in_order b t
    | _ :: t => in_order b t
    end.
End Tags.
