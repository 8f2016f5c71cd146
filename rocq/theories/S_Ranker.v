(** Specification of the lives of a pos.Segmenter and a TextRanker. *)
From Verif Require Export M_Ranker S_Pos S_Tags.
Set Implicit Arguments. Unset Strict Implicit.

Section Ranker.
  Variable E : env.
  (** The last call gave a dictionary. *)
  Fixpoint r_has (b : bool) (os : list (rop E)) : bool :=
    match os with
    | [] => b
    | RGse s :: t => r_has (match s_dict s with Some _ => true | None => false end) t
    | RDict _ _ :: t => r_has true t
    end.
  Definition r_usable (o : rop E) : Prop := match o with RGse s => usable s | RDict fs _ => readable fs end.
End Ranker.
