(** Specification of calls that share a dictionary: what each returns if it runs alone. *)
From Verif Require Export M_Conc S_Seg.
Set Implicit Arguments. Unset Strict Implicit.

Section Alone.
  Variable E : env.
  Definition reads_only (k : call E) : Prop := match k with CSegment _ _ | CFind _ => True | _ => False end.
  (** New dictionary and result, by the functions of M_Seg and M_Dict. *)
  Definition alone (c : cfg) (d : dict E) (k : call E) : res (dict E * answer E) :=
    match k with
    | CSegment s m => do l <- internal_segment c (Some d) s m ; Ok (d, ASegs l)
    | CFind w => do r <- dict_find d w ; Ok (d, AFound r)
    | CAdd text freq pos => do d' <- seg_add_token c d text freq pos ; Ok (d', AAdded)
    | CRemove text => do r <- seg_remove_token c d text ; Ok (fst r, ARemoved (snd r))
    | CCalc => do d' <- calc_token d ; Ok (d', ACalc)
    end.
End Alone.
