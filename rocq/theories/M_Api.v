(** Methods of Segmenter that need a dictionary: the receiver's Dict may be nil. *)
From Verif Require Export M_New M_Idf.
Set Implicit Arguments. Unset Strict Implicit.

Section Api.
  Variable E : env.

  (** dictionary.go:50-143 reads and writes fields of the receiver: with a nil Dict every method panics. *)
  Definition on_dict (s : seg E) (f : dict E -> res (dict E)) : res (seg E) :=
    match s_dict s with None => Panic | Some d => do d' <- f d ; Ok (set_dict s (Some d')) end.
  (** dict_util.go:99-104 RemoveToken. The error is not part of the result here, see [seg_remove_token]. *)
  Definition api_remove (s : seg E) (text : bytes) : res (seg E) :=
    on_dict s (fun d => do r <- seg_remove_token (s_cfg s) d text ; Ok (fst r)).
  (** dict_util.go:89-96 ReAddToken; the error likewise. *)
  Definition api_readd (s : seg E) (text : bytes) (freq : f64 E) (pos : bytes) : res (seg E) :=
    on_dict s (fun d => do r <- seg_readd_token (s_cfg s) d text freq pos ; Ok (fst r)).
  (** dict_util.go:454-503 CalcToken *)
  Definition api_calc (s : seg E) : res (seg E) := on_dict s (@calc_token E).
End Api.
