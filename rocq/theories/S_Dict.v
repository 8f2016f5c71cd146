(** Specification of the dictionary as a finite map, over histories of API calls. *)
From Verif Require Export M_Seg S_Split.
Set Implicit Arguments. Unset Strict Implicit.

Section Hist.
  Variable E : env.

  (** What a user knows about each word: nothing, or its frequency and part of speech. *)
  Definition wmap : Type := bytes -> option (f64 E * bytes).
  Definition wempty : wmap := fun _ => None.
  Definition wset (m : wmap) (k : bytes) (x : option (f64 E * bytes)) : wmap :=
    fun k' => if beqb k' k then x else m k'.

  (** The word meant by a spelling is its normal form. *)
  Definition spec_op (c : cfg) (m : wmap) (o : dop E) : wmap :=
    match o with
    | OpAdd text freq pos =>
      match m (norm E c text) with None => wset m (norm E c text) (Some (freq, pos)) | Some _ => m end
    | OpReAdd text freq pos =>
      match m (norm E c text) with None => m | Some _ => wset m (norm E c text) (Some (freq, pos)) end
    | OpRemove text => wset m (norm E c text) None
    | OpCalc => m
    end.
  Fixpoint spec_ops (c : cfg) (m : wmap) (os : list (dop E)) : wmap :=
    match os with [] => m | o :: os' => spec_ops c (spec_op c m o) os' end.

  (** RemoveToken/ReAddToken of non-words only where no stored word extends the argument (otherwise cedar
      decides, see C18). *)
  Definition safe_op (c : cfg) (m : wmap) (o : dop E) : Prop :=
    match o with
    | OpReAdd text _ _ | OpRemove text =>
      m (norm E c text) <> None \/ (text <> [] /\ forall x, m (norm E c text ++ x) = None)
    | _ => True
    end.
  Fixpoint safe_ops (c : cfg) (m : wmap) (os : list (dop E)) : Prop :=
    match os with [] => True | o :: os' => safe_op c m o /\ safe_ops c (spec_op c m o) os' end.

  (** *** Counters *)

  (** Text, frequency and part of speech of a token. *)
  Definition info (t : token E) : list bytes * f64 E * bytes := (t_text t, t_freq t, t_pos t).

  Definition words_of (c : cfg) (s : bytes) : list bytes := match split_words E c s with Ok ws => ws | _ => [] end.

  (** The token an operation adds, if any: AddToken of a word that has no entry; ReAddToken that does not
      return an error. *)
  Definition effective (c : cfg) (d : dict E) (o : dop E) : list (list bytes * f64 E * bytes) :=
    match o with
    | OpAdd text freq pos =>
      match dict_value d (norm E c text) with None => [(words_of c text, freq, pos)] | Some _ => [] end
    | OpReAdd text freq pos =>
      match seg_readd_token c d text freq pos with Ok (_, false) => [(words_of c text, freq, pos)] | _ => [] end
    | _ => []
    end.
  Fixpoint effective_ops (c : cfg) (d : dict E) (os : list (dop E)) : list (list bytes * f64 E * bytes) :=
    match os with
    | [] => []
    | o :: os' => effective c d o ++ match run_op c d o with Ok d' => effective_ops c d' os' | _ => [] end
    end.

  Definition sum_freq (l : list (f64 E)) : f64 E := fold_left (add64 E) l (lit64 E 0 0).
  Definition max_len (l : list (list bytes)) : nat := fold_right (fun w n => Nat.max (length w) n) 0 l.

  (** Number of bytes of the text of token number [v]. *)
  Definition tok_size (d : dict E) (v : nat) : nat :=
    match nth_error (d_tokens d) v with Some t => length (concat (t_text t)) | None => 0 end.
End Hist.
Arguments wempty : clear implicits.
