(** Histories of one Segmenter whose splitting options are not changed. *)
From Verif Require Export M_Api S_Load.
Set Implicit Arguments. Unset Strict Implicit.

Section Api.
  Variable E : env.
  Inductive aop : Type :=
  | ALoad (o : lop E)
  | AEmbed (e : embedded) (arg : option bytes)
  | ARemove (text : bytes)
  | AReAdd (text : bytes) (freq : f64 E) (pos : bytes)
  | ACalc
  | AEmpty.
  Definition run_aop (s : seg E) (o : aop) : res (seg E) :=
    match o with
    | ALoad o => run_lop s o
    | AEmbed e arg => load_embed e s arg
    | ARemove text => api_remove s text
    | AReAdd text freq pos => api_readd s text freq pos
    | ACalc => api_calc s
    | AEmpty => Ok (empty s)
    end.
  Fixpoint run_aops (s : seg E) (os : list aop) : res (seg E) :=
    match os with [] => Ok s | o :: t => do s' <- run_aop s o ; run_aops s' t end.

  (** What a history says about the segmenter: is there a dictionary, has LoadDict been called. *)
  Definition mode : Type := (bool * bool)%type.
  Definition next (m : mode) (o : aop) : mode :=
    match o with
    | ALoad (LStr _) | ALoad (LMap _) | AEmbed _ _ => (true, snd m)
    | ALoad (LDict _ _) => (fst m || negb (snd m), true)
    | AEmpty => (false, snd m)
    | _ => m
    end.
  (** Calls that dereference the dictionary at once. *)
  Definition needs (o : aop) : Prop :=
    match o with
    | ALoad (LAdd _ _ _) | ALoad (LForce _ _ _) | ARemove _ | AReAdd _ _ _ | ACalc => True
    | _ => False
    end.
  (** Calls that are in order: a dictionary where one is needed, and no file whose reading fails half-way. *)
  Definition fine1 (m : mode) (o : aop) : Prop :=
    match o with
    | ALoad (LReader _) => fst m = true
    | ALoad (LDict fs _) => (snd m = true -> fst m = true) /\ forall p x fin, fs p = Some (x, fin) -> fin = REof
    | _ => needs o -> fst m = true
    end.
  Fixpoint fine (m : mode) (os : list aop) : Prop :=
    match os with [] => True | o :: t => fine1 m o /\ fine (next m o) t end.
End Api.
