(** Specification: dictionaries that differ in the part-of-speech tags only. *)
From Verif Require Export S_Meta.
Set Implicit Arguments. Unset Strict Implicit.

Section Spec.
  Variable E : env.
  (** The same words with the same frequencies. *)
  Definition same_but_tags (d1 d2 : dict E) : Prop := forall w f, (exists p, entry d1 w f p) <-> (exists p, entry d2 w f p).
  (** Find without the tag. *)
  Definition found (r : res (f64 E * bytes * bool)) : res (f64 E * bool) :=
    match r with Ok (f, _, b) => Ok (f, b) | Panic => Panic | Hang => Hang end.
  Definition words (r : res (list (bytes * bytes))) : res (list bytes) :=
    match r with Ok l => Ok (map fst l) | Panic => Panic | Hang => Hang end.
  (** No output tells the two dictionaries apart, apart from the tags in it. *)
  Record same_cuts (c : cfg) (d1 d2 : dict E) : Prop := {
    sc_find : forall w, found (dict_find d1 w) = found (dict_find d2 w);
    sc_segment : forall s m, spans (internal_segment c (Some d1) s m) = spans (internal_segment c (Some d2) s m);
    sc_slice : forall s m, seg_slice c (Some d1) s m = seg_slice c (Some d2) s m;
    sc_pos : forall s m, words (seg_pos c (Some d1) s m) = words (seg_pos c (Some d2) s m);
    sc_cut : forall em s h, cut d1 c em s h = cut d2 c em s h;
    sc_all : forall s, cut_all d1 c s = cut_all d2 c s;
    sc_search : forall em s h, cut_search d1 c em s h = cut_search d2 c em s h;
    sc_suggest : forall ws, suggest_freq d1 c ws = suggest_freq d2 c ws
  }.

  (** Calls that differ in the tag only. *)
  Inductive same_call : dop E -> dop E -> Prop :=
  | sc_add : forall w f p q, same_call (OpAdd w f p) (OpAdd w f q)
  | sc_readd : forall w f p q, same_call (OpReAdd w f p) (OpReAdd w f q)
  | sc_other : forall o, same_call o o.
End Spec.
