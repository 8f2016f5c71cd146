(** Comparing dictionaries by their words. *)
From Verif Require Export S_Dag S_Seg S_Dict.
Set Implicit Arguments. Unset Strict Implicit.

Section Spec.
  Variable E : env.

  (** The word [w] is stored with frequency [f] and tag [p]. *)
  Definition entry (d : dict E) (w : bytes) (f : f64 E) (p : bytes) : Prop :=
    exists v t, dict_value d w = Some v /\ nth_error (d_tokens d) v = Some t /\ t_freq t = f /\ t_pos t = p.
  (** The word [w] is stored with tag [p] and path length [x]. *)
  Definition weighs (d : dict E) (w : bytes) (p : bytes) (x : f32 E) : Prop :=
    exists v t, dict_value d w = Some v /\ nth_error (d_tokens d) v = Some t /\ t_pos t = p /\ t_dist t = x.
  Definition same_words (d1 d2 : dict E) : Prop := forall w f p, entry d1 w f p <-> entry d2 w f p.

  (** Byte positions of segments. *)
  Definition spans (r : res (list segment)) : res (list (nat * nat)) :=
    match r with Ok l => Ok (map (fun s => (sg_start s, sg_end s)) l) | Panic => Panic | Hang => Hang end.

  (** No output of the segmenter tells the two dictionaries apart; [em]: the HMM model used by Cut(s, true). *)
  Record same_results (c : cfg) (d1 d2 : dict E) : Prop := {
    sr_find : forall w, dict_find d1 w = dict_find d2 w;
    sr_segment : forall s m, spans (internal_segment c (Some d1) s m) = spans (internal_segment c (Some d2) s m);
    sr_slice : forall s m, seg_slice c (Some d1) s m = seg_slice c (Some d2) s m;
    sr_pos : forall s m, seg_pos c (Some d1) s m = seg_pos c (Some d2) s m;
    sr_string : forall s m, seg_string c (Some d1) s m = seg_string c (Some d2) s m;
    sr_cut : forall em s h, cut d1 c em s h = cut d2 c em s h;
    sr_all : forall s, cut_all d1 c s = cut_all d2 c s;
    sr_search : forall em s h, cut_search d1 c em s h = cut_search d2 c em s h;
    sr_suggest : forall ws, suggest_freq d1 c ws = suggest_freq d2 c ws
  }.

  (** [w] occurs in [s]. *)
  Definition occurs (w s : bytes) : Prop := exists a b, s = a ++ w ++ b.

  (** AddToken of every word of a list of words, frequencies and tags; then CalcToken. *)
  Definition adds (l : list (bytes * Z * bytes)) : list (dop E) :=
    map (fun x => OpAdd (fst (fst x)) (lit64 E (snd (fst x)) 0) (snd x)) l.
  Definition freq_sum (l : list (bytes * Z * bytes)) : Z := fold_right (fun x n => (snd (fst x) + n)%Z) 0%Z l.
End Spec.
Arguments adds E l : clear implicits.
