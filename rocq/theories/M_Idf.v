(** Package idf (hmm/idf) and package segment (hmm/segment): TF-IDF tags. *)
From Verif Require Export M_Trim.
Set Implicit Arguments. Unset Strict Implicit.
Local Open Scope lit_scope.

(** Go's < on strings. *)
Fixpoint ltb_str (a b : bytes) : bool :=
  match a, b with
  | _, [] => false
  | [], _ :: _ => true
  | x :: a', y :: b' => if Byte.eqb x y then ltb_str a' b' else (bz x <? bz y)%Z
  end.

(** sort.Sort (library) with the given Less; its contract is [sorts] in S_Idf.v. *)
Definition sort_fn := forall A : Type, (A -> A -> bool) -> list A -> list A.

Section Idf.
  Variable E : env.

  (** hmm/segment/segment.go:4-7 Segment: text and weight *)
  Definition wseg : Type := bytes * f64 E.
  (** hmm/segment/segment.go:26-32 Segments.Less *)
  Definition seg_less (a b : wseg) : bool :=
    if eqb64 E (snd a) (snd b) then ltb_str (fst a) (fst b) else ltb64 E (snd a) (snd b).
  (** sort.Reverse (library) *)
  Definition reverse_less {A} (less : A -> A -> bool) (a b : A) : bool := less b a.

  (** ** Idf: hmm/idf/idf.go:24-29 *)
  Record idf : Type := { i_median : f64 E; i_freqs : list (f64 E); i_seg : seg E }.
  (** hmm/idf/idf.go:66-69 NewIdf: [s0] is the zero Segmenter together with the package options. *)
  Definition new_idf (s0 : seg E) : idf := {| i_median := lit64 E 0 0; i_freqs := []; i_seg := s0 |}.
  (** The order of sort.Float64s (library): NaNs first. *)
  Definition float_less (x y : f64 E) : bool :=
    ltb64 E x y || (negb (eqb64 E x x) && eqb64 E y y).
  (** hmm/idf/idf.go:32-39 AddToken; the error of seg.AddToken is always nil. *)
  Definition idf_add (srt : sort_fn) (i : idf) (text : bytes) (freq : f64 E) (pos : bytes) : res idf :=
    match s_dict (i_seg i) with
    | None => Panic
    | Some d =>
      do d' <- seg_add_token (s_cfg (i_seg i)) d text freq pos ;
      let fs := srt (f64 E) float_less (i_freqs i ++ [freq]) in
      do m <- get fs (length fs / 2) ;
      Ok {| i_median := m; i_freqs := fs; i_seg := set_dict (i_seg i) (Some d') |}
    end.
  (** hmm/idf/idf.go:42-48 LoadDict; [path] is the result of GetIdfPath (dict_util.go:230-239). *)
  Definition idf_load (fs : fsys) (path : bytes) (i : idf) (arg : option bytes) : res (idf * bool) :=
    do r <- load_dict (i_seg i) fs (Some (match arg with Some f => f | None => path end)) ;
    Ok ({| i_median := i_median i; i_freqs := i_freqs i; i_seg := fst r |}, snd r).
  (** hmm/idf/idf.go:51-53 Freq: a nil Dict panics. *)
  Definition idf_freq (i : idf) (w : bytes) : res (f64 E * bytes * bool) :=
    match s_dict (i_seg i) with None => Panic | Some d => dict_find d w end.
  (** hmm/idf/tag_extracker.go:40-43 LoadIdfStr *)
  Definition load_idf_str (s0 : seg E) (text : bytes) : res idf :=
    do s <- load_str s0 text ;
    Ok {| i_median := lit64 E 0 0; i_freqs := []; i_seg := s |}.
  (** hmm/idf/tag_extracker.go:34-37 LoadIdf *)
  Definition load_idf (fs : fsys) (path : bytes) (s0 : seg E) (arg : option bytes) : res (idf * bool) :=
    idf_load fs path (new_idf s0) arg.

  (** Histories of one Idf. *)
  Inductive iop : Type :=
  | IAdd (text : bytes) (freq : f64 E) (pos : bytes)
  | ILoad (fs : fsys) (path : bytes) (arg : option bytes).
  Fixpoint idf_run (srt : sort_fn) (i : idf) (os : list iop) : res idf :=
    match os with
    | [] => Ok i
    | IAdd text freq pos :: t => do i' <- idf_add srt i text freq pos ; idf_run srt i' t
    | ILoad fs path arg :: t => do r <- idf_load fs path i arg ; idf_run srt (fst r) t
    end.

  (** ** ExtractTags: hmm/idf/tag_extracker.go:52-99 *)
  (** freqMap: distinct keys; the order of the list is that of the first insertions. *)
  Definition fmap := list (bytes * f64 E).
  (** hmm/idf/tag_extracker.go:64-68 *)
  Fixpoint fm_add (m : fmap) (w : bytes) : fmap :=
    match m with
    | [] => [(w, lit64 E 1 0)]
    | (k, f) :: t => if beqb k w then (k, add64 E f (lit64 E 1 0)) :: t else (k, f) :: fm_add t w
    end.
  (** hmm/idf/tag_extracker.go:55-69; [sw] is t.stopWord.stopWordMap, [None] if t.stopWord is nil. *)
  Fixpoint fm_count (sw : option (list bytes)) (ws : list bytes) (m : fmap) : res fmap :=
    match ws with
    | [] => Ok m
    | w :: t =>
      let w := trim_space E w in
      if length (runes_of w) <? 2 then fm_count sw t m
      else match sw with
           | None => Panic
           | Some l => if in_list w l then fm_count sw t m else fm_count sw t (fm_add m w)
           end
    end.
  (** hmm/idf/tag_extracker.go:81-88 *)
  Fixpoint weigh (oi : option idf) (m : fmap) : res (list wseg) :=
    match m with
    | [] => Ok []
    | (k, v) :: t =>
      match oi with
      | None => Panic
      | Some i =>
        do f <- idf_freq i k ;
        do r <- weigh oi t ;
        Ok ((k, mul64 E (if snd f then fst (fst f) else i_median i) v) :: r)
      end
    end.
  (** [o1], [o2]: the orders in which the map is ranged over for the sum (hmm/idf/tag_extracker.go:72-74) and for the
      result (81-88); the order of the division (76-78) has no effect. *)
  Definition extract_tags (srt : sort_fn) (o1 o2 : fmap -> fmap) (d : dict E) (c : cfg) (em : emits E)
      (sw : option (list bytes)) (oi : option idf) (text : bytes) (topK : Z) : res (list wseg) :=
    do ws <- cut d c em text (Some true) ;
    do m <- fm_count sw ws [] ;
    let total := fold_left (add64 E) (map snd (o1 m)) (lit64 E 0 0) in
    let m := map (fun kv => (fst kv, div64 E (snd kv) total)) m in
    do w <- weigh oi (o2 m) ;
    let w := srt wseg (reverse_less seg_less) w in
    if (topK <? Z.of_nat (length w))%Z
    then if (topK <? 0)%Z then Panic else Ok (firstn (Z.to_nat topK) w)
    else Ok w.
End Idf.

(** ** StopWord: hmm/idf/stop_words.go. Maps are references: [h_maps] are the maps, [h_pkg] the one in the package
    variable StopWordMap, and each StopWord has one together with the stop words of its Segmenter. *)
Record sheap : Type := { h_maps : list (list bytes); h_pkg : nat; h_sws : list (nat * stops) }.
Inductive swop : Type :=
| WNew                          (* NewStopWord, hmm/idf/stop_words.go:60-64 *)
| WAdd (s : nat) (w : bytes)    (* AddStop, :50-52 *)
| WRemove (s : nat) (w : bytes) (* RemoveStop, :55-57 *)
| WLoad (s : nat) (fs : spath -> option bytes) (files : list bytes) (* LoadDict, :73-84 *)
| WAssign (m : list bytes).     (* idf.StopWordMap = map[string]bool{...} in a client *)

Definition h_upd (h : sheap) (p : nat) (f : list bytes -> list bytes) : sheap :=
  {| h_maps := match nth_error (h_maps h) p with Some m => firstn p (h_maps h) ++ f m :: skipn (S p) (h_maps h) | None => h_maps h end;
     h_pkg := h_pkg h; h_sws := h_sws h |}.
(** One call; a call on a StopWord that does not exist is not possible and does nothing. *)
Definition h_step (h : sheap) (o : swop) : sheap :=
  match o with
  | WNew => {| h_maps := h_maps h; h_pkg := h_pkg h; h_sws := h_sws h ++ [(h_pkg h, None)] |}
  | WAdd s w => match nth_error (h_sws h) s with Some (p, _) => h_upd h p (fun m => set_put m w) | None => h end
  | WRemove s w => match nth_error (h_sws h) s with Some (p, _) => h_upd h p (fun m => set_del m w) | None => h end
  | WLoad s fs files =>
    match nth_error (h_sws h) s with
    | Some (p, st) =>
      let r := load_stop fs st files in
      let h := {| h_maps := h_maps h; h_pkg := h_pkg h; h_sws := firstn s (h_sws h) ++ (p, fst r) :: skipn (S s) (h_sws h) |} in
      if snd r then h else h_upd h (h_pkg h) (fun m => put_all m (made (fst r)))
    | None => h
    end
  | WAssign m => {| h_maps := h_maps h ++ [m]; h_pkg := length (h_maps h); h_sws := h_sws h |}
  end.
(** hmm/idf/stop_words.go:67-70 IsStopWord *)
Definition h_is_stop (h : sheap) (s : nat) (w : bytes) : bool :=
  match nth_error (h_sws h) s with Some (p, _) => in_list w (nth p (h_maps h) []) | None => false end.
(** The package at start (hmm/idf/stop_words.go:8-40): one map, no StopWord. *)
Definition default_stops : list bytes := map str
  ["the"; "of"; "is"; "and"; "to"; "in"; "that"; "we"; "for"; "an"; "are"; "by"; "be"; "as"; "on"; "with"; "can"; "if"; "from"; "which";
   "you"; "it"; "this"; "then"; "at"; "have"; "all"; "not"; "one"; "has"; "or"].
Definition h_init : sheap := {| h_maps := [default_stops]; h_pkg := 0; h_sws := [] |}.
Definition h_run (os : list swop) : sheap := fold_left h_step os h_init.
