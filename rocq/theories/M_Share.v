(** Several Segmenters: copies of the struct share the Dictionary. *)
From Verif Require Export S_Api.
Set Implicit Arguments. Unset Strict Implicit.

Section Share.
  Variable E : env.

  (** segmenter.go:24-59: the field Dict is a pointer, here the number of a dictionary in [w_dicts]. *)
  Record hseg : Type := { p_cfg : cfg; p_dict : option nat; p_load : bool; p_lc : lcfg E }.
  Record world : Type := { w_dicts : list (dict E); w_segs : list hseg }.

  (** Calls of a client: a new zero Segmenter with options ([s_dict], [s_load] of the argument are not used), a copy of a
      Segmenter (an assignment; WithGse of hmm/idf/tag_extracker.go:21-24, hmm/pos/pos_seg.go:48-50, hmm/idf/textrank.go:24-26),
      or a call on one of them. *)
  Inductive wop : Type := WZero (s : seg E) | WCopy (i : nat) | WCall (i : nat) (o : aop E).

  (** What a method sees. *)
  Definition view (w : world) (h : hseg) : seg E :=
    {| s_cfg := p_cfg h; s_dict := match p_dict h with None => None | Some p => nth_error (w_dicts w) p end; s_load := p_load h; s_lc := p_lc h |}.
  (** Calls that make a new Dictionary: dict_util.go:151-155 (LoadDict), dict_1.16.go:92-95 (LoadDictStr, LoadDictEmbed), dict_util.go:114-117 (LoadDictMap).
      All others work on the Dictionary the Segmenter points to; Empty (dict_util.go:107-110) sets the pointer to nil. *)
  Definition allocs (s : seg E) (o : aop E) : bool :=
    match o with
    | ALoad (LDict _ _) => negb (s_load s)
    | ALoad (LStr _) | ALoad (LMap _) | AEmbed _ _ _ => match s_dict s with None => true | Some _ => false end
    | _ => false
    end.
  Fixpoint set_nth {A} (l : list A) (i : nat) (a : A) : list A :=
    match l, i with [], _ => [] | _ :: t, O => a :: t | x :: t, S i => x :: set_nth t i a end.
  (** The state [s'] of the Segmenter number [i], which was [h], is written back. *)
  Definition write (w : world) (i : nat) (h : hseg) (fresh : bool) (s' : seg E) : world :=
    let put p := {| p_cfg := s_cfg s'; p_dict := p; p_load := s_load s'; p_lc := s_lc s' |} in
    match s_dict s' with
    | None => {| w_dicts := w_dicts w; w_segs := set_nth (w_segs w) i (put None) |}
    | Some d =>
      match p_dict h, fresh with
      | Some p, false => {| w_dicts := set_nth (w_dicts w) p d; w_segs := set_nth (w_segs w) i (put (Some p)) |}
      | _, _ => {| w_dicts := w_dicts w ++ [d]; w_segs := set_nth (w_segs w) i (put (Some (length (w_dicts w)))) |}
      end
    end.
  Definition w_step (w : world) (o : wop) : res world :=
    match o with
    | WZero s => Ok {| w_dicts := w_dicts w; w_segs := w_segs w ++ [{| p_cfg := s_cfg s; p_dict := None; p_load := false; p_lc := s_lc s |}] |}
    | WCopy i => do h <- get (w_segs w) i ; Ok {| w_dicts := w_dicts w; w_segs := w_segs w ++ [h] |}
    | WCall i o => do h <- get (w_segs w) i ; do s' <- run_aop (view w h) o ; Ok (write w i h (allocs (view w h) o) s')
    end.
  Fixpoint w_run (w : world) (os : list wop) : res world :=
    match os with [] => Ok w | o :: t => do w' <- w_step w o ; w_run w' t end.
  Definition w_nil : world := {| w_dicts := []; w_segs := [] |}.
End Share.
Arguments WZero {E}. Arguments WCopy {E}. Arguments WCall {E}.
