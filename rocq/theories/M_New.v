(** Constructors and small helpers: New, NewEmbed, tokenToBytes, newTag. *)
From Verif Require Export M_Load M_Out M_PosTab.
Set Implicit Arguments. Unset Strict Implicit.
Local Open Scope lit_scope.

Section New.
  Variable E : env.

  (** segmenter.go:24-59: the zero Segmenter of a [var seg Segmenter]; [lower] is the package variable ToLower
      (gse.go:24-31), which is not a field. *)
  Definition zero_seg (lower : bool) : seg E :=
    {| s_cfg := {| c_alphanum := false; c_alpha := false; c_num := false; c_lower := lower |};
       s_dict := None; s_load := false;
       s_lc := {| l_sep := []; l_nofreq := false; l_min := lit64 E 0 0; l_textfreq := [] |} |}.
  Definition set_alphanum (s : seg E) : seg E :=
    {| s_cfg := {| c_alphanum := true; c_alpha := c_alpha (s_cfg s); c_num := c_num (s_cfg s); c_lower := c_lower (s_cfg s) |};
       s_dict := s_dict s; s_load := s_load s; s_lc := s_lc s |}.

  (** gse.go:44-51 New: state and whether an error is returned. [files] are the arguments. *)
  Definition new_seg (lower : bool) (fs : fsys) (files : list bytes) : res (seg E * bool) :=
    let s := zero_seg lower in
    let s := match files with _ :: f1 :: _ => if beqb f1 (str "alpha") then set_alphanum s else s | _ => s end in
    load_dict s fs (nth_error files 0).

  (** dict_1.16.go:21-28 NewEmbed. LoadDictStr always returns a nil error, and so does LoadDictEmbed. *)
  Definition new_embed (lower : bool) (e : embedded) (dict : list bytes) : res (seg E) :=
    let s := zero_seg lower in
    let s := match dict with _ :: f1 :: _ => if beqb f1 (str "alpha") || beqb f1 (str "en") then set_alphanum s else s | _ => s end in
    load_embed e s (nth_error dict 0).

  (** seg_utils.go:68-76 tokenToBytes: all sub-segments, without the test of tokenToString. *)
  Fixpoint bytes_subs (rec : token E -> res bytes) (d : dict E) (subs : list segment) (out : bytes) : res bytes :=
    match subs with
    | [] => Ok out
    | s :: rest => do t <- deref d (sg_tok s) ; do o <- rec t ; bytes_subs rec d rest (out ++ o)
    end.
  Fixpoint token_to_bytes (fuel : nat) (d : dict E) (t : token E) : res bytes :=
    match fuel with
    | O => Hang
    | S f => do out <- bytes_subs (token_to_bytes f d) d (t_segs t) [] ; Ok (out ++ render (join (t_text t), t_pos t))
    end.
End New.

(** hmm/pos/char_state_tab.go:6712 positions *)
Definition tag_positions : list bytes := map str ["B"; "E"; "M"; "S"].
(** The search loops of newTag: index of the first equal entry. *)
Fixpoint index_of (x : bytes) (l : list bytes) (i : nat) : option nat :=
  match l with [] => None | y :: t => if beqb x y then Some i else index_of x t (S i) end.
(** hmm/pos/char_state_tab.go:26-48 newTag; [None] is the error. *)
Definition new_tag (position pos : bytes) : option Z :=
  match index_of position tag_positions 0, index_of pos poss 0 with
  | Some i, Some j => Some (Z.of_nat (i + 1) * 100 + Z.of_nat j)%Z
  | _, _ => None
  end.
