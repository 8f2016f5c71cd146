(** Which words share memory with the argument. *)
From Verif Require Export M_Alias S_Split S_Seg.
Set Implicit Arguments. Unset Strict Implicit.

(** The character at byte [p] of [s] counts as alphanumeric. *)
Definition alnum_at (E : env) (c : cfg) (s : bytes) (p : nat) : bool :=
  match units (skipn p s) with u :: _ => alnum_unit E c u | [] => false end.

(** A segment of [s] after the array was overwritten with [buf]: dictionary words and (with ToLower) alphanumeric words are as before, the
    others are what is now at their place. *)
Definition shown (E : env) (c : cfg) (d : dict E) (s buf : bytes) (sg : segment) : bytes :=
  match sg_tok sg with
  | InDict v => match nth_error (d_tokens d) v with Some t => concat (t_text t) | None => [] end
  | Fallback w => if c_lower c && alnum_at E c s (sg_start sg) then w else slice buf (sg_start sg) (sg_end sg)
  end.

(** The words of [s] from byte [p] on, likewise. *)
Fixpoint shown_words (E : env) (c : cfg) (s buf : bytes) (p : nat) (ws : list bytes) : list bytes :=
  match ws with
  | [] => []
  | w :: rest => (if c_lower c && alnum_at E c s p then w else slice buf p (p + length w)) :: shown_words E c s buf (p + length w) rest
  end.
