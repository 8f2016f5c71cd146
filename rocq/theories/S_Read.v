(** Reading back what ToString prints. *)
From Verif Require Export S_Seg M_Out.
Set Implicit Arguments. Unset Strict Implicit.
Local Open Scope lit_scope.

(** What stands before the first [b], and what stands behind it. *)
Fixpoint cut_at (b : byte) (s : bytes) : option (bytes * bytes) :=
  match s with
  | [] => None
  | x :: t => if Byte.eqb x b then Some ([], t) else match cut_at b t with Some (u, v) => Some (x :: u, v) | None => None end
  end.
(** The pairs of a printed list: a word is its first byte and everything up to the next slash, a tag everything up to the next space. *)
Fixpoint read_tags (fuel : nat) (s : bytes) : option (list (bytes * bytes)) :=
  match s with
  | [] => Some []
  | x :: t =>
    match fuel with
    | O => None
    | S f =>
      match cut_at x2f t with
      | Some (w, r) =>
        match cut_at x20 r with
        | Some (p, r') => match read_tags f r' with Some l => Some ((x :: w, p) :: l) | None => None end
        | None => None
        end
      | None => None
      end
    end
  end.
(** Words and tags for which this works: no slash behind the first byte, no space in the tag. *)
Definition plain_word (w : bytes) : Prop := ~ In x2f (tl w).
Definition plain_tag (p : bytes) : Prop := ~ In x20 p.
Definition plain_dict (E : env) (d : dict E) : Prop := forall t, In t (d_tokens d) -> plain_word (concat (t_text t)) /\ plain_tag (t_pos t).
