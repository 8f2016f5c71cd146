(** Functions of Go's package strings used by the loaders and filters (library semantics, not code of
    /repo). *)
From Verif Require Export M_Utf8.
Set Implicit Arguments. Unset Strict Implicit.

(** strings.Index: first occurrence. *)
Fixpoint index (sep s : bytes) : option nat :=
  if is_prefix sep s then Some 0
  else match s with [] => None | _ :: s' => option_map S (index sep s') end.

(** strings.Contains *)
Definition contains (s sub : bytes) : bool := match index sub s with Some _ => true | None => false end.

(** strings.Split for a non-empty separator (gse never passes an empty one). *)
Fixpoint split_fuel (fuel : nat) (sep s : bytes) : list bytes :=
  match fuel with
  | O => [s]
  | S f => match index sep s with
           | None => [s]
           | Some i => firstn i s :: split_fuel f sep (skipn (i + length sep) s)
           end
  end.
Definition split_str (s sep : bytes) : list bytes := split_fuel (length s) sep s.

Fixpoint drop_while {A} (p : A -> bool) (l : list A) : list A :=
  match l with [] => [] | a :: t => if p a then drop_while p t else l end.

(** Cut off leading and trailing elements. *)
Definition trim_by {A} (p : A -> bool) (l : list A) : list A := rev (drop_while p (rev (drop_while p l))).

(** strings.TrimSpace. Go scans forwards with DecodeRune and backwards with DecodeLastRune; both see the
    same units. *)
Definition trim_space (E : env) (s : bytes) : bytes :=
  concat (map snd (trim_by (fun u => is_space E (fst u)) (units s))).

(** strings.Trim(s, "\n") *)
Definition trim_nl (s : bytes) : bytes := trim_by (fun b => Byte.eqb b x0a) s.
