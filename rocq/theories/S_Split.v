(** Specification of word splitting, independent of the loop. *)
From Verif Require Export M_Split.
Local Open Scope lit_scope.

(** A unit (rune with its bytes) counts as alphanumeric if it has at most 2 bytes and is a letter or number
    not excluded by the options. *)
Definition alnum_unit (E : env) (c : cfg) (u : rune * bytes) : bool :=
  (length (snd u) <=? 2) &&
  ((is_letter E (fst u) && negb (c_alpha c)) || (is_number E (fst u) && negb (c_num c))).

(** Lower case of the 26 Latin capital letters. *)
Definition small (b : byte) : byte :=
  match find (fun p => Byte.eqb (fst p) b) (combine (str "ABCDEFGHIJKLMNOPQRSTUVWXYZ") (str "abcdefghijklmnopqrstuvwxyz")) with
  | Some p => snd p
  | None => b
  end.
(** What splitting does to the bytes of one unit: alphanumeric units are lower-cased. *)
Definition norm_unit (E : env) (c : cfg) (u : rune * bytes) : bytes :=
  if alnum_unit E c u && c_lower c then map small (snd u) else snd u.

(** The splitter's normalisation of a text: same bytes, letters of alphanumeric units lower-cased. *)
Definition norm (E : env) (c : cfg) (s : bytes) : bytes := concat (map (norm_unit E c) (units s)).

(** A group of units forming one word. *)
Inductive word_group (E : env) (c : cfg) : list (rune * bytes) -> bool -> Prop :=
| wg_other : forall u, alnum_unit E c u = false -> word_group E c [u] false
| wg_single : forall u, c_alphanum c = true -> alnum_unit E c u = true -> word_group E c [u] true
| wg_run : forall us, c_alphanum c = false -> us <> [] -> Forall (fun u => alnum_unit E c u = true) us ->
           word_group E c us true.

(** Groups tile the units; with AlphaNum off no two alphanumeric groups are adjacent (runs are maximal). *)
Inductive groups (E : env) (c : cfg) : list (list (rune * bytes)) -> bool -> Prop :=
| gs_nil : groups E c [] false
| gs_cons : forall g a gs b, word_group E c g a -> groups E c gs b ->
            (c_alphanum c = false -> a = true -> b = true -> False) ->
            groups E c (g :: gs) a.

(** [ws] is the list of words of [s]. *)
Definition is_split (E : env) (c : cfg) (s : bytes) (ws : list bytes) : Prop :=
  exists gs a, groups E c gs a /\ concat gs = units s /\
             ws = map (fun g => concat (map (norm_unit E c) g)) gs.
