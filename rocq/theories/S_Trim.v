(** Specification of stop words and filters. *)
From Verif Require Export M_Trim S_Load S_Split S_Hmm.
Set Implicit Arguments. Unset Strict Implicit.

Section Stop.
  Variable E : env.
  (** [w] is one of the non-empty trimmed lines of [dict]. *)
  Definition stop_line (dict w : bytes) : Prop := w <> [] /\ exists lines l, fields [x0a] dict lines /\ In l lines /\ trimmed E l w.
  Definition adds (o : sop) (w : bytes) : Prop :=
    match o with SArr ws => In w ws | SStr dict => stop_line dict w | SAdd v => v = w | _ => False end.
  Definition removes (o : sop) (w : bytes) : Prop := match o with SRemove v => v = w | SEmpty => True | _ => False end.
  (** Some LoadStopArr, AddStopArr or LoadStopStr was not followed by EmptyStop. *)
  Definition has_map (os : list sop) : Prop :=
    exists os1 o os2, os = os1 ++ o :: os2 /\ match o with SArr _ | SStr _ => True | _ => False end /\ ~ In SEmpty os2.
End Stop.

Section Filters.
  Variable E : env.
  (** Neither symbol, nor white space, nor punctuation. *)
  Definition wordy (r : rune) : bool := negb (is_symbol E r || is_space E r || is_punct E r).
  Definition symbol_free (s : bytes) : bytes := concat (map enc (filter wordy (runes_of s))).
  (** Neither white space nor punctuation. *)
  Definition solid (r : rune) : Prop := is_space E r = false /\ is_punct E r = false.
  (** [out] are the elements of [l] with property [P], in order. *)
  Inductive selects (A : Type) (P : A -> Prop) : list A -> list A -> Prop :=
  | sel_nil : selects P [] []
  | sel_keep : forall a l out, P a -> selects P l out -> selects P (a :: l) (a :: out)
  | sel_drop : forall a l out, ~ P a -> selects P l out -> selects P (a :: l) out.
End Filters.

(** A tag: "<", then characters other than ">" the last of which is a letter, a digit or one of underscore, bar, equals sign and
    double quote (bytes 5f 7c 3d 22),
    then ">". *)
Definition tag (t : bytes) : Prop :=
  exists inner c, t = [x3c] ++ inner ++ [c; x3e] /\ ~ In x3e (inner ++ [c]) /\
    (ascii_alnum (bz c) = true \/ In c [x5f; x7c; x3d; x22]).
(** No tag starts in the first [n] bytes of [s]. *)
Definition no_tag_before (n : nat) (s : bytes) : Prop := forall a t b, s = a ++ t ++ b -> length a < n -> ~ tag t.
(** Deleting the leftmost tags of [s], one after the other, gives [out]. *)
Inductive untagged : bytes -> bytes -> Prop :=
| ut_end : forall s, no_tag_before (length s) s -> untagged s s
| ut_tag : forall a t s out, tag t -> no_tag_before (length a) (a ++ t ++ s) -> untagged s out -> untagged (a ++ t ++ s) (a ++ out).

(** Runs: not empty, digits and non-digits in turn. *)
Definition digits_only (w : bytes) : Prop := w <> [] /\ Forall (fun b => ascii_digit (bz b) = true) w.
Definition digit_free (w : bytes) : Prop := w <> [] /\ Forall (fun b => ascii_digit (bz b) = false) w.
Fixpoint alternate (digit : bool) (l : list bytes) : Prop :=
  match l with [] => True | w :: t => (if digit then digits_only w else digit_free w) /\ alternate (negb digit) t end.

(** The elements with [sep] between them. *)
Inductive joined (sep : bytes) : list bytes -> bytes -> Prop :=
| j_nil : joined sep [] []
| j_one : forall a, joined sep [a] a
| j_cons : forall a b l s, joined sep (b :: l) s -> joined sep (a :: b :: l) (a ++ sep ++ s).

(** *** Stop word files *)
(** The text of a line of a file: one final CR is dropped. *)
Definition chomped (l w : bytes) : Prop := l = w ++ [x0d] \/ (l = w /\ forall a, l <> a ++ [x0d]).
(** [w] is a line of [data], and neither that line nor an earlier one is longer than 65535 bytes. *)
Definition file_word (data w : bytes) : Prop :=
  w <> [] /\ exists before l after, fields [x0a] data (before ++ l :: after) /\ chomped l w /\
    Forall (fun x => (Z.of_nat (length x) < 65536)%Z) (before ++ [l]).
(** The files LoadStop opens: the default one without argument; else the names in the first argument,
    separated by a comma and a space, a first name zh standing for the Chinese file. *)
Definition stop_paths (files : list bytes) (ps : list spath) : Prop :=
  match files with
  | [] => ps = [SDefault]
  | f :: _ => exists n ns, fields [x2c; x20] f (n :: ns) /\ ps = (if beqb n [x7a; x68] then SZh else SUser n) :: map SUser ns
  end.

(** The text the words of Cut make up. *)
Definition cut_text (E : env) (c : cfg) (hmm : option bool) (s : bytes) : bytes :=
  match hmm with
  | None => norm E c s
  | Some _ => if c_lower c then to_lower_str E s else reencode s
  end.
