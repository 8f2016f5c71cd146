(** Specification of the DAG cutters. *)
From Verif Require Export M_Dag S_Hmm S_Seg P_Laws64.
Set Implicit Arguments. Unset Strict Implicit.

Section Spec.
  Variable E : env.
  Variable d : dict E.

  (** [w] is a dictionary word with frequency [f]. *)
  Definition stored (w : bytes) (f : f64 E) : Prop :=
    exists v t, dict_value d w = Some v /\ nth_error (d_tokens d) v = Some t /\ t_freq t = f.
  (** [w] is a dictionary word of positive frequency. *)
  Definition pos_word (w : bytes) : Prop := exists f, stored w f /\ ltb64 E (lit64 E 0 0) f = true.

  (** The characters [rs] cut into [ps]: each piece is a dictionary word of positive frequency, or one character at a place
      where no such word begins. *)
  Inductive tiles : list rune -> list (list rune) -> Prop :=
  | tiles_nil : tiles [] []
  | tiles_word : forall p rest ps, p <> [] -> pos_word (string_of_runes p) -> tiles rest ps -> tiles (p ++ rest) (p :: ps)
  | tiles_char : forall a rest ps, (forall q t, a :: rest = q ++ t -> q <> [] -> ~ pos_word (string_of_runes q)) ->
      tiles rest ps -> tiles (a :: rest) ([a] :: ps).

  (** The logarithm of the frequency over the total, given the logarithm [T] of the total; what Find does not know counts as frequency 1. *)
  Definition edge (T : f64 E) (w : bytes) : f64 E :=
    sub64 E (match dict_find d w with
             | Ok (f, _, true) => m_log E f
             | _ => m_log E (lit64 E 1 0)
             end) T.
  (** The weight of a way to cut, added from the right. *)
  Definition weight (T : f64 E) (ps : list (list rune)) : f64 E :=
    fold_right (fun p acc => add64 E (edge T (string_of_runes p)) acc) (lit64 E 0 0) ps.

  (** What the words of a run of single characters are. *)
  Definition group_words (em : emits E) (reg : list matcher) (g : bool * list (list rune)) (ws : list bytes) : Prop :=
    let t := string_of_runes (concat (snd g)) in
    if fst g && (2 <=? length (snd g))
    then match dict_find d t with
         | Ok (v, _, true) => if eqb64 E v (lit64 E 0 0) then hmm_cut em t reg = Ok ws else ws = map string_of_runes (snd g)
         | _ => hmm_cut em t reg = Ok ws
         end
    else ws = [t].
End Spec.

(** Maximal runs of elements satisfying [p]; every other element is a group of its own. *)
Fixpoint runs {A} (p : A -> bool) (l : list A) : list (bool * list A) :=
  match l with
  | [] => []
  | a :: t => if p a
              then match runs p t with
                   | (true, r) :: g => (true, a :: r) :: g
                   | g => (true, [a]) :: g
                   end
              else (false, [a]) :: runs p t
  end.

Definition single (p : list rune) : bool := length p =? 1.
(** One ASCII letter or digit. *)
Definition eng (p : list rune) : bool := match p with [r] => ascii_alnum r | _ => false end.

(** The substrings of length n, from left to right. *)
Fixpoint windows {A} (n : nat) (l : list A) : list (list A) :=
  match l with
  | [] => []
  | _ :: t => if n <=? length l then firstn n l :: windows n t else []
  end.

(** [l'] is [l] without the elements that fail [P]. *)
Inductive kept_of {A} (P : A -> Prop) : list A -> list A -> Prop :=
| ko_nil : kept_of P [] []
| ko_keep : forall a l l', P a -> kept_of P l l' -> kept_of P (a :: l) (a :: l')
| ko_drop : forall a l l', ~ P a -> kept_of P l l' -> kept_of P (a :: l) l'.

Section Spec2.
  Variable E : env.
  Variable d : dict E.

  (** [f] is the frequency Find reports for a non-empty [w], or [dflt] where it reports none: the stored frequency; 0 for
      the beginning of a dictionary word that is not itself a word. *)
  Definition reported (dflt : f64 E) (w : bytes) (f : f64 E) : Prop :=
    stored d w f \/
    ((forall g, ~ stored d w g) /\ (exists x g, stored d (w ++ x) g) /\ f = lit64 E 0 0) \/
    ((forall x g, ~ stored d (w ++ x) g) /\ f = dflt).

  (** *** SuggestFreq: starting from [a], multiply by the frequency reported for each word, if any, and divide by the total. *)
  Inductive product (total : f64 E) : f64 E -> list bytes -> f64 E -> Prop :=
  | pr_nil : forall a, product total a [] a
  | pr_known : forall a w f ws r, stored d w f \/ ((forall g, ~ stored d w g) /\ (exists x g, stored d (w ++ x) g) /\ f = lit64 E 0 0) ->
      product total (div64 E (mul64 E a f) total) ws r -> product total a (w :: ws) r
  | pr_unknown : forall a w ws r, (forall x g, ~ stored d (w ++ x) g) ->
      product total (div64 E a total) ws r -> product total a (w :: ws) r.

  (** *** CutAll: intervals (first, last) of characters *)
  Definition lexlt (p q : nat * nat) : Prop := fst p < fst q \/ (fst p = fst q /\ snd p < snd q).
  (** One past the end of the last of the intervals that begin before [k]. *)
  Definition last_end (e k : nat) (I : list (nat * nat)) : nat := fold_left (fun e p => if fst p <? k then S (snd p) else e) I e.
  Definition part (rs : list rune) (p : nat * nat) : bytes := string_of_runes (slice rs (fst p) (S (snd p))).
  (** A dictionary word of at least two characters, of positive frequency, occupies the characters k..j. *)
  Definition long_word (rs : list rune) (k j : nat) : Prop := k < j < length rs /\ pos_word d (part rs (k, j)).

  (** *** CutSearch: the words put before the word [w] *)
  Definition proper_windows (n : nat) (w : bytes) : list bytes :=
    if n <? length (runes_of w) then map string_of_runes (windows n (runes_of w)) else [].
  Definition search_words (w : bytes) (ws : list bytes) : Prop :=
    exists g2 g3, ws = g2 ++ g3 ++ [w] /\ kept_of (pos_word d) (proper_windows 2 w) g2 /\ kept_of (pos_word d) (proper_windows 3 w) g3.
End Spec2.

(** [ps] has the largest weight, and where another has the same its first piece is not longer. *)
Definition best_cut (E : env) (d : dict E) (T : f64 E) (rs : list rune) (ps : list (list rune)) : Prop :=
  tiles d rs ps /\ forall qs, tiles d rs qs -> le64 (weight d T qs) (weight d T ps) /\
    (eqb64 E (weight d T qs) (weight d T ps) = true -> forall q t p u, qs = q :: t -> ps = p :: u -> length q <= length p).


(** The weight when every character that is not a word counts as frequency 1. *)
Definition plain_edge (E : env) (d : dict E) (w : bytes) : f64 E :=
  sub64 E (match dict_value d w with
           | Some v => match nth_error (d_tokens d) v with Some t => m_log E (t_freq t) | None => m_log E (lit64 E 1 0) end
           | None => m_log E (lit64 E 1 0)
           end) (m_log E (d_total d)).
Definition plain_weight (E : env) (d : dict E) (ps : list (list rune)) : f64 E :=
  fold_right (fun p acc => add64 E (plain_edge d (string_of_runes p)) acc) (lit64 E 0 0) ps.
