(** Specification of package pos. *)
From Verif Require Export M_Pos S_Dag.
From Coq Require Export Permutation.
Set Implicit Arguments. Unset Strict Implicit.
Local Open Scope lit_scope.

(** Ordered, disjoint intervals of positions between [b] and [n]. *)
Fixpoint ordered (n b : nat) (ms : list (nat * nat)) : Prop :=
  match ms with
  | [] => True
  | (m0, m1) :: t => b <= m0 <= m1 /\ m1 <= n /\ ordered n m1 t
  end.

Section Spec.
  Variable E : env.
  Variable tb : ptab E.

  (** The states a character can have. *)
  Definition allowed (o : rune) (y : Z) : Prop := match p_char tb o with Some l => In y l | None => In y (p_keys tb) end.
  Definition trans (x y : Z) (v : f64 E) : Prop := In (y, v) (p_trans tb x).
  (** The states considered after the characters [os], given last to first: those the last character can have and a
      transition leads to; if there is none, those a transition leads to. *)
  Fixpoint state_set (os : list rune) (y : Z) : Prop :=
    match os with
    | [] => False
    | [o] => allowed o y
    | o :: os' =>
      (exists x v, state_set os' x /\ trans x y v) /\
      (allowed o y \/ forall z x v, allowed o z -> state_set os' x -> ~ trans x z v)
    end.
  Definition emission (y : Z) (o : rune) : f64 E := match p_emit tb y o with Some v => v | None => min_float E end.
  (** A path of such states along transitions, and its log-probability; everything last to first. *)
  Inductive vpath : list rune -> list Z -> f64 E -> Prop :=
  | vp_one : forall o y, state_set [o] y -> vpath [o] [y] (add64 E (emission y o) (p_start tb y))
  | vp_cons : forall o y os x p w v, vpath os (x :: p) w -> state_set (o :: os) y -> trans x y v ->
      vpath (o :: os) (y :: x :: p) (add64 E (add64 E w v) (emission y o)).

  (** Every order in which a Go map can be walked. *)
  Definition orders_ok (od : orders) : Prop :=
    (forall l, Permutation l (o_keys od l)) /\ (forall t l, Permutation l (o_prev od t l)) /\
    (forall t l, Permutation l (o_next od t l)) /\ (forall l, Permutation l (o_last od l)).

  (** Numbers are logarithms of probabilities. *)
  Definition neg64 (x : f64 E) : Prop := le64 x (lit64 E 0 0).
  Definition log_tables : Prop :=
    (forall y, neg64 (p_start tb y)) /\ (forall y o v, p_emit tb y o = Some v -> neg64 v) /\ (forall x y v, trans x y v -> neg64 v).
End Spec.

(** The emission table: numbers between -3.14e100 and 0. *)
Definition emit_ok (E : env) (em : Z -> rune -> option (f64 E)) : Prop :=
  forall y o v, em y o = Some v -> le64 (min_float E) v /\ le64 v (lit64 E 0 0).

(** Position and part of speech of a state. *)
Definition state_hst (t : Z) : hst := if (t <? 200)%Z then HB else if (t <? 300)%Z then HE else if (t <? 400)%Z then HM else HS.
Definition state_pos (t : Z) : bytes := nth (Z.to_nat (t mod 100)) poss [].
(** Consecutive states: legal positions, and the same part of speech within a word. *)
Definition next_state (x y : Z) : Prop :=
  legal (state_hst x) (state_hst y) /\ (state_hst y = HE \/ state_hst y = HM -> state_pos x = state_pos y).
Fixpoint linked (R : Z -> Z -> Prop) (p : list Z) : Prop :=
  match p with
  | x :: ((y :: _) as t) => R x y /\ linked R t
  | _ => True
  end.

(** The words of a state path, each with the part of speech of its first character. *)
Definition path_words (rs : list rune) (path : list Z) : list (bytes * bytes) :=
  map (fun w : list (rune * Z) => (string_of_runes (map fst w), state_pos (hd 0%Z (map snd w))))
      (cut_after (map state_hst path) (combine rs path) []).

Section Spec2.
  Variable E : env.
  Variable d : dict E.

  (** The part of speech package pos gives a word: that of the dictionary, except for the token at index 0; else "x". *)
  Definition word_pos (w : bytes) : bytes :=
    match dict_value d w with
    | Some (S v) => match nth_error (d_tokens d) (S v) with Some t => t_pos t | None => str "x" end
    | _ => str "x"
    end.
  (** Without HMM: runs of single ASCII letters and digits are tagged "eng". *)
  Definition plain_group (g : bool * list (list rune)) : bytes * bytes :=
    let t := string_of_runes (concat (snd g)) in (t, if fst g then str "eng" else word_pos t).
End Spec2.

Section Spec3.
  Variable E : env.
  Variable d : dict E.
  Variable tb : ptab E.

  (** With HMM: what becomes of a run of single characters, or of a word. *)
  Definition hmm_group (g : bool * list (list rune)) (ws : list (bytes * bytes)) : Prop :=
    let t := string_of_runes (concat (snd g)) in
    let tagger := exists od, (forall i, orders_ok (od i)) /\ cut_detail tb od t = Ok ws in
    if fst g && (2 <=? length (snd g))
    then match dict_find d t with
         | Ok (v, _, true) => if eqb64 E v (lit64 E 0 0) then tagger else ws = map (fun p => (string_of_runes p, word_pos d (string_of_runes p))) (snd g)
         | _ => tagger
         end
    else ws = [(t, word_pos d t)].
End Spec3.

(** Maximal runs of elements that agree on [p]. *)
Fixpoint groups {A} (p : A -> bool) (l : list A) : list (bool * list A) :=
  match l with
  | [] => []
  | a :: t => match groups p t with
              | (b, r) :: g => if Bool.eqb (p a) b then (b, a :: r) :: g else (p a, [a]) :: (b, r) :: g
              | [] => [(p a, [a])]
              end
  end.
(** The characters of the runs that are looked up: Han characters and these. *)
Definition block_char (E : env) (r : rune) : bool :=
  is_han E r || existsb (Z.eqb r) (map bz (str "0123456789ABCDEFGHIJKLMNOPQRSTUVWXYZabcdefghijklmnopqrstuvwxyz+#&._")).
(** Single characters, except that CR LF stays together. *)
Fixpoint seps (rs : list rune) : list bytes :=
  match rs with
  | [] => []
  | a :: t => match t with
              | b :: t' => if ((a =? 13) && (b =? 10))%Z then string_of_runes [a; b] :: seps t' else string_of_rune a :: seps t
              | [] => [string_of_rune a]
              end
  end.

Section Spec4.
  Variable E : env.
  Variable d : dict E.
  Variable tb : ptab E.

  (** What Cut makes of a run of characters. *)
  Definition plain_block (g : bool * list rune) (ws : list (bytes * bytes)) : Prop :=
    if fst g then exists ps, best_cut d (lit64 E 0 0) (snd g) ps /\ ws = map (plain_group d) (runs eng ps)
    else ws = map (fun w => (w, str "x")) (seps (snd g)).
  Definition hmm_block (g : bool * list rune) (ws : list (bytes * bytes)) : Prop :=
    if fst g then exists ps wss, best_cut d (lit64 E 0 0) (snd g) ps /\ ws = concat wss /\ Forall2 (hmm_group d tb) (runs single ps) wss
    else ws = map (fun w => (w, str "x")) (seps (snd g)).
  (** The weights of all ways to cut the rest of a run are numbers. *)
  Definition comparable (rs : list rune) : Prop :=
    forall g k qs, In g (groups (block_char E) rs) -> tiles d (skipn k (snd g)) qs -> num64 (weight d (lit64 E 0 0) qs).
End Spec4.

(** *** What the tagger makes of other characters *)
Definition of_chars (l : bytes) (b : byte) : bool := existsb (Byte.eqb b) l.
Definition num_char : byte -> bool := of_chars (str ".[0123456789").
Definition starts_with (p : byte -> bool) (s : bytes) : bool := match s with b :: _ => p b | [] => false end.
(** A separate piece begins here: a run of digits, dots and opening brackets, or one of the letters of :alnum before a closing bracket. *)
Definition opens (s : bytes) : bool :=
  starts_with num_char s || (starts_with (of_chars (str ":alnum")) s && starts_with (of_chars (str "]")) (tl s)).
Inductive skip_pieces : bytes -> list bytes -> Prop :=
| sp_nil : skip_pieces [] []
| sp_num : forall l t ps, l <> [] -> forallb num_char l = true -> starts_with num_char t = false -> skip_pieces t ps -> skip_pieces (l ++ t) (l :: ps)
| sp_class : forall b l t ps, of_chars (str ":alnum") b = true -> l <> [] -> forallb (of_chars (str "]")) l = true ->
    starts_with (of_chars (str "]")) t = false -> skip_pieces t ps -> skip_pieces (b :: l ++ t) ((b :: l) :: ps)
| sp_gap : forall g t ps, g <> [] -> (forall i, i < length g -> opens (skipn i (g ++ t)) = false) -> (t = [] \/ opens t = true) ->
    skip_pieces t ps -> skip_pieces (g ++ t) (g :: ps).
(** With a digit or a dot a number, else with a letter English. *)
Definition content_tag (p : bytes) : bytes :=
  if existsb (of_chars (str ".0123456789")) p then str "m"
  else if existsb (of_chars (str "ABCDEFGHIJKLMNOPQRSTUVWXYZabcdefghijklmnopqrstuvwxyz")) p then str "eng" else str "x".

Section Spec5.
  Variable E : env.
  Variable tb : ptab E.
  Definition tagger_block (g : bool * list rune) (ws : list (bytes * bytes)) : Prop :=
    if fst g then exists path od, orders_ok od /\ pos_viterbi tb od (snd g) = Ok path /\ ws = path_words (snd g) path
    else exists ps, skip_pieces (string_of_runes (snd g)) ps /\ ws = map (fun p => (p, content_tag p)) ps.
End Spec5.
