(** Specification of HMM state paths and of the text preservation of HMM cuts. *)
From Verif Require Export M_Hmm S_Utf8.
Set Implicit Arguments. Unset Strict Implicit.

(** Allowed transitions. *)
Definition legal (a b : hst) : Prop :=
  match a, b with
  | HB, HM | HB, HE | HM, HM | HM, HE | HE, HB | HE, HS | HS, HB | HS, HS => True
  | _, _ => False
  end.
Fixpoint legal_path (p : list hst) : Prop :=
  match p with
  | a :: ((b :: _) as t) => legal a b /\ legal_path t
  | _ => True
  end.
Definition last_state (p : list hst) : option hst := nth_error p (length p - 1).

Section Prob.
  Variable E : env.

  Definition dflt (o : option (f64 E)) : f64 E := match o with Some v => v | None => lit64 E (-8081665415464805) 281 end.

  (** The left-to-right float64 sum of a state path over the observations. *)
  Fixpoint path_steps (em : emits E) (acc : f64 E) (y0 : hst) (obs : list rune) (path : list hst) : f64 E :=
    match obs, path with
    | o :: os, y :: ys =>
      path_steps em (add64 E (add64 E acc (dflt (prob_trans E y0 y))) (dflt (em y o))) y os ys
    | _, _ => acc
    end.
  Definition path_prob (em : emits E) (obs : list rune) (path : list hst) : f64 E :=
    match obs, path with
    | o :: os, y :: ys => path_steps em (add64 E (dflt (em y o)) (prob_start E y)) y os ys
    | _, _ => lit64 E 0 0
    end.
End Prob.

(** The constants of the source, in units of 10^-17, and -3.14e100. *)
Definition dec_start (y : hst) : option Z :=
  match y with HB => Some (-26268660809250016)%Z | HS => Some (-146526333985376780)%Z | HE | HM => None end.
Definition dec_trans (y0 y : hst) : option Z :=
  match y0, y with
  | HB, HE => Some (-51082562376599000)%Z | HB, HM => Some (-91629073187415500)%Z
  | HE, HB => Some (-58971497368545130)%Z | HE, HS => Some (-80852504746699370)%Z
  | HM, HE => Some (-33344856811948514)%Z | HM, HM => Some (-126036238202682260)%Z
  | HS, HB => Some (-72119656546698410)%Z | HS, HS => Some (-66586314487982120)%Z
  | _, _ => None
  end.
(** m * 2^e is the float64 nearest to n * 10^-17. *)
Definition nearest (n m e : Z) : Prop :=
  (e < 0 /\ exists j, 0 <= j /\ 2 ^ 52 <= Z.abs m * 2 ^ j < 2 ^ 53 /\ 2 * 2 ^ j * Z.abs (m * 10 ^ 17 - n * 2 ^ (- e)) <= 10 ^ 17)%Z.
(** FindStringIndex returns an interval of the text. *)
Definition wf_matcher (f : matcher) : Prop := forall s a b, f s = Some (a, b) -> a <= b <= length s.
(** The expression never matches the empty string. *)
Definition nonempty_matcher (f : matcher) : Prop := forall s a b, f s = Some (a, b) -> a < b.
(** Matches in valid UTF-8 begin and end between runes. *)
Definition rune_matcher (f : matcher) : Prop := forall s a b, valid s -> f s = Some (a, b) ->
  valid (firstn a s) /\ valid (slice s a b) /\ valid (skipn b s).

(** [out] are words for the text [s], some parts of which were converted to runes and back. *)
Definition reencode (s : bytes) : bytes := string_of_runes (runes_of s).
Definition preserved (s : bytes) (out : list bytes) : Prop :=
  exists parts : list (bool * bytes),
    s = concat (map snd parts) /\
    concat out = concat (map (fun p : bool * bytes => if fst p then reencode (snd p) else snd p) parts).

(** Group the runes into words: a word ends at each E or S. *)
Fixpoint cut_after {A} (path : list hst) (l : list A) (cur : list A) : list (list A) :=
  match path, l with
  | y :: ys, a :: t => match y with
                       | HE | HS => (cur ++ [a]) :: cut_after ys t []
                       | _ => cut_after ys t (cur ++ [a])
                       end
  | _, _ => match cur with [] => [] | _ => [cur] end
  end.

(** The table set by a call, if it sets one. *)
Definition sets_model {E} (def : emits E) (o : hop E) : option (emits E) :=
  match o with
  | HLoad _ (b :: e :: m :: s :: _) | HCutMod _ _ (b :: e :: m :: s :: _) =>
    Some (fun y => match y with HB => b | HE => e | HM => m | HS => s end)
  | HLoad _ _ | HCutMod _ _ _ | HInit _ false => Some def
  | HInit _ true | HCut _ _ _ => None
  end.
