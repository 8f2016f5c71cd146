(** Known and unknown characters of an emission table. *)
From Verif Require Export S_Hmm S_Emit P_Laws64.

(** The table has logarithms of probabilities between -64 and 0. *)
Definition probs_ok {E : env} (em : emits E) : Prop := forall y o v, em y o = Some v -> le64 (lit64 E (-64) 0) v /\ le64 v (lit64 E 0 0).
(** A word can begin at the first character. *)
Definition starts (q : list hst) : Prop := match q with HB :: _ | HS :: _ => True | _ => False end.
(** The table has an emission for every state and character of the path. *)
Definition known_along {E : env} (em : emits E) (obs : list rune) (q : list hst) : Prop := Forall2 (fun o y => em y o <> None) obs q.

(** The source has an emission of [o] in state [y]. *)
Definition has_emission (y : hst) (o : rune) : Prop := exists n, listed (hmm_rows y) o n.
(** The exact log-probability of a state path with the constants of the source: n * 10^-17, and k emissions are missing. *)
Inductive exact_steps : hst -> list rune -> list hst -> Z -> nat -> Prop :=
| ex_nil : forall y, exact_steps y [] [] 0 0
| ex_known : forall y0 y o os ys e t n k, listed (hmm_rows y) o e -> dec_trans y0 y = Some t -> exact_steps y os ys n k ->
    exact_steps y0 (o :: os) (y :: ys) (n + t - e) k
| ex_missing : forall y0 y o os ys t n k, ~ has_emission y o -> dec_trans y0 y = Some t -> exact_steps y os ys n k ->
    exact_steps y0 (o :: os) (y :: ys) (n + t) (S k).
Definition exact_prob (obs : list rune) (path : list hst) (n : Z) (k : nat) : Prop :=
  match obs, path with
  | o :: os, y :: ys => exists s e m, dec_start y = Some s /\ listed (hmm_rows y) o e /\ exact_steps y os ys m k /\ n = (m + s - e)%Z
  | _, _ => False
  end.
