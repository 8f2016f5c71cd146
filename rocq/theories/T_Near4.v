(** C106: the state path of the part-of-speech tagger against exact sums. *)
From Verif Require Import M_Env Ieee S_Near4 M_Emit P_Emit P_PosTab P_MissPos P_Near5 T_Pos T_Emit T_Miss T_MissPos Demo.
From Coq Require Import Reals Lra.
Local Open Scope lit_scope.

(** If a candidate path with a possible start and all its emissions has the exact sum r (negative), the chosen path is such a path too and its
    exact sum is at least r * (1 + n/2^50), n being the number of characters. *)
Theorem C106_nearly_most_probable : forall (E : env) (H : ar E = ieee) em od obs q r, tag_probs_ok em -> orders_ok od -> (INR (length obs) <= 2 ^ 48)%R ->
  tag_sum H (builtin em) (rev obs) (rev q) r ->
  exists path r0, pos_viterbi (builtin em) od obs = Ok path /\ tag_sum H (builtin em) (rev obs) (rev path) r0 /\ (r * (1 + INR (length obs) / 2 ^ 50) <= r0)%R.
Proof. intros E H em od obs q r Hem. exact (@c106 E H em Hem od obs q r). Qed.
Print Assumptions C106_nearly_most_probable.
(** The built-in table satisfies the hypothesis. *)
Theorem C106_builtin : forall (E : env) (H : ar E = ieee) od obs q r, orders_ok od -> (INR (length obs) <= 2 ^ 48)%R ->
  tag_sum H (builtin (pos_def_emit E)) (rev obs) (rev q) r ->
  exists path r0, pos_viterbi (builtin (pos_def_emit E)) od obs = Ok path /\ tag_sum H (builtin (pos_def_emit E)) (rev obs) (rev path) r0 /\
    (r * (1 + INR (length obs) / 2 ^ 50) <= r0)%R.
Proof. intros E H od obs q r. exact (@c106 E H _ (tag_def_probs H) od obs q r). Qed.
Print Assumptions C106_builtin.

(** 纽约 as the name of a person, [129; 229], against the chosen [130; 230]. *)
Example C106_ex : exists r r0, tag_sum (E := demo) eq_refl dtab [32422; 32445]%Z [229; 129]%Z r /\ pos_viterbi dtab id_orders [32445; 32422]%Z = Ok [130; 230]%Z /\
  tag_sum (E := demo) eq_refl dtab [32422; 32445]%Z [230; 130]%Z r0 /\ (r * (1 + 2 / 2 ^ 50) <= r0)%R.
Proof.
  destruct C101_ex as (Er & (v & V) & C & P & _). apply (clean_iff (E := demo) (pos_def_emit demo) [32445; 32422]%Z) in C; [|discriminate].
  destruct (@P_Near5.path_sum demo eq_refl (pos_def_emit demo) (tag_def_probs (E := demo) eq_refl) _ _ _ V C) as (r & S & _). exists r.
  destruct (C106_builtin demo eq_refl id_orders [32445; 32422]%Z [129; 229]%Z r id_orders_ok ltac:(cbn [length INR]; lra) S) as (path & r0 & H1 & H2 & H3).
  assert (Eo : runes_of (str "纽约") = [32445; 32422]%Z) by (vm_compute; reflexivity). rewrite Eo in P. fold dtab in H1, H2. rewrite P in H1. assert (path = [130; 230]%Z) as -> by congruence.
  exists r0. split; [exact S|]. split; [exact P|]. split; [exact H2|exact H3].
Qed.
