(** Missing emissions with the built-in table, and the words of the cut. *)
From Verif Require Import M_Env Ieee S_Hmm P_Hmm P_Laws64 P_MissR P_Miss S_Miss P_Emit M_Emit.
From Coq Require Import Reals Lra Lia.
Set Implicit Arguments. Unset Strict Implicit.

Lemma def_probs : forall (E : env), ar E = ieee -> probs_ok (def_emit E).
Proof.
  intros E HE y r v H. assert (P : prob HE v); [|exact (proj1 (prob_le (proj1 P)) P)].
  revert H. unfold def_emit, emit_lit. destruct (emit_find (hmm_table y) r) as [n|] eqn:Ef; [|discriminate]. intro H. injection H as <-. apply emit_find_ok in Ef. destruct (const_val Ef) as (V1 & V2).
  assert (G : forall A (H : A = ieee), prob H (lit64 A (fst (const_float n)) (snd (const_float n)))); [|apply G].
  intros A H. subst A. unfold prob, fn, vl, cast. cbn [lit64 ieee]. split; [exact V1|lra].
Qed.
Lemma def_known : forall (E : env) y o, def_emit E y o <> None <-> has_emission y o.
Proof.
  intros E y o. destruct (c98_hmm E y o) as [H1 H2]. split.
  - intro H. destruct (emit_find (hmm_table y) o) as [n|] eqn:Ef.
    + destruct (hmm_table_ok y) as [T1 T2]. exists n. apply (proj1 (find_listed T1 T2)). exact Ef.
    + exfalso. apply H. unfold def_emit. rewrite Ef. reflexivity.
  - intros (n & Hn). destruct (H1 n Hn) as (_ & _ & m & e & -> & _). discriminate.
Qed.
Lemma def_unknown : forall (E : env) o, (forall y, ~ has_emission y o) -> unknown (def_emit E) o.
Proof. intros E o H y. destruct (def_emit E y o) eqn:Ed; [|reflexivity]. exfalso. apply (H y). apply (def_known E). congruence. Qed.

Lemma f2_length : forall A B (R : A -> B -> Prop) l m, Forall2 R l m -> length l = length m.
Proof. intros A B R l m H. induction H; cbn [length]; congruence. Qed.

(** *** Words *)
Definition closed (p : list hst) : Prop := p = [] \/ last_state p = Some HE \/ last_state p = Some HS.
Lemma cut_app : forall A (pa pb : list hst) (a b cur : list A), length pa = length a -> (pa = [] -> cur = []) -> closed pa ->
  cut_after (pa ++ pb) (a ++ b) cur = cut_after pa a cur ++ cut_after pb b [].
Proof.
  intros A. induction pa as [|y pa IH]; intros pb [|x a] b cur Hl Hc Hp; try discriminate.
  - rewrite (Hc eq_refl). reflexivity.
  - cbn [app cut_after]. assert (Hp' : closed pa \/ pa = []). { destruct pa as [|z pa]; [auto|]. left. destruct Hp as [Hp|Hp]; [discriminate|]. right. unfold last_state in *. cbn [length] in *.
      replace (S (S (length pa)) - 1)%nat with (S (S (length pa) - 1)) in Hp by lia. exact Hp. }
    assert (Hl' : length pa = length a) by (cbn [length] in Hl; lia).
    assert (Hq : closed pa) by (destruct Hp' as [H|H]; [exact H|left; exact H]).
    destruct y; cbn [app]; rewrite IH; auto.
    + intros ->. exfalso. destruct Hp as [Hp|[Hp|Hp]]; discriminate.
    + intros ->. exfalso. destruct Hp as [Hp|[Hp|Hp]]; discriminate.
Qed.
Lemma cut_whole : forall A (pa : list hst) (a : list A), length pa = length a -> concat (cut_after pa a []) = a.
Proof. intros A pa a H. rewrite cut_concat, H, firstn_all. reflexivity. Qed.
Lemma legal_pre : forall pa y pb, legal_path (pa ++ y :: pb) -> legal_path pa /\ (forall z, last_state pa = Some z -> legal z y) /\ legal_path (y :: pb).
Proof.
  induction pa as [|z pa IH]; intros y pb H; [split; [exact I|]; split; [discriminate|exact H]|]. destruct pa as [|z' pa].
  - cbn [app] in H. destruct H as [H1 H2]. split; [exact I|]. split; [|exact H2]. intros z0 Hz. injection Hz as <-. exact H1.
  - cbn [app] in H. change (legal z z' /\ legal_path ((z' :: pa) ++ y :: pb)) in H. destruct H as [H1 H2]. destruct (IH y pb H2) as (K1 & K2 & K3). split; [split; assumption|]. split; [|exact K3].
    intros z0 Hz. apply K2. rewrite <- Hz. unfold last_state. cbn [length]. replace (S (S (length pa)) - 1)%nat with (S (S (length pa) - 1)) by lia. reflexivity.
Qed.
Lemma before_S : forall pa, (forall z, last_state pa = Some z -> legal z HS) -> closed pa.
Proof.
  intros pa H. destruct (last_state pa) as [z|] eqn:El.
  - specialize (H z eq_refl). destruct z; try contradiction; unfold closed; auto.
  - left. destruct pa; [reflexivity|]. exfalso. unfold last_state in El. apply nth_error_None in El. cbn [length] in El. lia.
Qed.
Lemma cut_repeat : forall A (l : list A), cut_after (repeat HS (length l)) l [] = map (fun c => [c]) l.
Proof. induction l as [|x l IH]; [reflexivity|]. cbn [length repeat cut_after app map]. rewrite IH. reflexivity. Qed.

Lemma c99_alone : forall (E : env) s a x b, ar E = ieee -> Forall (fun r => is_han E r = true) (runes_of s) -> runes_of s = a ++ x :: b ->
  Forall (has_emission HS) (a ++ x :: b) -> (forall y, has_emission y x -> y = HS) ->
  exists l r, hmm_cut (def_emit E) s [] = Ok (map string_of_runes (l ++ [x] :: r)) /\ concat l = a /\ concat r = b.
Proof.
  intros E s a x b HE Hh Hr Hs Hx. assert (Hne : s <> []) by (intros ->; destruct a; discriminate). destruct (c33_han (def_emit E) Hne Hh) as (p & path & H1 & H2).
  assert (Hq : runes_of s <> []) by (rewrite Hr; destruct a; discriminate).
  assert (K : exists p path, viterbi (def_emit E) (runes_of s) all_states = Ok (p, path) /\ starts path /\ known_along (def_emit E) (runes_of s) path).
  { apply (@c99_path E HE _ (def_probs HE) _ (repeat HS (length (runes_of s)))); [exact Hq|apply repeat_length|apply all_S| | |].
    - right. destruct (runes_of s) as [|c l]; [congruence|]. cbn [length]. change (repeat HS (S (length l))) with (HS :: repeat HS (length l)). rewrite (repeat_cons (length l) HS). apply last_snoc.
    - destruct (runes_of s); [congruence|exact I].
    - rewrite Hr. clear -Hs. induction Hs as [|o l Ho Hs IH]; [constructor|]. constructor; [apply def_known; exact Ho|exact IH]. }
  destruct K as (p' & path' & K1 & _ & K2). rewrite H1 in K1. injection K1 as <- <-.
  destruct (@c31 E (def_emit E) _ Hq) as (p2 & path2 & G1 & G2 & G3 & _). rewrite H1 in G1. injection G1 as <- <-.
  rewrite Hr in K2, G2, H2. unfold known_along in K2. apply Forall2_app_inv_l in K2 as (pa & pb & P1 & P2 & ->). inversion P2 as [|? y ? pb' Py Pb]; subst. apply def_known in Py. apply Hx in Py. subst y.
  pose proof (f2_length P1) as L1. pose proof (f2_length Pb) as L2. destruct (legal_pre G3) as (_ & D & _).
  rewrite cut_app in H2; [|lia|reflexivity|apply before_S; exact D]. cbn [cut_after app] in H2.
  exists (cut_after pa a []), (cut_after pb' b []). split; [exact H2|]. split; apply cut_whole; lia.
Qed.
Lemma c100_cut : forall (E : env) s u x w, ar E = ieee -> Forall (fun r => is_han E r = true) (runes_of s) -> runes_of s = u ++ x :: w ->
  (forall y, ~ has_emission y x) -> Forall (has_emission HS) u -> Forall (fun o => has_emission HS o \/ forall y, ~ has_emission y o) w ->
  exists l, hmm_cut (def_emit E) s [] = Ok (map string_of_runes (l ++ map (fun c => [c]) (x :: w))) /\ concat l = u /\
    (forall u' z, u = u' ++ [z] -> exists l', l = l' ++ [[z]]).
Proof.
  intros E s u x w HE Hh Hr Hx Hu Hw. assert (Hne : s <> []) by (intros ->; destruct u; discriminate). destruct (c33_han (def_emit E) Hne Hh) as (p & path & H1 & H2).
  rewrite Hr in H1, H2. destruct (@c100 E HE _ (def_probs HE) u x w (def_unknown E Hx)) as (pr & q & G1 & G2 & G3).
  { eapply Forall_impl; [|exact Hu]. intros o Ho. apply def_known. exact Ho. }
  { eapply Forall_impl; [|exact Hw]. intros o [Ho|Ho]; [left; apply def_known; exact Ho|right; apply def_unknown; exact Ho]. }
  rewrite H1 in G1. injection G1 as -> ->.
  assert (C : closed q). { destruct u as [|o u]; [left; destruct q; [reflexivity|discriminate]|]. right. right. apply G3. discriminate. }
  rewrite cut_app in H2; [|exact G2|reflexivity|exact C]. pose proof (cut_repeat (x :: w)) as R. cbn [length repeat] in R, H2. rewrite R in H2.
  exists (cut_after q u []). split; [exact H2|]. split; [apply cut_whole; exact G2|]. intros u' z ->. destruct G3 as (K1 & K2 & _); [destruct u'; discriminate|].
  destruct (last_inv K2) as (q' & ->). rewrite !app_length in G2. cbn [length] in G2. destruct (legal_pre K1) as (_ & D & _). rewrite cut_app; [|lia|reflexivity|apply before_S; exact D]. exists (cut_after q' u' []). reflexivity.
Qed.
Lemma c100_builtin : forall (E : env) u x w, ar E = ieee -> (forall y, ~ has_emission y x) -> Forall (has_emission HS) u ->
  Forall (fun o => has_emission HS o \/ forall y, ~ has_emission y o) w ->
  exists p q, viterbi (def_emit E) (u ++ x :: w) all_states = Ok (p, q ++ repeat HS (S (length w))) /\ length q = length u /\
    (u <> [] -> legal_path q /\ last_state q = Some HS /\
      forall q', length q' = length u -> legal_path q' -> last_state q' = Some HS -> le64 (path_prob (def_emit E) u q') (path_prob (def_emit E) u q)).
Proof.
  intros E u x w HE Hx Hu Hw. apply (@c100 E HE _ (def_probs HE) u x w (def_unknown E Hx)).
  { eapply Forall_impl; [|exact Hu]. intros o Ho. apply def_known. exact Ho. }
  { eapply Forall_impl; [|exact Hw]. intros o [Ho|Ho]; [left; apply def_known; exact Ho|right; apply def_unknown; exact Ho]. }
Qed.
