(** What a missing emission does to the HMM cut. *)
From Verif Require Import M_Env Ieee S_Hmm P_Hmm P_Laws64 P_MissR S_Miss.
From Coq Require Import Reals Lra Lia.
Set Implicit Arguments. Unset Strict Implicit.

Notation S_HE := M_Hmm.HE.
Lemma starts_dec : forall q, starts q \/ ~ starts q.
Proof. intros [|[] q]; cbn; auto. Qed.
Lemma known_dec : forall (E : env) (em : emits E) obs q, known_along em obs q \/ ~ known_along em obs q.
Proof.
  intros E em. induction obs as [|o obs IH]; intros [|y q]; try (left; constructor; fail); try (right; intro H; inversion H; fail).
  destruct (em y o) eqn:Ev; [|right; intro H; inversion H; subst; congruence]. destruct (IH q) as [K|K]; [left; constructor; [congruence|exact K]|]. right. intro H. inversion H; subst. auto.
Qed.
Section M.
  Variable E : env.
  Variable HE : ar E = ieee.
  Variable em : emits E.
  Variable Hem : probs_ok em.
  Notation vl := (vl HE). Notation fn := (fn HE). Notation rng := (rng HE). Notation small := (small HE). Notation big := (big HE). Notation prob := (prob HE). Notation isM := (isM HE).

  Lemma em_prob : forall y o v, em y o = Some v -> prob v.
  Proof. intros y o v H. destruct (Hem H) as [H1 H2]. apply prob_le; [apply le_fn; assumption|auto]. Qed.
  Lemma em_cases : forall y o, prob (dflt (em y o)) /\ em y o <> None \/ isM (dflt (em y o)) /\ em y o = None.
  Proof. intros y o. destruct (em y o) as [v|] eqn:Ev; [left; split; [exact (em_prob Ev)|discriminate]|right]. split; [apply isM_lit|reflexivity]. Qed.
  Lemma lit_prob : forall x : f64 E, le64 (lit64 E (-64) 0) x -> le64 x (lit64 E 0 0) -> prob x.
  Proof. intros x H1 H2. apply prob_le; [apply le_fn; assumption|auto]. Qed.
  Lemma trans_prob : forall y0 y, legal y0 y -> prob (dflt (prob_trans E y0 y)).
  Proof.
    assert (T : forall y0 y, legal y0 y -> le64 (lit64 E (-64) 0) (dflt (prob_trans E y0 y)) /\ le64 (dflt (prob_trans E y0 y)) (lit64 E 0 0)).
    { unfold prob_trans, dflt. rewrite HE. clear. intros [] [] []; split; repeat split; vm_compute; reflexivity. }
    intros y0 y H. apply lit_prob; apply T; exact H.
  Qed.
  Lemma start_prob : forall y, y = HB \/ y = HS -> prob (prob_start E y).
  Proof.
    assert (T : forall y, y = HB \/ y = HS -> le64 (lit64 E (-64) 0) (prob_start E y) /\ le64 (prob_start E y) (lit64 E 0 0)).
    { unfold prob_start. rewrite HE. clear. intros y [-> | ->]; split; repeat split; vm_compute; reflexivity. }
    intros y H. apply lit_prob; apply T; exact H.
  Qed.
  Lemma start_isM : forall y, y = HM \/ y = S_HE -> isM (prob_start E y).
  Proof. intros y [-> | ->]; apply isM_lit. Qed.

  (** Every sum is small (no emission missing) or at most -3.14e100. *)
  Definition ok (x : f64 E) : Prop := small x \/ big x.
  Lemma ok_rng : forall x, ok x -> rng x.
  Proof. intros x [H|H]; [exact (small_rng H)|exact (big_rng H)]. Qed.
  Lemma add_prob : forall x y, ok x -> prob y -> ok (add64 E x y) /\ (big x -> vl (add64 E x y) = vl x /\ big (add64 E x y)) /\ (small x -> small (add64 E x y)).
  Proof.
    intros x y H Hy. split; [|split].
    - destruct H as [H|H]; [left; exact (small_prob H Hy)|right; exact (proj1 (big_small H (prob_small Hy)))].
    - intro Hb. destruct (big_small Hb (prob_small Hy)). auto.
    - intro Hs. exact (small_prob Hs Hy).
  Qed.
  Lemma add_M : forall x y, ok x -> isM y -> big (add64 E x y) /\ (small x -> isM (add64 E x y)).
  Proof.
    intros x y H Hy. split; [destruct H as [H|H]; [exact (isM_big (small_isM H Hy))|exact (big_isM H Hy)]|]. intro Hs. exact (small_isM Hs Hy).
  Qed.
  Lemma add_em : forall x y o, ok x -> ok (add64 E x (dflt (em y o))) /\ (big x \/ em y o = None -> big (add64 E x (dflt (em y o)))) /\ (small x -> em y o <> None -> small (add64 E x (dflt (em y o)))).
  Proof.
    intros x y o H. destruct (em_cases y o) as [[P N]|[M N]].
    - destruct (add_prob H P) as (H1 & H2 & H3). split; [exact H1|]. split; [intros [G|G]; [apply (H2 G)|congruence]|auto].
    - destruct (add_M H M) as (H1 & H2). split; [right; exact H1|]. split; [auto|congruence].
  Qed.
  Lemma first_ok : forall y o, let x := add64 E (dflt (em y o)) (prob_start E y) in ok x /\ (em y o = None \/ y = HM \/ y = S_HE -> big x) /\ (em y o <> None -> y = HB \/ y = HS -> small x).
  Proof.
    intros y o x. assert (C : ok (dflt (em y o)) /\ (em y o = None -> big (dflt (em y o))) /\ (em y o <> None -> small (dflt (em y o)))).
    { destruct (em_cases y o) as [[P N]|[M N]]; [split; [left; exact (prob_small P)|split; [congruence|intros; exact (prob_small P)]]|]. split; [right; exact (isM_big M)|]. split; [intros; exact (isM_big M)|congruence]. }
    destruct C as (C1 & C2 & C3). unfold x.
    assert (Hy : (y = HB \/ y = HS) \/ (y = HM \/ y = S_HE)) by (destruct y; auto). destruct Hy as [Hy|Hy].
    - destruct (add_prob C1 (start_prob Hy)) as (A1 & A2 & A3). split; [exact A1|]. split; [intros [G|G]; [apply A2, C2, G|destruct Hy as [-> | ->], G; discriminate]|]. intros N _. apply A3, C3, N.
    - destruct (add_M C1 (start_isM Hy)) as (A1 & A2). split; [right; exact A1|]. split; [intros _; exact A1|]. intros _ G. destruct Hy as [-> | ->], G; discriminate.
  Qed.

  (** *** Paths *)
  Lemma steps_cases : forall obs path acc y0, length path = length obs -> legal_path (y0 :: path) -> ok acc ->
    ok (path_steps em acc y0 obs path) /\
    (big acc \/ ~ known_along em obs path -> big (path_steps em acc y0 obs path)) /\
    (small acc -> known_along em obs path -> small (path_steps em acc y0 obs path)).
  Proof.
    induction obs as [|o obs IH]; intros [|y path] acc y0 Hl Hp Ha; try discriminate.
    - cbn [path_steps]. split; [exact Ha|]. split; [|auto]. intros [H|H]; [exact H|]. destruct H. constructor.
    - cbn [path_steps]. change (legal y0 y /\ legal_path (y :: path)) in Hp. destruct Hp as [Hy Hp].
      destruct (add_prob Ha (trans_prob Hy)) as (A1 & A2 & A3). destruct (add_em y o A1) as (B1 & B2 & B3). destruct (IH path _ y (eq_add_S _ _ Hl) Hp B1) as (C1 & C2 & C3).
      split; [exact C1|]. split.
      + intro H. apply C2. destruct (em y o) as [v|] eqn:Ev; [|left; apply B2; auto]. destruct H as [H|H]; [left; apply B2; left; apply A2, H|]. right. intro K. apply H. constructor; [congruence|exact K].
      + intros Hs K. inversion K as [|? ? ? ? K1 K2]; subst. apply C3; [apply B3; auto|exact K2].
  Qed.
  Lemma path_cases : forall obs path, obs <> [] -> length path = length obs -> legal_path path ->
    ok (path_prob em obs path) /\
    (~ (starts path /\ known_along em obs path) -> big (path_prob em obs path)) /\
    (starts path -> known_along em obs path -> small (path_prob em obs path)).
  Proof.
    intros [|o obs] [|y path] Hne Hl Hp; try discriminate; [congruence|]. cbn [path_prob]. destruct (first_ok y o) as (A1 & A2 & A3).
    destruct (@steps_cases obs path _ y (eq_add_S _ _ Hl) Hp A1) as (C1 & C2 & C3). split; [exact C1|]. split.
    - intro H. apply C2. destruct (em y o) as [v|] eqn:Ev; [|left; apply A2; auto]. assert (Hy : (y = HB \/ y = HS) \/ (y = HM \/ y = S_HE)) by (destruct y; auto). destruct Hy as [Hy|Hy]; [|left; apply A2; auto].
      right. intro K. apply H. split; [destruct Hy as [-> | ->]; exact I|]. constructor; [congruence|exact K].
    - intros Hs K. inversion K as [|? ? ? ? K1 K2]; subst. apply C3; [apply A3; [exact K1|]|exact K2]. destruct y; cbn in Hs; auto; contradiction.
  Qed.
  Lemma c99_path : forall obs q, obs <> [] -> length q = length obs -> legal_path q -> (last_state q = Some S_HE \/ last_state q = Some HS) -> starts q -> known_along em obs q ->
    exists p path, viterbi em obs all_states = Ok (p, path) /\ starts path /\ known_along em obs path.
  Proof.
    intros obs q Hne Hl Hp He Hs Hk. destruct (@c31 E em obs Hne) as (p & path & H1 & H2 & H3 & H4 & H5). exists p, path. split; [exact H1|].
    assert (L : laws64 E) by (rewrite HE; exact ieee_laws64).
    assert (B : le64 (path_prob em obs q) p).
    { apply (@c32 E em) with (path := path); auto. apply fin_no_nan; auto. intros y o v Hv. destruct (em_prob Hv) as [F _]. apply fn_fin with HE. exact F. }
    destruct (path_cases Hne Hl Hp) as (_ & _ & S1). specialize (S1 Hs Hk). destruct (path_cases Hne H2 H3) as (O2 & B2 & _). rewrite <- H5 in *.
    assert (D : starts path /\ known_along em obs path); [|exact D].
    destruct (starts_dec path) as [D1|D1], (known_dec em obs path) as [D2|D2]; auto; exfalso;
      (assert (G : big p) by (apply B2; tauto)); apply (le_vl (proj1 S1) (proj1 G)) in B; pose proof (big_lt_small S1 G); lra.
  Qed.

  (** *** An unknown character *)
  Definition unknown (o : rune) : Prop := forall y, em y o = None.
  Lemma pick_S : forall a b : f64 E, fn a -> fn b -> (vl b <= vl a)%R -> pick (a, HS) (b, S_HE) = (a, HS) /\ pick (b, S_HE) (a, HS) = (a, HS).
  Proof.
    intros a b Ha Hb H. unfold pick, p_less. cbn [fst snd hst_ord Nat.ltb Nat.leb]. split.
    - destruct (eqb64 E a b) eqn:Eq; [reflexivity|]. destruct (ltb64 E a b) eqn:El; [|reflexivity]. apply (lt_vl Ha Hb) in El. lra.
    - destruct (eqb64 E b a) eqn:Eq; [reflexivity|]. destruct (ltb64 E b a) eqn:El; [reflexivity|]. exfalso.
      destruct (Rle_lt_or_eq_dec _ _ H) as [G|G]; [apply (lt_vl Hb Ha) in G|apply (eq_vl Hb Ha) in G]; congruence.
  Qed.
  Definition after (v : vmap E) : Prop := forall y, big (v y) /\ (vl (v y) <= vl (v HS))%R.
  Definition score (v : vmap E) (o : rune) (y z : hst) : f64 E := add64 E (add64 E (v z) (dflt (prob_trans E z y))) (dflt (em y o)).
  Lemma col_S : forall o v p, fn (score v o HS HS) -> fn (score v o HS S_HE) -> (vl (score v o HS S_HE) <= vl (score v o HS HS))%R ->
    exists v' p', vit_col em o v p all_states (v_empty E) p_empty = Ok (v', p') /\ v' HS = score v o HS HS /\ p' HS = p HS ++ [HS] /\
      forall y, exists z, legal z y /\ v' y = score v o y z.
  Proof.
    intros o v p F1 F2 H. destruct (@col_spec E em o v p) as (v' & p' & H1 & H2). exists v', p'. split; [exact H1|].
    destruct (H2 HS) as (a & b & Hab & K1 & K2). injection Hab as <- <-. cbv zeta in K1, K2. fold (score v o HS HS) in K1, K2. fold (score v o HS S_HE) in K1, K2.
    rewrite (proj1 (pick_S F1 F2 H)) in K1, K2. cbn [fst snd] in K1, K2. split; [exact K1|]. split; [exact K2|].
    intro y. destruct (H2 y) as (a & b & Hab & G1 & _). cbv zeta in G1. fold (score v o y a) in G1. fold (score v o y b) in G1. destruct (pick_in (score v o y a, a) (score v o y b, b)) as [G|G]; rewrite G in G1; cbn [fst] in G1;
      [exists a|exists b]; (split; [apply prev_legal; rewrite Hab; cbn; auto|exact G1]).
  Qed.
  Lemma unknown_col : forall o v p, unknown o -> (forall y, ok (v y)) -> small (v HS) ->
    exists v' p', vit_col em o v p all_states (v_empty E) p_empty = Ok (v', p') /\ after v' /\ p' HS = p HS ++ [HS].
  Proof.
    intros o v p Hu Hv Hs.
    assert (M : forall y, isM (dflt (em y o))). { intro y. destruct (em_cases y o) as [[_ N]|[M _]]; [destruct N; apply Hu|exact M]. }
    assert (S1 : isM (score v o HS HS)). { unfold score. destruct (add_prob (Hv HS) (@trans_prob HS HS I)) as (A1 & _ & A3). apply (add_M A1 (M HS)). apply A3, Hs. }
    assert (B : forall y z, legal z y -> big (score v o y z)). { intros y z Hz. unfold score. destruct (add_prob (Hv z) (@trans_prob z y Hz)) as (A1 & _ & A3). apply (add_M A1 (M y)). }
    assert (Le : forall y z, legal z y -> (vl (score v o y z) <= vl (score v o HS HS))%R). { intros y z Hz. destruct (B y z Hz) as [_ G], S1 as [_ ->]. apply G. }
    destruct (@col_S o v p (proj1 S1) (proj1 (B HS S_HE I)) (Le HS S_HE I)) as (v' & p' & H1 & H2 & H3 & H4). exists v', p'. split; [exact H1|]. split; [|exact H3].
    intro y. destruct (H4 y) as (z & Hz & ->). rewrite H2. split; [apply B; exact Hz|apply Le; exact Hz].
  Qed.
  Lemma after_col : forall o v p, em HS o <> None \/ unknown o -> after v ->
    exists v' p', vit_col em o v p all_states (v_empty E) p_empty = Ok (v', p') /\ after v' /\ p' HS = p HS ++ [HS].
  Proof.
    intros o v p Ho Ha.
    assert (T : forall y z, legal z y -> big (add64 E (v z) (dflt (prob_trans E z y))) /\ vl (add64 E (v z) (dflt (prob_trans E z y))) = vl (v z)).
    { intros y z Hz. destruct (Ha z) as [B _]. apply big_small; [exact B|]. apply prob_small, trans_prob, Hz. }
    assert (B : forall y z, legal z y -> big (score v o y z)).
    { intros y z Hz. unfold score. destruct (T y z Hz) as [T1 _]. apply add_em; [right; exact T1|left; exact T1]. }
    assert (R : forall y, rng (dflt (em y o))). { intro y. destruct (em_cases y o) as [[P _]|[M _]]; [exact (prob_rng P)|exact (big_rng (isM_big M))]. }
    assert (Le : forall y z, legal z y -> (vl (score v o y z) <= vl (score v o HS HS))%R).
    { intros y z Hz. unfold score. destruct (T y z Hz) as [T1 T2], (T HS HS I) as [T3 T4], (Ha z) as [_ Hz2]. destruct Ho as [Ho|Ho].
      - destruct (em_cases HS o) as [[P _]|[_ N]]; [|contradiction]. rewrite (proj2 (big_small T3 (prob_small P))), T4.
        pose proof (add_below (big_rng T1) (R y)) as K. lra.
      - apply add_mono; try apply R; try (apply big_rng; assumption); [lra|]. rewrite (Ho y), (Ho HS). lra. }
    destruct (@col_S o v p (proj1 (B HS HS I)) (proj1 (B HS S_HE I)) (Le HS S_HE I)) as (v' & p' & H1 & H2 & H3 & H4). exists v', p'. split; [exact H1|]. split; [|exact H3].
    intro y. destruct (H4 y) as (z & Hz & ->). rewrite H2. split; [apply B; exact Hz|apply Le; exact Hz].
  Qed.
  Lemma after_loop : forall w v p, Forall (fun o => em HS o <> None \/ unknown o) w -> after v ->
    exists v' p', vit_loop em all_states w v p = Ok (v', p') /\ after v' /\ p' HS = p HS ++ repeat HS (length w).
  Proof.
    induction w as [|o w IH]; intros v p Hw Ha; [exists v, p; cbn [repeat length]; rewrite app_nil_r; auto|]. inversion Hw as [|? ? W1 W2]; subst.
    destruct (@after_col o v p W1 Ha) as (v1 & p1 & H1 & H2 & H3). destruct (IH v1 p1 W2 H2) as (v2 & p2 & G1 & G2 & G3). exists v2, p2. cbn [vit_loop]. rewrite H1. cbn [bind fst snd].
    split; [exact G1|]. split; [exact G2|]. rewrite G3, H3, <- app_assoc. reflexivity.
  Qed.
  Lemma loop_app : forall a b v p, vit_loop em all_states (a ++ b) v p = (do r <- vit_loop em all_states a v p ; vit_loop em all_states b (fst r) (snd r)).
  Proof.
    induction a as [|o a IH]; intros b v p; [reflexivity|]. cbn [app vit_loop]. destruct (vit_col em o v p all_states (v_empty E) p_empty) as [[v1 p1]| |]; cbn [bind fst snd]; [apply IH|reflexivity|reflexivity].
  Qed.
  Lemma all_S : forall n, legal_path (repeat HS n).
  Proof. induction n as [|[|n] IH]; cbn in *; auto. Qed.
  Lemma finish : forall w v p q, Forall (fun o => em HS o <> None \/ unknown o) w -> after v -> p HS = q ++ [HS] ->
    exists pr, (do r <- vit_loop em all_states w v p ; let x := pick (fst r S_HE, S_HE) (fst r HS, HS) in Ok (fst x, snd r (snd x))) = Ok (pr, q ++ repeat HS (S (length w))).
  Proof.
    intros w v p q Hw Ha Hp. destruct (@after_loop w v p Hw Ha) as (v1 & p1 & H1 & H2 & H3). rewrite H1. cbn [bind fst snd]. destruct (H2 S_HE) as [B1 L1], (H2 HS) as [B2 _].
    rewrite (proj2 (pick_S (proj1 B2) (proj1 B1) L1)). cbn [fst snd]. exists (v1 HS). rewrite H3, Hp, <- app_assoc. reflexivity.
  Qed.
  Lemma c100 : forall u x w, unknown x -> Forall (fun o => em HS o <> None) u -> Forall (fun o => em HS o <> None \/ unknown o) w ->
    exists pr q, viterbi em (u ++ x :: w) all_states = Ok (pr, q ++ repeat HS (S (length w))) /\ length q = length u /\
      (u <> [] -> legal_path q /\ last_state q = Some HS /\
        forall q', length q' = length u -> legal_path q' -> last_state q' = Some HS -> le64 (path_prob em u q') (path_prob em u q)).
  Proof.
    intros [|o u] x w Hx Hu Hw.
    - cbn [app]. unfold viterbi. set (i := vit_init em x all_states (v_empty E) p_empty).
      assert (F : forall y, fst i y = add64 E (dflt (em y x)) (prob_start E y)) by (intros []; reflexivity).
      assert (Ha : after (fst i)).
      { assert (M : isM (dflt (em HS x))). { destruct (em_cases HS x) as [[_ N]|[M _]]; [destruct N; apply Hx|exact M]. }
        pose proof (proj2 (big_small (isM_big M) (prob_small (@start_prob HS (or_intror eq_refl))))) as V. intro y. rewrite !F. destruct (first_ok y x) as (_ & B & _).
        specialize (B (or_introl (Hx y))). split; [exact B|]. rewrite V. destruct M as [_ ->], B as [_ B]. apply B. }
      destruct (@finish w (fst i) (snd i) [] Hw Ha eq_refl) as (pr & Hf). exists pr, []. split; [exact Hf|]. split; [reflexivity|congruence].
    - cbn [app]. unfold viterbi. set (i := vit_init em o all_states (v_empty E) p_empty). rewrite loop_app. destruct (loop_ok u (@init_ok E em o)) as (v & p & H1 & H2). fold i in H1.
      assert (L : laws64 E) by (rewrite HE; exact ieee_laws64).
      assert (Hn : no_nan em (o :: u)). { apply fin_no_nan; [exact HE| |discriminate]. intros y z t Hv. destruct (em_prob Hv) as [Fv _]. apply fn_fin with HE. exact Fv. }
      pose proof (@loop_best E em L u [o] (fst i) (snd i) v p ltac:(discriminate) (@init_ok E em o) Hn (@init_best E em L o) H1) as Hb.
      change ([o] ++ u) with (o :: u) in *.
      assert (Ho : forall y, ok (v y)). { intro y. destruct (H2 y) as (K1 & K2 & K3 & ->). apply path_cases; [discriminate|exact K1|exact K3]. }
      assert (Hs : small (v HS)).
      { assert (K : small (path_prob em (o :: u) (repeat HS (length (o :: u))))).
        { apply path_cases; [discriminate|apply repeat_length|apply all_S|exact I|]. clear -Hu. induction Hu; [constructor|]. constructor; assumption. }
        assert (Q : le64 (path_prob em (o :: u) (repeat HS (length (o :: u)))) (v HS)).
        { apply Hb. split; [apply repeat_length|]. split; [apply all_S|]. cbn [length]. change (repeat HS (S (length u))) with (HS :: repeat HS (length u)). rewrite (repeat_cons (length u) HS). apply last_snoc. }
        destruct (Ho HS) as [G|G]; [exact G|]. apply (le_vl (proj1 K) (proj1 G)) in Q. pose proof (big_lt_small K G). lra. }
      rewrite H1. cbn [bind fst snd vit_loop]. destruct (@unknown_col x v p Hx Ho Hs) as (v1 & p1 & G1 & G2 & G3). rewrite G1. cbn [bind fst snd].
      destruct (@finish w v1 p1 (p HS) Hw G2 G3) as (pr & Hf). exists pr, (p HS). split; [exact Hf|]. destruct (H2 HS) as (K1 & K2 & K3 & K4). split; [exact K1|]. intros _. split; [exact K3|]. split; [exact K2|].
      intros q' Q1 Q2 Q3. rewrite <- K4. apply Hb. split; [exact Q1|auto].
  Qed.
End M.
