(** What the optimality proofs use of float64. *)
From Verif Require Import M_Env Ieee P_Ieee.
From Coq Require Import Reals Lra.
From Flocq Require Import IEEE754.BinarySingleNaN.
Set Implicit Arguments. Unset Strict Implicit.

(** Not a NaN. *)
Definition num64 (A : arith) (x : f64 A) : Prop := eqb64 A x x = true.
(** Finite: x - x is 0. *)
Definition fin64 (A : arith) (x : f64 A) : Prop := eqb64 A (sub64 A x x) (lit64 A 0 0) = true.
(** x <= y. *)
Definition le64 (A : arith) (x y : f64 A) : Prop := num64 x /\ num64 y /\ ltb64 A y x = false.

Record laws64 (A : arith) : Prop := {
  le_refl64 : forall x : f64 A, num64 x -> le64 x x;
  le_trans64 : forall x y z : f64 A, le64 x y -> le64 y z -> le64 x z;
  lt_le64 : forall x y : f64 A, ltb64 A x y = true -> le64 x y;
  eq_le64 : forall x y : f64 A, eqb64 A x y = true -> le64 x y /\ le64 y x;
  le_anti64 : forall x y : f64 A, le64 x y -> le64 y x -> eqb64 A x y = true;
  lt_irr64 : forall x : f64 A, ltb64 A x x = false;
  add_num64 : forall x y : f64 A, num64 (add64 A x y) -> num64 x /\ num64 y;
  add_l64 : forall x y w : f64 A, num64 (add64 A x w) -> num64 (add64 A y w) -> le64 x y -> le64 (add64 A x w) (add64 A y w);
  add_r64 : forall x y w : f64 A, num64 (add64 A w x) -> num64 (add64 A w y) -> le64 x y -> le64 (add64 A w x) (add64 A w y);
  fin_add64 : forall x y : f64 A, num64 x -> fin64 y -> num64 (add64 A x y);
  fin_num64 : forall x : f64 A, fin64 x -> num64 x;
  neg_add64 : forall x y : f64 A, le64 x (lit64 A 0 0) -> le64 y (lit64 A 0 0) -> le64 (add64 A x y) (lit64 A 0 0);
  add_below64 : forall x y a b : f64 A, le64 x a -> fin64 a -> le64 y b -> fin64 b -> num64 (add64 A x y)
}.

Lemma ieee_laws64 : laws64 ieee.
Proof.
  set (K := @key 53 1024).
  assert (Hnum : forall x : b64, num64 (A := ieee) x <-> is_nan x = false).
  { intro x. unfold num64. cbn [eqb64 ieee]. split; intro H.
    - destruct (eqb_not_nan H); assumption.
    - rewrite (eqb_key H H). apply Flocq.Core.Raux.Req_bool_true. reflexivity. }
  assert (Hle : forall x y : b64, le64 (A := ieee) x y <-> is_nan x = false /\ is_nan y = false /\ (K x <= K y)%R).
  { intros x y. unfold le64. rewrite !Hnum. cbn [ltb64 ieee]. split; intros (H1 & H2 & H3); (split; [|split]); auto; apply (le_key H1 H2); auto. }
  assert (Hfin : forall x : b64, fin64 (A := ieee) x <-> is_finite x = true).
  { intro x. unfold fin64. cbn [eqb64 sub64 lit64 ieee]. split; intro H.
    - destruct x as [s|s| |s m e B]; try reflexivity; try discriminate. destruct s; discriminate.
    - pose proof (Bminus_correct 53 1024 prec64 max64 mode_NE x x H H) as Hc. cbv zeta in Hc.
      rewrite Rminus_diag_eq, Flocq.Core.Generic_fmt.round_0 in Hc by (try apply valid_rnd_N; try reflexivity; typeclasses eauto).
      rewrite Rabs_R0, Flocq.Core.Raux.Rlt_bool_true in Hc by apply Flocq.Core.Raux.bpow_gt_0. destruct Hc as (Hc & Hf & _).
      assert (F0 : is_finite (lit_64 0 0) = true) by reflexivity. rewrite (Beqb_correct _ _ _ _ Hf F0). apply Flocq.Core.Raux.Req_bool_true. rewrite Hc. reflexivity. }
  constructor.
  - intros x H. apply Hle. apply Hnum in H. repeat split; auto. lra.
  - intros x y z H1 H2. apply Hle in H1 as (? & ? & ?), H2 as (? & ? & ?). apply Hle. repeat split; auto. lra.
  - intros x y H. cbn [ltb64 ieee] in H. destruct (ltb_not_nan H) as [Nx Ny]. apply (lt_key Nx Ny) in H. apply Hle. repeat split; auto. fold K in H. lra.
  - intros x y H. cbn [eqb64 ieee] in H. destruct (eqb_not_nan H) as [Nx Ny]. rewrite (eqb_key Nx Ny) in H.
    destruct (Flocq.Core.Raux.Req_bool_spec (key x) (key y)) as [He|]; [|discriminate]. fold K in He. rewrite !Hle. repeat split; auto; lra.
  - intros x y H1 H2. apply Hle in H1 as (Nx & Ny & ?), H2 as (_ & _ & ?). cbn [eqb64 ieee]. rewrite (eqb_key Nx Ny). apply Flocq.Core.Raux.Req_bool_true. fold K. lra.
  - intro x. cbn [ltb64 ieee]. destruct (is_nan x) eqn:Nx; [destruct x; try discriminate; reflexivity|]. apply (le_key Nx Nx). lra.
  - intros x y H. rewrite Hnum in *. rewrite Hnum. apply (plus_nan H).
  - intros x y w H1 H2 H. rewrite Hnum in *. apply Hle in H as (Nx & Ny & H). apply Hle. repeat split; auto. apply plus_mono_l; auto.
  - intros x y w H1 H2 H. rewrite Hnum in *. apply Hle in H as (Nx & Ny & H). apply Hle. repeat split; auto. apply plus_mono_r; auto.
  - intros x y H1 H2. rewrite Hnum in *. rewrite Hfin in H2. cbn [add64 ieee].
    destruct (is_fin_dec H1) as [F|[->| ->]]; [apply (proj1 (plus_fin _ _ F H2))| |]; destruct y; try discriminate; reflexivity.
  - intros x H. rewrite Hfin in H. rewrite Hnum. destruct x; try discriminate; reflexivity.
  - intros x y Hx Hy. apply Hle in Hx as (Nx & N0 & Kx), Hy as (Ny & _ & Ky).
    assert (K0 : K (lit_64 0 0) = 0%R) by reflexivity. cbn [lit64 ieee] in *. rewrite K0 in *.
    assert (Ns : is_nan (add64 ieee x y) = false).
    { cbn [add64 ieee]. pose proof (emx_pos 1024). destruct (is_fin_dec Nx) as [F|[->| ->]].
      - destruct (is_fin_dec Ny) as [G|[->| ->]]; [apply (proj1 (plus_fin _ _ F G))| |]; destruct x; try discriminate; reflexivity.
      - destruct (is_fin_dec Ny) as [G|[->| ->]]; [destruct y; try discriminate; reflexivity|reflexivity|]. unfold K in Ky. cbn [key] in Ky. lra.
      - unfold K in Kx. cbn [key] in Kx. lra. }
    apply Hle. repeat split; auto. rewrite K0.
    assert (N1 : is_nan (add64 ieee (lit_64 0 0) y) = false) by (destruct y as [s|s| |s m e B]; try discriminate; try destruct s; reflexivity).
    assert (H1 : (K (add64 ieee x y) <= K (add64 ieee (lit_64 0 0) y))%R).
    { apply plus_mono_l; [exact Ns|exact N1|]. fold K. rewrite K0. exact Kx. }
    assert (H2 : K (add64 ieee (lit_64 0 0) y) = K y) by (destruct y as [[]|s| |s m e B]; try discriminate; reflexivity).
    lra.
  - intros x y a b Hx Ha Hy Hb. apply Hle in Hx as (Nx & _ & Kx), Hy as (Ny & _ & Ky). rewrite Hfin in Ha, Hb. rewrite Hnum. cbn [add64 ieee].
    assert (Top : forall z c : b64, is_finite c = true -> (K z <= K c)%R -> z <> B754_infinity false).
    { intros z c Hc Hk ->. pose proof (proj2 (key_fin Hc)) as Hb2. unfold K in Hk. cbn [key] in Hk. lra. }
    destruct (is_fin_dec Nx) as [F|[->| ->]].
    + destruct (is_fin_dec Ny) as [G|[->| ->]]; [apply (proj1 (plus_fin _ _ F G))| |]; destruct x; try discriminate; reflexivity.
    + destruct (is_fin_dec Ny) as [G|[->| ->]]; [destruct y; try discriminate; reflexivity|reflexivity|]. destruct (Top _ b Hb Ky). reflexivity.
    + destruct (Top _ a Ha Kx). reflexivity.
Qed.
