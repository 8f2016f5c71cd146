(** The DAG cut is nearly most probable. *)
From Verif Require Import S_Near2 P_Ieee P_Sum P_Laws64 P_Hmm P_Dag P_Dag2 P_Dag3 P_Seg2 P_Hist.
From Coq Require Import ZArith Reals Lra Lia List Classical_Prop.
From Flocq Require Import Core IEEE754.BinarySingleNaN Plus_error Relative.
Import ListNotations.
Set Implicit Arguments. Unset Strict Implicit.

Local Open Scope R_scope.
Notation u := (bpow radix2 (-53)).
Notation plus64 := (@Bplus 53 1024 prec64 max64 mode_NE).
Notation minus64 := (@Bminus 53 1024 prec64 max64 mode_NE).
Notation key64 := (@key 53 1024).
Notation neg := (@good 53 1024 (-1)).

Lemma u_val : u = / 9007199254740992. Proof. reflexivity. Qed.

(** The difference of two logarithms. *)
Lemma minus_rel : forall a b : b64, is_finite a = true -> is_finite b = true -> 0 <= B2R a -> B2R a <= B2R b ->
  is_finite (minus64 a b) = true /\ B2R (minus64 a b) <= 0 /\ Rabs (B2R (minus64 a b) - (B2R a - B2R b)) <= u * (B2R b - B2R a).
Proof.
  intros a b Fa Fb Ha Hab. pose proof (Bminus_correct 53 1024 prec64 max64 mode_NE a b Fa Fb) as C. cbv zeta in C. change (round_mode mode_NE) with ZnearestE in C.
  assert (Fmta := generic_format_B2R 53 1024 a). assert (Fmtb := generic_format_opp _ _ _ (generic_format_B2R 53 1024 b)).
  destruct (@rnd_rel 53 1024 prec64 (B2R a) (- B2R b) Fmta Fmtb) as (e & E1 & E2). change (B2R a + - B2R b) with (B2R a - B2R b) in E2.
  change (- (53))%Z with (-53)%Z in E1. unfold rnd in E2. rewrite E2 in C. assert (Hu : 0 < u < / 2) by (rewrite u_val; lra). apply Rabs_le_inv in E1.
  pose proof (key_fin Fb) as [Kb [_ Kb2]]. rewrite Kb in Kb2.
  assert (Hr : 0 <= - round radix2 (SpecFloat.fexp 53 1024) ZnearestE (B2R a - B2R b) <= B2R b).
  { assert (V : Valid_exp (SpecFloat.fexp 53 1024)) by exact (fexp_correct 53 1024 prec64). split.
    - assert (round radix2 (SpecFloat.fexp 53 1024) ZnearestE (B2R a - B2R b) <= 0); [|lra]. rewrite <- (round_0 radix2 (SpecFloat.fexp 53 1024) ZnearestE). apply round_le; [exact V|apply valid_rnd_N|lra].
    - assert (- B2R b <= round radix2 (SpecFloat.fexp 53 1024) ZnearestE (B2R a - B2R b)); [|lra]. rewrite <- (round_generic radix2 (SpecFloat.fexp 53 1024) ZnearestE (- B2R b) Fmtb) at 1. apply round_le; [exact V|apply valid_rnd_N|lra]. }
  rewrite E2 in Hr. rewrite Rlt_bool_true in C by (rewrite Rabs_left1 by lra; change (bpow radix2 1024) with (bpow radix2 1024) in Kb2; lra).
  destruct C as (C1 & C2 & _). split; [exact C2|]. rewrite C1. split; [lra|]. replace ((B2R a - B2R b) * (1 + e) - (B2R a - B2R b)) with ((B2R a - B2R b) * e) by ring.
  rewrite Rabs_mult, (Rabs_left1 (B2R a - B2R b)) by lra. rewrite (Rmult_comm u). replace (- (B2R a - B2R b)) with (B2R b - B2R a) by ring. apply Rmult_le_compat_l; [lra|]. apply Rabs_le. lra.
Qed.

(** [x] is nearly ln (a / t). *)
Definition log_rel (L : R) (x : b64) (y : R) : Prop := is_finite x = true /\ B2R x <= 0 /\ - L <= y <= 0 /\ Rabs (B2R x - y) <= 6 * u * L.
Lemma edge_rel : forall (a b : b64) y L, is_finite a = true -> is_finite b = true -> Rabs (B2R a - y) <= y / 2 ^ 52 -> Rabs (B2R b - L) <= L / 2 ^ 52 -> 0 <= y <= L -> B2R a <= B2R b ->
  log_rel L (minus64 a b) (y - L).
Proof.
  intros a b y L Fa Fb Ha Hb Hy Hab. replace (2 ^ 52) with 4503599627370496 in * by lra. apply Rabs_le_inv in Ha. apply Rabs_le_inv in Hb.
  assert (A0 : 0 <= B2R a) by lra. destruct (minus_rel Fa Fb A0 Hab) as (M1 & M2 & M3). split; [exact M1|]. split; [exact M2|]. split; [lra|]. apply Rabs_le_inv in M3. rewrite u_val in *.
  apply Rabs_le. lra.
Qed.
Lemma edge_zero : forall a b : b64, is_finite a = false -> Bltb a (lit_64 0 0) = true -> is_finite b = true -> minus64 a b = B754_infinity true.
Proof. intros a b Fa Ha Fb. destruct a as [s|s| |s m e B]; try discriminate. destruct s; [|discriminate Ha]. destruct b; try discriminate; reflexivity. Qed.

Definition rsumR (l : list R) : R := fold_right Rplus 0 l.
Lemma log_sums : forall L l ys, Forall2 (log_rel L) l ys -> Forall neg l /\ Rabs (rsum (-1) l + rsumR ys) <= INR (length l) * (6 * u * L) /\ - (INR (length l) * L) <= rsumR ys <= 0.
Proof.
  intros L l ys H. induction H as [|x y l ys (F & N & Y & B) H2 (I1 & I2 & I3)].
  - split; [constructor|]. cbn [rsum rsumR fold_right length]. change (INR 0) with 0. rewrite Rplus_0_r, Rabs_R0. lra.
  - pose proof (proj1 (key_fin F)) as K. split.
    + constructor; [|exact I1]. split; [destruct x; try discriminate F; reflexivity|rewrite K; lra].
    + cbn [rsum rsumR fold_right length]. fold (rsum (-1) l). fold (rsumR ys). rewrite S_INR, K. apply Rabs_le_inv in B. apply Rabs_le_inv in I2. split; [apply Rabs_le|]; lra.
Qed.

Lemma near_logs : forall L l lq yq n, 0 <= L <= 2000 -> (length l <= n)%nat -> (length lq <= n)%nat -> (1 <= n)%nat -> INR n <= 2 ^ 20 ->
  Forall neg l -> Forall2 (log_rel L) lq yq -> @Bltb 53 1024 (fold_right plus64 (lit_64 0 0) l) (fold_right plus64 (lit_64 0 0) lq) = false ->
  Forall (fun x => is_finite x = true) l /\ forall ys, Forall2 (log_rel L) l ys -> rsumR yq <= rsumR ys + INR n * INR n * (32 * u * L).
Proof.
  intros L l lq yq n HL Ll Lq H1 Hn Gl Rq B. destruct (log_sums Rq) as (Gq & Sq & Yq).
  assert (Z0 : neg (lit_64 0 0)) by (split; [reflexivity|cbn; lra]). assert (K0 : key64 (lit_64 0 0) = 0) by reflexivity.
  destruct (@sum_bounds_r 53 1024 prec64 max64 (-1) l (lit_64 0 0) (or_intror eq_refl) Z0 Gl) as ([N1 P1] & _ & L1).
  destruct (@sum_bounds_r 53 1024 prec64 max64 (-1) lq (lit_64 0 0) (or_intror eq_refl) Z0 Gq) as ([N2 P2] & U2 & _).
  apply (proj1 (le_key N2 N1)) in B. rewrite K0 in *. change (- (53))%Z with (-53)%Z in *. replace (-1 * 0 + rsum (-1) l) with (rsum (-1) l) in * by ring. replace (-1 * 0 + rsum (-1) lq) with (rsum (-1) lq) in * by ring.
  set (a := fold_right plus64 (lit_64 0 0) l) in *. set (b := fold_right plus64 (lit_64 0 0) lq) in *. clearbody a b. pose proof (rsum_pos Gl) as R1. pose proof (rsum_pos Gq) as R2.
  set (v := rsum (-1) l) in *. set (vq := rsum (-1) lq) in *. assert (I1 : 1 <= INR n) by (apply (le_INR 1) in H1; exact H1).
  assert (Hu0 : 0 <= u) by apply bpow_ge_0. assert (Hnu : INR n * u <= / 16) by (rewrite u_val; lra).
  assert (Iq : 0 <= INR (length lq) <= INR n) by (split; [apply pos_INR|apply le_INR, Lq]). assert (Il : 0 <= INR (length l) <= INR n) by (split; [apply pos_INR|apply le_INR, Ll]).
  assert (Bq : vq <= - rsumR yq + INR n * (6 * u * L)).
  { apply Rabs_le_inv in Sq. assert (INR (length lq) * (6 * u * L) <= INR n * (6 * u * L)) by (apply Rmult_le_compat_r; [apply Rmult_le_pos; lra|lra]). lra. }
  assert (Yq2 : - rsumR yq <= INR n * L). { assert (INR (length lq) * L <= INR n * L) by (apply Rmult_le_compat_r; lra). lra. }
  assert (Hb : -1 * key64 b <= vq * (1 + 4 * (INR n * u))).
  { apply (@ratio u n 0 (length lq)); auto; [lia|]. cbn [pow]. lra. }
  assert (NL : INR n * L <= 2 ^ 20 * 2000) by (apply Rmult_le_compat; lra).
  assert (Vq : vq <= 2 ^ 20 * 2001). { assert (INR n * (6 * u * L) = 6 * u * (INR n * L)) as X by ring. rewrite X in Bq. assert (6 * u * (INR n * L) <= 6 * u * (2 ^ 20 * 2000)) by (apply Rmult_le_compat_l; lra). rewrite u_val in *. lra. }
  assert (W : forall r, r <= vq * (1 + 4 * (INR n * u)) -> r <= 2 ^ 20 * 4002). { intros r Hr. assert (vq * (1 + 4 * (INR n * u)) <= vq * 2) by (apply Rmult_le_compat_l; lra). lra. }
  assert (Em : 2 ^ 20 * 4002 < bpow radix2 1024). { apply Rlt_trans with (bpow radix2 40); [|apply bpow_lt; lia]. change (bpow radix2 40) with 1099511627776. lra. }
  assert (Ha : -1 * key64 a < bpow radix2 1024). { apply Rle_lt_trans with (2 := Em). apply W. lra. } specialize (L1 Ha).
  assert (Q : v <= vq * (1 + 4 * (INR n * u))). { apply (@ratio u n (length l) (length lq)); auto. lra. }
  split; [apply (@sum_finite 53 1024 (-1) l (or_intror eq_refl) Gl); fold v; apply Rle_lt_trans with (2 := Em); apply W, Q|].
  intros ys Ry. destruct (log_sums Ry) as (_ & Sy & _). fold v in Sy. apply Rabs_le_inv in Sy.
  assert (T1 : INR (length l) * (6 * u * L) <= INR n * (6 * u * L)) by (apply Rmult_le_compat_r; [apply Rmult_le_pos; lra|lra]).
  set (s := INR n) in *. set (d := s * (u * L)). assert (Hd : 0 <= d) by (apply Rmult_le_pos; [lra|apply Rmult_le_pos; lra]).
  assert (T2 : s * (6 * u * L) = 6 * d) by (unfold d; ring). rewrite T2 in *. assert (T3 : s * s * (32 * u * L) = 32 * (s * d)) by (unfold d; ring). rewrite T3.
  assert (T4 : vq * (4 * (s * u)) <= (s * L + 6 * d) * (4 * (s * u))) by (apply Rmult_le_compat_r; [apply Rmult_le_pos; [lra|apply Rmult_le_pos; lra]|lra]).
  assert (T5 : (s * L + 6 * d) * (4 * (s * u)) = 4 * (s * d) + 24 * (d * (s * u))) by (unfold d; ring). assert (T6 : d * (s * u) <= d * / 16) by (apply Rmult_le_compat_l; lra).
  assert (T7 : d <= s * d) by nra. lra.
Qed.

(** *** In the model *)
Definition c64 (A : arith) (H : A = ieee) (x : f64 A) : b64 := eq_rect A f64 x ieee H.
Lemma sub_rel : forall A (H : A = ieee) a b x z y L, real64 H a = Some x -> real64 H b = Some z -> Rabs (x - y) <= y / 2 ^ 52 -> Rabs (z - L) <= L / 2 ^ 52 -> 0 <= y <= L -> x <= z ->
  log_rel L (c64 H (sub64 A a b)) (y - L).
Proof.
  intros A H. subst A. unfold real64, c64. cbn [eq_rect sub64 ieee]. intros a b x z y L Ha Hb. destruct (is_finite a) eqn:Fa; [|discriminate Ha]. destruct (is_finite b) eqn:Fb; [|discriminate Hb].
  injection Ha as <-. injection Hb as <-. intros. apply edge_rel; assumption.
Qed.
Lemma sub_zero : forall A (H : A = ieee) a b z, real64 H a = None -> ltb64 A a (lit64 A 0 0) = true -> real64 H b = Some z -> c64 H (sub64 A a b) = B754_infinity true.
Proof.
  intros A H. subst A. unfold real64, c64. cbn [eq_rect sub64 ltb64 lit64 ieee]. intros a b z Ha Hl Hb. destruct (is_finite a) eqn:Fa; [discriminate Ha|]. destruct (is_finite b) eqn:Fb; [|discriminate Hb].
  apply edge_zero; assumption.
Qed.
Lemma le_real : forall A (H : A = ieee) a b x z, real64 H a = Some x -> real64 H b = Some z -> le64 a b -> x <= z.
Proof.
  intros A H. subst A. unfold real64. cbn [eq_rect]. intros a b x z Ha Hb (_ & _ & L). destruct (is_finite a) eqn:Fa; [|discriminate Ha]. destruct (is_finite b) eqn:Fb; [|discriminate Hb].
  injection Ha as <-. injection Hb as <-. cbn [ltb64 ieee] in L. rewrite (Bltb_correct _ _ _ _ Fb Fa) in L. destruct (Rlt_bool_spec (B2R b) (B2R a)); [discriminate L|assumption].
Qed.
Lemma lit_real : forall A (H : A = ieee), real64 H (lit64 A 0 0) = Some 0 /\ real64 H (lit64 A 1 0) = Some 1.
Proof.
  intros A H. subst A. unfold real64. cbn [eq_rect lit64 ieee]. split; [reflexivity|]. assert (F : is_finite (lit_64 1 0) = true) by (vm_compute; reflexivity). rewrite F. f_equal.
  assert (S : B2SF (lit_64 1 0) = SpecFloat.S754_finite false 4503599627370496 (-52)) by (vm_compute; reflexivity). destruct (lit_64 1 0) as [s|s| |s m e B]; try discriminate S. cbn [B2SF] in S. injection S as -> -> ->.
  unfold B2R, F2R. cbn [Fnum Fexp cond_Zopp]. change (bpow radix2 (-52)) with (/ 4503599627370496). lra.
Qed.
Lemma fold_cast : forall A (H : A = ieee) X (f : X -> f64 A) l, c64 H (fold_right (fun p acc => add64 A (f p) acc) (lit64 A 0 0) l) = fold_right plus64 (lit_64 0 0) (map (fun p => c64 H (f p)) l).
Proof. intros A H. subst A. intros X f l. unfold c64. cbn [eq_rect add64 lit64 ieee]. induction l as [|p l IH]; [reflexivity|]. cbn [fold_right map]. rewrite IH. reflexivity. Qed.
Lemma le_cast : forall A (H : A = ieee) a b, le64 a b -> Bltb (c64 H b) (c64 H a) = false.
Proof. intros A H. subst A. intros a b (_ & _ & L). exact L. Qed.
Lemma num_cast : forall A (H : A = ieee) a, is_nan (c64 H a) = false -> num64 a.
Proof. intros A H. subst A. intros a N. unfold num64, c64 in *. cbn [eqb64 ieee eq_rect] in *. rewrite (eqb_key N N). apply Req_bool_true. reflexivity. Qed.

Lemma ln_2 : ln 2 < 1.
Proof. rewrite <- (ln_exp 1). apply ln_increasing; [lra|]. pose proof (exp_ineq1 1 ltac:(lra)). lra. Qed.
Lemma ln_big : forall t, 1 < t -> t < bpow radix2 1024 -> 0 <= ln t <= 2000.
Proof.
  intros t H1 H2. split; [rewrite <- ln_1; apply Rlt_le, ln_increasing; lra|]. apply Rle_trans with (ln (bpow radix2 1024)); [apply Rlt_le, ln_increasing; lra|].
  rewrite bpow_powerRZ. change (powerRZ (IZR radix2) 1024) with (2 ^ 1024). rewrite ln_pow by lra. rewrite INR_IZR_INZ. change (Z.of_nat 1024) with 1024%Z. pose proof ln_2. lra.
Qed.
Lemma real_bound : forall A (H : A = ieee) x t, real64 H x = Some t -> t < bpow radix2 1024.
Proof.
  intros A H. subst A. unfold real64. cbn [eq_rect]. intros x t Hx. destruct (is_finite x) eqn:F; [|discriminate Hx]. injection Hx as <-. pose proof (key_fin F) as [K1 K2]. rewrite K1 in K2. apply K2.
Qed.
Lemma prod_exp : forall t l, 0 < t -> Forall (fun a => 1 <= a) l -> fold_right (fun a r => a / t * r) 1 l = exp (rsumR (map (fun a => ln a - ln t) l)).
Proof.
  intros t l Ht H. induction H as [|a l Ha H IH]; [cbn; rewrite exp_0; reflexivity|]. cbn [fold_right map rsumR]. fold (rsumR (map (fun a => ln a - ln t) l)). rewrite IH, exp_plus. f_equal.
  unfold Rminus. rewrite exp_plus, exp_Ropp, !exp_ln by lra. reflexivity.
Qed.

Section D.
  Variable E : env.
  Variable H : ar E = ieee.
  Variable c0 : cfg.
  Variable d : dict E.
  Variable t : R.
  Hypothesis Hr : reachable c0 d.
  Hypothesis LO : log_ok H d t.
  Notation T := (m_log E (d_total d)).
  Notation L := (ln t).
  Notation eg p := (c64 H (edge d T (string_of_runes p))).

  Lemma L_range : 0 <= L <= 2000.
  Proof. apply ln_big; [exact (lo_above LO)|exact (real_bound (lo_total LO))]. Qed.
  Lemma T_real : exists b, real64 H T = Some b /\ Rabs (b - L) <= L / 2 ^ 52.
  Proof. apply (lo_log LO); [left; reflexivity|exact (lo_total LO)|]. pose proof (lo_above LO). lra. Qed.
  Lemma piece_edge : forall w f, w <> [] -> reported d (lit64 E 1 0) w f -> exists a, real64 H f = Some a /\
    (a = 0 /\ c64 H (edge d T w) = B754_infinity true \/ 1 <= a <= t /\ log_rel L (c64 H (edge d T w)) (ln a - L)).
  Proof.
    intros w f Hw Hf. rewrite (edge_reported (reachable_inv Hr) T Hw Hf). destruct T_real as (b & Tb & Ta). destruct (lit_real H) as [Z0 Z1]. pose proof (lo_above LO) as Ht.
    assert (Z : forall g, real64 H g = Some 0 -> exists a, real64 H g = Some a /\ (a = 0 /\ c64 H (sub64 E (m_log E g) T) = B754_infinity true \/ 1 <= a <= t /\ log_rel L (c64 H (sub64 E (m_log E g) T)) (ln a - L))).
    { intros g Hg. exists 0. split; [exact Hg|]. left. split; [reflexivity|]. destruct (lo_zero LO Hg) as [G1 G2]. exact (sub_zero G1 G2 Tb). }
    destruct Hf as [Hf|[(_ & _ & ->)|(_ & ->)]].
    - destruct (lo_freq LO Hf) as (a & Ra & [-> |Ha]); [apply Z, Ra|]. exists a. split; [exact Ra|]. right. split; [exact Ha|].
      destruct (lo_log LO (or_intror (or_intror (ex_intro _ w Hf))) Ra (proj1 Ha)) as (v & V1 & V2). apply (sub_rel V1 Tb V2 Ta); [|exact (le_real V1 Tb (lo_mono LO Hf))].
      split; [rewrite <- ln_1; destruct (Req_dec a 1) as [-> |N]; [lra|apply Rlt_le, ln_increasing; lra]|]. destruct (Req_dec a t) as [-> |N]; [lra|apply Rlt_le, ln_increasing; lra].
    - apply Z, Z0.
    - exists 1. split; [exact Z1|]. right. split; [lra|]. destruct (lo_log LO (or_intror (or_introl eq_refl)) Z1 ltac:(lra)) as (v & V1 & V2). pose proof L_range as HL. rewrite ln_1 in *.
      apply (sub_rel V1 Tb V2 Ta); [lra|]. replace (0 / 2 ^ 52) with 0 in V2 by lra. apply Rabs_le_inv in V2. apply Rabs_le_inv in Ta. lra.
  Qed.
  Lemma reported_ex : forall w, exists f, reported d (lit64 E 1 0) w f.
  Proof.
    intro w. destruct (classic (exists g, stored d w g)) as [(g & Hg)|N]; [exists g; left; exact Hg|]. destruct (classic (exists x g, stored d (w ++ x) g)) as [Hx|Nx].
    - exists (lit64 E 0 0). right. left. split; [intros g Hg; apply N; exists g; exact Hg|]. split; [exact Hx|reflexivity].
    - exists (lit64 E 1 0). right. right. split; [intros x g Hg; apply Nx; exists x, g; exact Hg|reflexivity].
  Qed.
  Lemma tiles_pieces : forall rs ps, tiles d rs ps -> Forall (fun p => string_of_runes p <> []) ps /\ (length ps <= length rs)%nat.
  Proof.
    intros rs ps K. induction K as [|p rest ps Hp _ K [I1 I2]|a rest ps _ K [I1 I2]]; [split; [constructor|cbn; lia]| |].
    - split; [constructor; [apply string_nonempty, Hp|exact I1]|]. rewrite app_length. cbn [length]. destruct p; [congruence|cbn [length]; lia].
    - split; [constructor; [apply string_nonempty; discriminate|exact I1]|]. cbn [length]. lia.
  Qed.
  Lemma edges_neg : forall ps, Forall (fun p => string_of_runes p <> []) ps -> Forall neg (map (fun p => eg p) ps).
  Proof.
    intros ps K. induction K as [|p ps Hp K IH]; [constructor|]. cbn [map]. constructor; [|exact IH]. destruct (reported_ex (string_of_runes p)) as (f & Hf).
    destruct (piece_edge Hp Hf) as (a & _ & [(_ & ->)|(_ & F & N & _)]).
    - split; [reflexivity|]. cbn [key]. assert (0 < bpow radix2 1024) by apply bpow_gt_0. lra.
    - split; [destruct (eg p); try discriminate F; reflexivity|]. rewrite (proj1 (key_fin F)). lra.
  Qed.
  Lemma weight_fold : forall ps, c64 H (weight d T ps) = fold_right plus64 (lit_64 0 0) (map (fun p => eg p) ps).
  Proof. intro ps. unfold weight. apply fold_cast. Qed.
  Lemma weights_num : forall rs ps, tiles d rs ps -> num64 (weight d T ps).
  Proof.
    intros rs ps K. apply num_cast with H. rewrite weight_fold. apply tiles_pieces in K as [K _].
    assert (Z0 : neg (lit_64 0 0)) by (split; [reflexivity|cbn; lra]).
    apply (@sum_bounds_r 53 1024 prec64 max64 (-1) _ (lit_64 0 0) (or_intror eq_refl) Z0 (edges_neg K)).
  Qed.
  Notation reads := (fun p a => exists f, reported d (lit64 E 1 0) (string_of_runes p) f /\ real64 H f = Some a).
  Lemma reads_ex : forall ps, Forall (fun p => string_of_runes p <> []) ps -> exists l, Forall2 reads ps l.
  Proof.
    intros ps K. induction K as [|p ps Hp K (l & IH)]; [exists []; constructor|]. destruct (reported_ex (string_of_runes p)) as (f & Hf). destruct (piece_edge Hp Hf) as (a & Ha & _).
    exists (a :: l). constructor; [exists f; auto|exact IH].
  Qed.
  Lemma reads_cases : forall ps l, Forall (fun p => string_of_runes p <> []) ps -> Forall2 reads ps l ->
    (Forall (fun a => 1 <= a) l /\ Forall2 (log_rel L) (map (fun p => eg p) ps) (map (fun a => ln a - L) l)) \/
    (fold_right (fun a r => a / t * r) 1 l = 0 /\ ~ Forall (fun x => is_finite x = true) (map (fun p => eg p) ps)).
  Proof.
    intros ps l K R. induction R as [|p a ps l (f & F1 & F2) R IH]; [left; split; constructor|]. inversion K as [|? ? Hp K']; subst. destruct (piece_edge Hp F1) as (a' & Ha & C). rewrite F2 in Ha. injection Ha as <-.
    cbn [map fold_right]. destruct (IH K') as [[I1 I2]|[I1 I2]]; [|right; split; [rewrite I1; ring|intro X; inversion X; contradiction]].
    destruct C as [(-> & C)|(Ha & C)]; [right; split; [unfold Rdiv; ring|rewrite C; intro X; inversion X as [|? ? X1 X2]; discriminate X1]|]. left. split; constructor; (assumption || lra).
  Qed.
  Lemma prod_pos : forall l, Forall (fun a => 0 <= a) l -> 0 <= fold_right (fun a r => a / t * r) 1 l.
  Proof.
    intros l K. pose proof (lo_above LO). induction K as [|a l Ha K IH]; [cbn; lra|]. cbn [fold_right]. apply Rmult_le_pos; [|exact IH]. unfold Rdiv. apply Rmult_le_pos; [exact Ha|]. apply Rlt_le, Rinv_0_lt_compat. lra.
  Qed.
  Lemma power_one : forall x, 0 <= x -> 1 <= Rpower t x.
  Proof. intros x Hx. unfold Rpower. rewrite <- exp_0. destruct (Req_dec (x * L) 0) as [-> |N]; [lra|]. apply Rlt_le, exp_increasing. pose proof L_range. assert (0 <= x * L) by (apply Rmult_le_pos; lra). lra. Qed.

  Lemma best_near : forall rs ps, best_cut d T rs ps -> INR (length rs) <= 2 ^ 20 -> exists p, reading_prob H d t ps p /\
    forall qs q, tiles d rs qs -> reading_prob H d t qs q -> q <= p * Rpower t (INR (length rs) * INR (length rs) / 2 ^ 48).
  Proof.
    intros rs ps [Hps Hbest] Hn. destruct (tiles_pieces Hps) as [Np Lp]. destruct (reads_ex Np) as (l & Rl). exists (fold_right (fun a r => a / t * r) 1 l). split; [exists l; auto|].
    intros qs q Hqs (lq & Rq & ->). destruct (tiles_pieces Hqs) as [Nq Lq]. pose proof (lo_above LO) as Ht. set (n := length rs) in *. assert (N0 : 0 <= INR n) by apply pos_INR.
    assert (X0 : 0 <= INR n * INR n / 2 ^ 48) by (unfold Rdiv; apply Rmult_le_pos; [nra|apply Rlt_le, Rinv_0_lt_compat; lra]). pose proof (power_one X0) as P1.
    destruct (reads_cases Nq Rq) as [[Q1 Q2]|[Q1 _]].
    - destruct (Nat.eq_dec n 0) as [E0|E0].
      { destruct qs; [|cbn [length] in Lq; lia]. destruct ps; [|cbn [length] in Lp; lia]. inversion Rq; subst. inversion Rl; subst. cbn [fold_right]. lra. }
      destruct (Hbest qs Hqs) as [B _]. apply (le_cast H) in B. rewrite !weight_fold in B.
      destruct (@near_logs L (map (fun p => eg p) ps) (map (fun p => eg p) qs) (map (fun a => ln a - L) lq) n L_range) as [F G]; [rewrite map_length; exact Lp|rewrite map_length; exact Lq|lia|exact Hn|exact (edges_neg Np)|exact Q2|exact B|].
      destruct (reads_cases Np Rl) as [[P2 P3]|[_ P2]]; [|contradiction]. specialize (G _ P3). rewrite !prod_exp by (assumption || lra). unfold Rpower. rewrite <- exp_plus.
      apply Rle_trans with (exp (rsumR (map (fun a => ln a - L) l) + INR n * INR n * (32 * u * L))).
      + destruct (Req_dec (rsumR (map (fun a => ln a - L) lq)) (rsumR (map (fun a => ln a - L) l) + INR n * INR n * (32 * u * L))) as [-> |Ne]; [lra|]. apply Rlt_le, exp_increasing. lra.
      + apply Req_le. do 2 f_equal. rewrite u_val. lra.
    - rewrite Q1. apply Rmult_le_pos; [|lra]. apply prod_pos. destruct (reads_cases Np Rl) as [[P2 _]|_]; [eapply Forall_impl; [|exact P2]; cbn; intros; lra|].
      clear -Rl Np LO Hr. induction Rl as [|p a ps l (f & F1 & F2) R IH]; [constructor|]. inversion Np as [|? ? Hp K']; subst. destruct (piece_edge Hp F1) as (a' & Ha & C). rewrite F2 in Ha. injection Ha as <-.
      constructor; [destruct C as [(-> & _)|(C & _)]; lra|apply IH, K'].
  Qed.
End D.
