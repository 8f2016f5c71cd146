(** The segmentation that Segment returns is nearly shortest in exact arithmetic. *)
From Verif Require Import S_Near P_Ieee P_Sum P_Seg3.
From Coq Require Import ZArith Reals Lra Lia List.
From Flocq Require Import Core IEEE754.BinarySingleNaN.
Import ListNotations.
Set Implicit Arguments. Unset Strict Implicit.

Local Open Scope R_scope.
Notation u32 := (bpow radix2 (-24)).
Notation key32 := (@key 24 128).
Notation good32 := (@good 24 128 1).
Notation plus32 := (@Bplus 24 128 prec32 max32 mode_NE).

Lemma reals_sum : forall (l : list b32) xs, Forall2 (fun x y => (if is_finite x then Some (B2R x) else None) = Some y) l xs ->
  rsum 1 l = fold_right Rplus 0 xs.
Proof.
  intros l xs H. induction H as [|x y l xs H1 H2 IH]; [reflexivity|]. cbn [rsum fold_right]. fold (rsum 1 l). destruct (is_finite x) eqn:F; [|discriminate H1]. injection H1 as <-.
  rewrite (proj1 (key_fin F)), IH. ring.
Qed.
Lemma sum_reals : forall (l : list b32), Forall good32 l -> rsum 1 l < bpow radix2 128 ->
  exists xs, Forall2 (fun x y => (if is_finite x then Some (B2R x) else None) = Some y) l xs.
Proof.
  intros l H. induction H as [|x l Hx Hl IH]; intro B; [exists []; constructor|]. cbn [rsum fold_right] in B. fold (rsum 1 l) in B.
  pose proof (rsum_pos Hl) as P. destruct Hx as [N K]. destruct IH as (xs & IH); [lra|].
  destruct (is_fin_dec N) as [F|[F|F]]; [|subst x; cbn [key] in *; assert (0 < bpow radix2 128) by apply bpow_gt_0; lra ..].
  exists (B2R x :: xs). constructor; [rewrite F; reflexivity|exact IH].
Qed.

(** [l] has the smaller float32 sum. *)
Lemma near_sums : forall (l l' : list b32) n xs', (length l <= n)%nat -> (length l' <= n)%nat -> INR n * u32 <= / 16 ->
  Forall good32 l -> Forall good32 l' -> @Bltb 24 128 (fold_left plus32 l' (lit_32 0 0)) (fold_left plus32 l (lit_32 0 0)) = false ->
  Forall2 (fun x y => (if is_finite x then Some (B2R x) else None) = Some y) l' xs' -> fold_right Rplus 0 xs' <= bpow radix2 127 ->
  exists xs, Forall2 (fun x y => (if is_finite x then Some (B2R x) else None) = Some y) l xs /\
             fold_right Rplus 0 xs <= fold_right Rplus 0 xs' * (1 + INR n * bpow radix2 (-22)).
Proof.
  intros l l' n xs' Hl Hl' Hn G G' B H' T. rewrite <- (reals_sum H') in *. clear H'.
  assert (Z0 : good32 (lit_32 0 0)) by (split; [reflexivity|cbn; lra]). assert (K0 : key32 (lit_32 0 0) = 0) by reflexivity.
  destruct (@sum_bounds 24 128 prec32 max32 1 l (lit_32 0 0) (or_introl eq_refl) Z0 G) as ([N1 P1] & U1 & L1).
  destruct (@sum_bounds 24 128 prec32 max32 1 l' (lit_32 0 0) (or_introl eq_refl) Z0 G') as ([N2 P2] & U2 & _).
  apply (proj1 (le_key N1 N2)) in B. rewrite K0 in *. change (- (24))%Z with (-24)%Z in *.
  set (a := fold_left plus32 l (lit_32 0 0)) in *. set (b := fold_left plus32 l' (lit_32 0 0)) in *. clearbody a b.
  pose proof (rsum_pos G) as R1. pose proof (rsum_pos G') as R2. set (r := rsum 1 l) in *. set (r' := rsum 1 l') in *. 
  replace (1 * 0 + r) with r in * by ring. replace (1 * 0 + r') with r' in * by ring. rewrite !Rmult_1_l in *.
  assert (Hu : 0 <= u32) by apply bpow_ge_0. assert (E : bpow radix2 128 = 2 * bpow radix2 127) by (change 128%Z with (1 + 127)%Z; rewrite bpow_plus; reflexivity).
  assert (E22 : bpow radix2 (-22) = 4 * u32) by (change (-22)%Z with (2 + -24)%Z; rewrite bpow_plus; reflexivity).
  assert (Hb : key32 b <= 5 / 4 * r').
  { assert (Q : key32 b * 1 <= r' * (1 + 4 * (INR n * u32))).
    2: { assert (r' * (1 + 4 * (INR n * u32)) <= r' * (5 / 4)) by (apply Rmult_le_compat_l; lra). lra. }
    rewrite Rmult_1_r. apply (@ratio u32 n 0 (length l') (key32 b) r'); auto; [lia|]. cbn [pow]. lra. }
  assert (T0 : 0 < bpow radix2 127) by apply bpow_gt_0. assert (Ha : key32 a < bpow radix2 128) by lra. specialize (L1 Ha).
  assert (Q : r <= r' * (1 + 4 * (INR n * u32))). { apply (@ratio u32 n (length l) (length l') r r'); auto. lra. }
  assert (Q2 : r < bpow radix2 128). { assert (r' * (1 + 4 * (INR n * u32)) <= r' * (5 / 4)) by (apply Rmult_le_compat_l; lra). lra. }
  destruct (@sum_reals l G Q2) as (xs & Hx). exists xs. split; [exact Hx|]. rewrite <- (reals_sum Hx), E22. fold r. replace (INR n * (4 * u32)) with (4 * (INR n * u32)) by ring. exact Q.
Qed.

Lemma near_arith : forall A (H : A = ieee) (l l' : list (f32 A)) n xs', (length l <= n)%nat -> (length l' <= n)%nat -> INR n * u32 <= / 16 ->
  (forall x, In x l \/ In x l' -> ltb32 A (lit32 A 0 0) x = true \/ x = lit32 A 0 0) ->
  ltb32 A (fold_left (add32 A) l' (lit32 A 0 0)) (fold_left (add32 A) l (lit32 A 0 0)) = false ->
  Forall2 (fun x y => real32 H x = Some y) l' xs' -> fold_right Rplus 0 xs' <= bpow radix2 127 ->
  exists xs, Forall2 (fun x y => real32 H x = Some y) l xs /\ fold_right Rplus 0 xs <= fold_right Rplus 0 xs' * (1 + INR n * bpow radix2 (-22)).
Proof.
  intros A H. subst A. intros l l' n xs' H1 H2 H3 G B F T. cbn [f32 ieee] in *.
  assert (Gd : forall x : b32, In x l \/ In x l' -> good32 x).
  { intros x Hx. destruct (G x Hx) as [K| ->]; [|split; [reflexivity|cbn; lra]]. cbn [ltb32 lit32 ieee] in K. destruct (ltb_not_nan K) as [_ N].
    split; [exact N|]. apply (proj1 (@lt_key 24 128 (lit_32 0 0) x eq_refl N)) in K. cbn [key] in K. change (key32 (lit_32 0 0)) with 0 in K. lra. }
  apply (@near_sums l l' n xs'); auto; apply Forall_forall; intros x Hx; apply Gd; auto.
Qed.

Lemma pieces_length : forall E (d : dict E) ps rs, Forall2 (piece d) ps rs -> (length rs <= length (concat ps))%nat.
Proof.
  intros E d ps rs H. induction H as [|p r ps rs H1 H2 IH]; [cbn; lia|]. cbn [concat length]. rewrite app_length. assert (p <> []) by (inversion H1; subst; [assumption|discriminate]).
  destruct p; [congruence|cbn [length]; lia].
Qed.
Lemma forall2_map : forall X Y Z (f : X -> Y) (P : Y -> Z -> Prop) l zs, Forall2 (fun x z => P (f x) z) l zs <-> Forall2 P (map f l) zs.
Proof.
  intros X Y Z f P l. induction l as [|x l IH]; intros zs; split; intro H; inversion H; subst; constructor; auto; apply IH; assumption.
Qed.
Lemma cost_map : forall E (d : dict E) rs a, fold_left (fun a r => add32 E a (dist_of d r)) rs a = fold_left (add32 E) (map (dist_of d) rs) a.
Proof. intros E d rs. induction rs as [|r rs IH]; intro a; [reflexivity|]. cbn [fold_left map]. apply IH. Qed.
Lemma Forall2_in_r : forall X Y (P : X -> Y -> Prop) l l' y, Forall2 P l l' -> In y l' -> exists x, In x l /\ P x y.
Proof.
  intros X Y P l l' y H. induction H as [|x z l l' H1 H2 IH]; intro Hy; [destruct Hy|]. destruct Hy as [<- |Hy]; [exists x; split; [left; reflexivity|exact H1]|].
  destruct (IH Hy) as (x' & Hx & Hp). exists x'. split; [right; exact Hx|exact Hp].
Qed.
Lemma lit_32_pos : forall A, A = ieee -> ltb32 A (lit32 A 0 0) (lit32 A 32 0) = true.
Proof. intros A ->. vm_compute. reflexivity. Qed.

Lemma c102 : forall (E : env) c (d : dict E) s m ws segs (H : ar E = ieee), reachable c d ->
  (forall w v t, dict_value d w = Some v -> nth_error (d_tokens d) v = Some t -> ltb32 E (lit32 E 0 0) (t_dist t) = true) ->
  split_words E c s = Ok ws -> internal_segment c (Some d) s m = Ok segs -> (m = true -> (2 <= length ws)%nat) -> INR (length ws) <= 2 ^ 20 ->
  forall rs r, tiling d ws rs -> (m = true -> length rs <> 1%nat) -> exact_length H d rs r -> r <= 2 ^ 127 ->
  exists r0, exact_length H d (map sg_tok segs) r0 /\ r0 <= r * (1 + INR (length ws) / 2 ^ 22).
Proof.
  intros E c d s m ws segs H Hr Hp Hs Hseg Hm Hn rs r Ht Hl (xs' & Fx & Er) Hb. destruct (c02 H Hr Hp Hs Hseg Hm) as [T0 Opt]. specialize (Opt rs Ht Hl). unfold cost in Opt. rewrite !cost_map in Opt.
  assert (D : forall rs x, tiling d ws rs -> In x (map (dist_of d) rs) -> ltb32 E (lit32 E 0 0) x = true \/ x = lit32 E 0 0).
  { intros q x (ps & _ & F) Hx. apply in_map_iff in Hx as (t & <- & Hi). destruct (Forall2_in_r F Hi) as (p & _ & Hpc). unfold dist_of. destruct Hpc as [p v _ V|w V]; cbn [deref].
    - unfold get. destruct (nth_error (d_tokens d) v) as [tk|] eqn:N; [left; exact (Hp _ _ _ V N)|right; reflexivity].
    - left. cbn [fallback_token t_dist]. apply lit_32_pos, H. }
  assert (L : forall rs, tiling d ws rs -> (length (map (dist_of d) rs) <= length ws)%nat). { intros q (ps & <- & F). rewrite map_length. apply (pieces_length F). }
  assert (E22 : bpow radix2 (-22) = / 2 ^ 22) by (change (/ IZR 4194304 = / 2 ^ 22); f_equal; lra).
  assert (E127 : bpow radix2 127 = 2 ^ 127) by (rewrite bpow_powerRZ; reflexivity).
  destruct (@near_arith (ar E) H (map (dist_of d) (map sg_tok segs)) (map (dist_of d) rs) (length ws) xs') as (xs & F1 & F2); auto.
  - assert (Q : INR (length ws) * u32 <= 2 ^ 20 * u32) by (apply Rmult_le_compat_r; [apply bpow_ge_0|exact Hn]). apply Rle_trans with (1 := Q). assert (E24 : u32 = / 2 ^ 24) by (change (/ IZR 16777216 = / 2 ^ 24); f_equal; lra). rewrite E24. lra.
  - intros x [Hx|Hx]; [exact (D _ _ T0 Hx)|exact (D _ _ Ht Hx)].
  - apply forall2_map. exact Fx.
  - rewrite E127, <- Er. exact Hb.
  - exists (fold_right Rplus 0 xs). split; [exists xs; split; [apply (proj2 (@forall2_map _ _ _ (dist_of d) (fun x y => real32 H x = Some y) (map sg_tok segs) xs)), F1|reflexivity]|]. rewrite Er. unfold Rdiv. rewrite <- E22. exact F2.
Qed.
