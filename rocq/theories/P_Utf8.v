(** Facts about UTF-8 decoding and encoding. *)
From Verif Require Import M_Utf8.
From Coq Require Import ZifyBool ZifyNat ZifyN.
Ltac Zify.zify_post_hook ::= Z.div_mod_to_equations.
Local Open Scope Z_scope.
Set Implicit Arguments. Unset Strict Implicit.

Lemma decode_size : forall s, s <> [] ->
  (1 <= snd (decode_rune s) <= 4 /\ snd (decode_rune s) <= List.length s)%nat.
Proof.
  intros [|b0 t] H; [congruence|]. unfold decode_rune. clear H.
  destruct t as [|b1 [|b2 [|b3 t]]]; cbv zeta;
    repeat match goal with |- context [if ?c then _ else _] => destruct c end;
    cbn [snd List.length]; lia.
Qed.

(** Decoding only looks at the bytes it consumes; truncation after them changes nothing. *)
Lemma decode_app : forall p q, p <> [] -> (snd (decode_rune (p ++ q)) <= List.length p)%nat ->
  decode_rune p = decode_rune (p ++ q).
Proof.
  intros [|b0 p] q Hp; [congruence|]. clear Hp. unfold decode_rune. cbv zeta.
  destruct p as [|b1 [|b2 [|b3 p]]]; cbn [List.app List.length];
    destruct q as [|c1 [|c2 [|c3 q]]]; cbn [List.app];
    repeat match goal with |- context [if ?c then _ else _] => destruct c end;
    cbn [snd]; intros; try reflexivity; lia.
Qed.

Lemma decode_app_invalid : forall p q, p <> [] ->
  (snd (decode_rune (p ++ q)) <= List.length p)%nat \/ decode_rune p = (RuneError, 1%nat).
Proof.
  intros [|b0 p] q Hp; [congruence|]. clear Hp. unfold decode_rune. cbv zeta.
  destruct p as [|b1 [|b2 [|b3 p]]]; cbn [List.app List.length];
    destruct q as [|c1 [|c2 [|c3 q]]]; cbn [List.app];
    repeat match goal with |- context [if ?c then _ else _] => destruct c end;
    cbn [snd]; intros; auto; left; lia.
Qed.

Lemma units_fuel_enough : forall f s, (List.length s <= f)%nat -> units_fuel f s = units s.
Proof.
  unfold units.
  assert (H : forall n f s, (List.length s <= n)%nat -> (List.length s <= f)%nat ->
             units_fuel f s = units_fuel n s).
  { induction n as [|n IH]; intros f s Hn Hf.
    - destruct s; [destruct f; reflexivity|cbn in Hn; lia].
    - destruct s as [|b s]; [destruct f; reflexivity|].
      destruct f as [|f]; [cbn in Hf; lia|]. cbn [units_fuel].
      pose proof (@decode_size (b :: s) ltac:(congruence)) as [[H1 _] H2].
      f_equal. apply IH; rewrite skipn_length; cbn [List.length] in *; lia. }
  intros f s Hf. apply H; [reflexivity|exact Hf].
Qed.

Lemma units_nil : units [] = [].
Proof. reflexivity. Qed.

Lemma units_cons : forall s, s <> [] ->
  units s = (fst (decode_rune s), firstn (snd (decode_rune s)) s) :: units (skipn (snd (decode_rune s)) s).
Proof.
  intros s Hs. destruct s as [|b t]; [congruence|].
  unfold units at 1. cbn [List.length units_fuel]. f_equal.
  apply units_fuel_enough. rewrite skipn_length.
  pose proof (@decode_size (b :: t) ltac:(congruence)) as [[H1 _] H2]. cbn [List.length] in *. lia.
Qed.

(** Induction over the units of a string. *)
Lemma units_ind : forall (P : bytes -> Prop),
  P [] ->
  (forall s, s <> [] -> P (skipn (snd (decode_rune s)) s) -> P s) ->
  forall s, P s.
Proof.
  intros P H0 Hs s. remember (List.length s) as n eqn:Hn.
  revert s Hn; induction n as [n IH] using (well_founded_induction lt_wf); intros s Hn.
  destruct s as [|b t]; [exact H0|]. apply Hs; [congruence|].
  pose proof (@decode_size (b :: t) ltac:(congruence)) as [[H1 _] H2].
  apply (IH (List.length (skipn (snd (decode_rune (b :: t))) (b :: t)))); [|reflexivity].
  rewrite skipn_length. cbn [List.length] in *. lia.
Qed.

Lemma units_concat : forall s, List.concat (List.map snd (units s)) = s.
Proof.
  apply units_ind; [reflexivity|]. intros s Hs IH. rewrite units_cons by exact Hs.
  cbn [List.map List.concat snd]. rewrite IH. apply firstn_skipn.
Qed.

Lemma units_nonempty : forall s, Forall (fun u => snd u <> []) (units s).
Proof.
  apply units_ind; [constructor|]. intros s Hs IH. rewrite units_cons by exact Hs.
  constructor; [|exact IH]. cbn [snd].
  pose proof (@decode_size s Hs) as [[H1 _] H2]. destruct s; [congruence|].
  destruct (snd (decode_rune (b :: s))); [lia|cbn; congruence].
Qed.

(** Each unit decodes, by itself, to its rune. *)
Lemma units_decode : forall s, Forall (fun u => decode_rune (snd u) = (fst u, List.length (snd u))) (units s).
Proof.
  apply units_ind; [constructor|]. intros s Hs IH. rewrite units_cons by exact Hs.
  constructor; [|exact IH]. cbn [snd fst].
  pose proof (@decode_size s Hs) as [[H1 _] H2].
  rewrite firstn_length, Nat.min_l by exact H2.
  rewrite (@decode_app (firstn (snd (decode_rune s)) s) (skipn (snd (decode_rune s)) s)).
  - rewrite firstn_skipn. apply surjective_pairing.
  - intro Hc. apply (f_equal (@List.length _)) in Hc. rewrite firstn_length in Hc. cbn in Hc. lia.
  - rewrite firstn_skipn, firstn_length. lia.
Qed.

(** Splitting after a whole number of units. *)
Lemma units_app : forall us vs s, units s = us ++ vs ->
  units (List.concat (List.map snd us)) = us /\ units (List.concat (List.map snd vs)) = vs.
Proof.
  induction us as [|u us IH]; intros vs s H.
  - cbn in *. split; [reflexivity|]. rewrite <- H, units_concat. rewrite H. reflexivity.
  - assert (Hs : s <> []) by (intro Hc; rewrite Hc in H; discriminate H).
    rewrite (units_cons Hs) in H. cbn [List.app] in H.
    assert (Hu : (fst (decode_rune s), firstn (snd (decode_rune s)) s) = u) by congruence.
    assert (Hr : units (skipn (snd (decode_rune s)) s) = us ++ vs) by congruence. clear H. subst u.
    destruct (IH _ _ Hr) as [H1 H2]. split; [|exact H2].
    set (n := snd (decode_rune s)) in *.
    pose proof (@decode_size s Hs) as [[Hp _] Hl]. fold n in Hp, Hl.
    cbn [List.map List.concat snd].
    set (q := List.concat (List.map snd us)) in *.
    assert (Hsplit : s = (firstn n s ++ q) ++ List.concat (List.map snd vs)).
    { rewrite <- app_assoc. rewrite <- (firstn_skipn n s) at 1. f_equal.
      rewrite <- (units_concat (skipn n s)), Hr, map_app, concat_app. reflexivity. }
    assert (Hlen : List.length (firstn n s) = n) by (rewrite firstn_length; lia).
    assert (Hd : decode_rune (firstn n s ++ q) = decode_rune s).
    { rewrite Hsplit at 2. apply decode_app.
      - intro Hc. apply app_eq_nil in Hc as [Hc _]. rewrite Hc in Hlen. cbn in Hlen. lia.
      - rewrite <- Hsplit. fold n. rewrite app_length. lia. }
    rewrite units_cons.
    + rewrite Hd. fold n. rewrite firstn_app, Hlen, Nat.sub_diag. cbn [firstn].
      rewrite app_nil_r, firstn_firstn, Nat.min_id.
      rewrite skipn_app, Hlen, Nat.sub_diag. cbn [skipn].
      rewrite (skipn_all2 (firstn n s)) by lia. cbn [List.app]. rewrite H1. reflexivity.
    + intro Hc. apply app_eq_nil in Hc as [Hc _]. rewrite Hc in Hlen. cbn in Hlen. lia.
Qed.

(* ---------------- encode / decode ---------------- *)

Lemma enc_length : forall r, scalar r = true ->
  List.length (enc r) = (if r <? 128 then 1%nat else if r <? 2048 then 2%nat else if r <? 65536 then 3%nat else 4%nat).
Proof.
  intros r _. unfold enc.
  destruct (r <? 128); [reflexivity|]. destruct (r <? 2048); [reflexivity|].
  destruct (r <? 65536); reflexivity.
Qed.

Lemma decode_enc : forall r t, scalar r = true -> decode_rune (enc r ++ t) = (r, List.length (enc r)).
Proof.
  intros r t Hs. unfold scalar, in_range in Hs. unfold enc.
  destruct (Z.ltb_spec r 128).
  { cbn [List.app decode_rune]. cbv zeta. rewrite bz_zb by lia.
    destruct (Z.ltb_spec r 128); [reflexivity|lia]. }
  destruct (Z.ltb_spec r 2048).
  { cbn [List.app decode_rune]. cbv zeta. unfold cont, in_range.
    rewrite !bz_zb by lia.
    destruct (Z.ltb_spec (192 + r / 64) 128); [lia|].
    destruct (Z.ltb_spec (192 + r / 64) 194); [lia|].
    destruct (Z.ltb_spec (192 + r / 64) 224); [|lia].
    destruct ((128 <=? 128 + r mod 64) && (128 + r mod 64 <=? 191)) eqn:?; [|lia].
    cbn [List.length]. f_equal. lia. }
  destruct (Z.ltb_spec r 65536).
  { cbn [List.app decode_rune]. cbv zeta. unfold cont, in_range.
    rewrite !bz_zb by lia.
    destruct (Z.ltb_spec (224 + r / 4096) 128); [lia|].
    destruct (Z.ltb_spec (224 + r / 4096) 194); [lia|].
    destruct (Z.ltb_spec (224 + r / 4096) 224); [lia|].
    destruct (Z.ltb_spec (224 + r / 4096) 240); [|lia].
    match goal with |- (if ?c then _ else _) = _ => destruct c eqn:? end.
    - cbn [List.length]. f_equal. lia.
    - exfalso. destruct (224 + r / 4096 =? 224) eqn:?, (224 + r / 4096 =? 237) eqn:?; lia. }
  cbn [List.app decode_rune]. cbv zeta. unfold cont, in_range.
  rewrite !bz_zb by lia.
  destruct (Z.ltb_spec (240 + r / 262144) 128); [lia|].
  destruct (Z.ltb_spec (240 + r / 262144) 194); [lia|].
  destruct (Z.ltb_spec (240 + r / 262144) 224); [lia|].
  destruct (Z.ltb_spec (240 + r / 262144) 240); [lia|].
  destruct (Z.ltb_spec (240 + r / 262144) 245); [|lia].
  match goal with |- (if ?c then _ else _) = _ => destruct c eqn:? end.
  - cbn [List.length]. f_equal. lia.
  - exfalso. destruct (240 + r / 262144 =? 240) eqn:?, (240 + r / 262144 =? 244) eqn:?; lia.
Qed.

(** A decoded unit is either the encoding of its (scalar) rune, or an invalid byte. *)
Lemma decode_cases : forall s r n, s <> [] -> decode_rune s = (r, n) ->
  (scalar r = true /\ firstn n s = enc r) \/ (r = RuneError /\ n = 1%nat /\ exists b t, s = b :: t /\ 128 <= bz b).
Proof.
  intros [|b0 t] r n Hs H; [congruence|]. clear Hs. unfold decode_rune in H. cbv zeta in H.
  pose proof (bz_range b0) as R0. unfold cont, in_range in H.
  destruct (Z.ltb_spec (bz b0) 128) as [C0|C0].
  { inversion H; subst. left. unfold scalar, in_range, enc. split; [lia|].
    destruct (Z.ltb_spec (bz b0) 128); [|lia]. cbn. rewrite zb_bz. reflexivity. }
  assert (Hinv : (r, n) = (RuneError, 1%nat) ->
     (scalar r = true /\ firstn n (b0 :: t) = enc r) \/
     (r = RuneError /\ n = 1%nat /\ exists b t', b0 :: t = b :: t' /\ 128 <= bz b)).
  { intro Hx; inversion Hx; subst; right; split; [reflexivity|split; [reflexivity|exists b0, t; auto]]. }
  destruct (Z.ltb_spec (bz b0) 194) as [C1|C1]; [apply Hinv; congruence|].
  destruct (Z.ltb_spec (bz b0) 224) as [C2|C2].
  { destruct t as [|b1 t]; [apply Hinv; congruence|].
    pose proof (bz_range b1) as R1.
    match type of H with (if ?c then _ else _) = _ => destruct c eqn:E end; [|apply Hinv; congruence].
    inversion H as [[Hr Hn]]. left. unfold scalar, in_range, enc.
    set (r' := (bz b0 - 192) * 64 + (bz b1 - 128)) in *.
    split; [lia|].
    destruct (Z.ltb_spec r' 128); [lia|]. destruct (Z.ltb_spec r' 2048); [|lia].
    cbn [firstn].
    replace (192 + r' / 64) with (bz b0) by lia. replace (128 + r' mod 64) with (bz b1) by lia.
    rewrite !zb_bz. reflexivity. }
  destruct (Z.ltb_spec (bz b0) 240) as [C3|C3].
  { destruct t as [|b1 [|b2 t]]; [apply Hinv; congruence|apply Hinv; congruence|].
    pose proof (bz_range b1) as R1. pose proof (bz_range b2) as R2.
    match type of H with (if ?c then _ else _) = _ => destruct c eqn:E end; [|apply Hinv; congruence].
    inversion H as [[Hr Hn]]. left. unfold scalar, in_range, enc.
    set (r' := (bz b0 - 224) * 4096 + (bz b1 - 128) * 64 + (bz b2 - 128)) in *.
    destruct (bz b0 =? 224) eqn:E224; destruct (bz b0 =? 237) eqn:E237; try lia.
    all: split; [lia|].
    all: destruct (Z.ltb_spec r' 128); [lia|]; destruct (Z.ltb_spec r' 2048); [lia|];
      destruct (Z.ltb_spec r' 65536); [|lia];
      cbn [firstn];
      replace (224 + r' / 4096) with (bz b0) by lia;
      replace (128 + (r' / 64) mod 64) with (bz b1) by lia;
      replace (128 + r' mod 64) with (bz b2) by lia;
      rewrite !zb_bz; reflexivity. }
  destruct (Z.ltb_spec (bz b0) 245) as [C4|C4]; [|apply Hinv; congruence].
  destruct t as [|b1 [|b2 [|b3 t]]]; [apply Hinv; congruence|apply Hinv; congruence|apply Hinv; congruence|].
  pose proof (bz_range b1) as R1. pose proof (bz_range b2) as R2. pose proof (bz_range b3) as R3.
  match type of H with (if ?c then _ else _) = _ => destruct c eqn:E end; [|apply Hinv; congruence].
  inversion H as [[Hr Hn]]. left. unfold scalar, in_range, enc.
  set (r' := (bz b0 - 240) * 262144 + (bz b1 - 128) * 4096 + (bz b2 - 128) * 64 + (bz b3 - 128)) in *.
  destruct (bz b0 =? 240) eqn:E240; destruct (bz b0 =? 244) eqn:E244; try lia.
  all: split; [lia|].
  all: destruct (Z.ltb_spec r' 128); [lia|]; destruct (Z.ltb_spec r' 2048); [lia|];
    destruct (Z.ltb_spec r' 65536); [lia|];
    cbn [firstn];
    replace (240 + r' / 262144) with (bz b0) by lia;
    replace (128 + (r' / 4096) mod 64) with (bz b1) by lia;
    replace (128 + (r' / 64) mod 64) with (bz b2) by lia;
    replace (128 + r' mod 64) with (bz b3) by lia;
    rewrite !zb_bz; reflexivity.
Qed.
