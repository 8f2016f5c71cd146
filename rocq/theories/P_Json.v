(** Reading back what the server writes. *)
From Verif Require Import M_Server S_Json S_Chars P_Utf8 P_Utf8b P_Chars.
Set Implicit Arguments. Unset Strict Implicit.
Local Open Scope lit_scope.
Local Open Scope Z_scope.

Lemma runes_app_enc : forall l rest, Forall (fun r => scalar r = true) l -> runes_of (concat (map enc l) ++ rest) = l ++ runes_of rest.
Proof. intros l rest H. induction H as [|r l Hr H IH]; [reflexivity|]. cbn [map concat]. rewrite <- app_assoc, runes_enc by exact Hr. rewrite IH. reflexivity. Qed.
Lemma runes_app_ascii : forall b rest, Forall (fun x => bz x < 128) b -> runes_of (b ++ rest) = map bz b ++ runes_of rest.
Proof.
  intros b rest H. induction H as [|x b Hx H IH]; [reflexivity|]. cbn [app map]. unfold runes_of in *. rewrite units_ascii by exact Hx. cbn [map fst]. rewrite IH. reflexivity.
Qed.
Lemma ascii_forall : forall b, forallb (fun x => bz x <? 128) b = true -> Forall (fun x => bz x < 128) b.
Proof. intros b H. apply Forall_forall. intros x Hx. rewrite forallb_forall in H. apply Z.ltb_lt, H, Hx. Qed.

(** *** Strings *)
Definition whole (u : rune * bytes) : Prop := scalar (fst u) = true /\ (snd u = enc (fst u) \/ (fst u = 65533 /\ length (snd u) = 1%nat)).
Lemma units_whole : forall s, Forall whole (units s).
Proof.
  intro s. pose proof (units_nonempty s) as H1. pose proof (units_decode s) as H2. rewrite Forall_forall in *. intros u Hu. specialize (H1 u Hu). specialize (H2 u Hu).
  destruct (decode_cases H1 H2) as [(Ha & Hb)|(Ha & Hb & _)].
  - split; [exact Ha|]. left. rewrite firstn_all in Hb. exact Hb.
  - split; [rewrite Ha; reflexivity|]. right. split; [exact Ha|exact Hb].
Qed.

Definition esc (bf : bool) (u : rune * bytes) : list Z :=
  let r := fst u in
  if r =? 34 then [92; 34] else if r =? 92 then [92; 92] else if (r =? 8) && bf then [92; 98] else if (r =? 12) && bf then [92; 102]
  else if r =? 10 then [92; 110] else if r =? 13 then [92; 114] else if r =? 9 then [92; 116]
  else if (r <? 32) || (r =? 60) || (r =? 62) || (r =? 38) then [92; 117; 48; 48; bz (hex_digit (r / 16)); bz (hex_digit (r mod 16))]
  else if (r =? 65533) && (Nat.eqb (length (snd u)) 1) then [92; 117; 102; 102; 102; 100]
  else if (r =? 8232) || (r =? 8233) then [92; 117; 50; 48; 50; bz (hex_digit (r mod 16))]
  else [r].
Lemma hex_ascii : forall z, bz (hex_digit z) < 128.
Proof.
  intro z. unfold hex_digit. generalize (Z.to_nat z). intro n. assert (H : Forall (fun x => bz x < 128) (str "0123456789abcdef")) by (apply ascii_forall; reflexivity).
  destruct (Nat.lt_ge_cases n 16) as [Hn|Hn]; [|rewrite nth_overflow by exact Hn; reflexivity]. rewrite Forall_forall in H. apply H, nth_In. exact Hn.
Qed.
Lemma hex_back : forall z, 0 <= z < 16 -> hex_value (bz (hex_digit z)) = Some z.
Proof.
  intros z Hz. assert (H : forallb (fun n => match hex_value (bz (hex_digit (Z.of_nat n))) with Some v => v =? Z.of_nat n | None => false end) (seq 0 16) = true) by reflexivity.
  rewrite forallb_forall in H. specialize (H (Z.to_nat z)). rewrite Z2Nat.id in H by lia. assert (K : In (Z.to_nat z) (seq 0 16)) by (apply in_seq; lia). specialize (H K).
  destruct (hex_value (bz (hex_digit z))); [|discriminate]. apply Z.eqb_eq in H. congruence.
Qed.
Lemma runes_json_unit : forall bf u rest, whole u -> runes_of (json_unit bf u ++ rest) = esc bf u ++ runes_of rest.
Proof.
  intros bf [r p] rest [Hs Hp]. cbn [fst snd] in *. unfold json_unit, esc. cbn [fst snd]. change RuneError with 65533.
  repeat match goal with
  | |- context [if ?b then _ else _] => destruct b eqn:?
  end; try (apply runes_app_ascii; apply ascii_forall; reflexivity);
  try (apply runes_app_ascii; repeat (apply Forall_cons; [first [reflexivity|apply hex_ascii]|]); apply Forall_nil).
  destruct Hp as [->|[-> Hl]]; [apply (runes_enc rest Hs)|]. rewrite Hl in *. discriminate.
Qed.
Definition chars (bf : bool) (s : bytes) : list Z := 34 :: concat (map (esc bf) (units s)) ++ [34].
Lemma runes_json_string : forall bf s rest, runes_of (json_string bf s ++ rest) = chars bf s ++ runes_of rest.
Proof.
  intros bf s rest. unfold json_string, chars. rewrite <- !app_assoc. rewrite (runes_app_ascii (b := [x22])) by (apply ascii_forall; reflexivity). cbn [map app]. f_equal.
  assert (H : forall us, Forall whole us -> runes_of (concat (map (json_unit bf) us) ++ [x22] ++ rest) = concat (map (esc bf) us) ++ 34 :: runes_of rest).
  { intros us Hu. induction Hu as [|u us Hu H IH]; [exact (runes_app_ascii (b := [x22]) rest (ascii_forall (b := [x22]) eq_refl))|].
    cbn [map concat]. rewrite <- !app_assoc, runes_json_unit by exact Hu. rewrite IH. reflexivity. }
  rewrite H by apply units_whole. rewrite <- app_assoc. reflexivity.
Qed.

Lemma read_esc : forall bf u t, whole u -> read_string (esc bf u ++ t) = put_char (fst u) (read_string t).
Proof.
  intros bf [r p] t [Hs Hp]. cbn [fst snd] in *. unfold esc. cbn [fst snd]. assert (Hr : 0 <= r) by (unfold scalar, in_range in Hs; lia).
  destruct (Z.eqb_spec r 34) as [->|H1]; [reflexivity|]. destruct (Z.eqb_spec r 92) as [->|H2]; [reflexivity|].
  destruct (Z.eqb_spec r 8) as [->|H3]; [destruct bf; reflexivity|]. cbn [andb]. destruct (Z.eqb_spec r 12) as [->|H4]; [destruct bf; reflexivity|]. cbn [andb].
  destruct (Z.eqb_spec r 10) as [->|H5]; [reflexivity|]. destruct (Z.eqb_spec r 13) as [->|H6]; [reflexivity|]. destruct (Z.eqb_spec r 9) as [->|H7]; [reflexivity|].
  destruct ((r <? 32) || (r =? 60) || (r =? 62) || (r =? 38)) eqn:Hc.
  { assert (Hr2 : r < 256) by lia. cbn [app read_string]. change (92 =? 34) with false. change (92 =? 92) with true. change (117 =? 117) with true. cbv iota. unfold hex4.
    change (hex_value 48) with (Some 0). rewrite (hex_back (z := r / 16)), (hex_back (z := r mod 16)) by (split; [apply Z.div_pos; lia|apply Z.div_lt_upper_bound; lia] || (apply Z.mod_pos_bound; lia)).
    cbv iota zeta. replace (4096 * 0 + 256 * 0 + 16 * (r / 16) + r mod 16) with r by (pose proof (Z.div_mod r 16 ltac:(lia)); lia).
    replace ((55296 <=? r) && (r <? 57344)) with false by lia. reflexivity. }
  destruct ((r =? 65533) && (Nat.eqb (length p) 1)) eqn:Hb.
  { apply andb_prop in Hb as [Hb _]. apply Z.eqb_eq in Hb as ->. reflexivity. }
  destruct ((r =? 8232) || (r =? 8233)) eqn:Hl.
  { apply orb_prop in Hl as [Hl|Hl]; apply Z.eqb_eq in Hl as ->; reflexivity. }
  cbn [app read_string]. replace (r =? 34) with false by lia. replace (r =? 92) with false by lia. replace (r <? 32) with false by lia. reflexivity.
Qed.
Lemma read_chars : forall bf s t, exists u, chars bf s ++ t = 34 :: u /\ read_string u = Some (runes_of s, t).
Proof.
  intros bf s t. exists (concat (map (esc bf) (units s)) ++ [34] ++ t). split; [unfold chars; cbn [app]; rewrite <- app_assoc; reflexivity|]. unfold runes_of. pose proof (units_whole s) as H. induction H as [|u us Hu H IH]; [reflexivity|].
  cbn [map concat]. rewrite <- app_assoc, read_esc by exact Hu. rewrite IH. reflexivity.
Qed.

(** *** Lists *)
Fixpoint joined (l : list (list Z)) : list Z :=
  match l with
  | [] => []
  | [a] => a
  | a :: l' => a ++ 44 :: joined l'
  end.
Lemma runes_commas : forall A (w : A -> bytes) (x : A -> list Z) l rest, (forall a rest, In a l -> runes_of (w a ++ rest) = x a ++ runes_of rest) ->
  runes_of (json_commas (map w l) ++ rest) = joined (map x l) ++ runes_of rest.
Proof.
  intros A w x l rest H. induction l as [|a l IH]; [reflexivity|]. destruct l as [|b l].
  - cbn [map json_commas joined]. apply H. left. reflexivity.
  - change (json_commas (map w (a :: b :: l))) with (w a ++ [x2c] ++ json_commas (map w (b :: l))). change (joined (map x (a :: b :: l))) with (x a ++ 44 :: joined (map x (b :: l))).
    rewrite <- !app_assoc, H by (left; reflexivity). rewrite (runes_app_ascii (b := [x2c])) by (apply ascii_forall; reflexivity).
    rewrite IH by (intros; apply H; right; assumption). reflexivity.
Qed.
Lemma joined_length : forall l, Forall (fun a => a <> []) l -> (length l <= length (joined l))%nat.
Proof.
  intros l H. induction H as [|a l Ha H IH]; [reflexivity|]. destruct l as [|b l]; [destruct a; [congruence|cbn; lia]|].
  change (joined (a :: b :: l)) with (a ++ 44 :: joined (b :: l)). rewrite app_length. cbn [length] in *. lia.
Qed.
(** [x a] begins with a character that is no white space and not the closing bracket. *)
Definition opens (close : Z) (l : list Z) : Prop := exists c t, l = c :: t /\ white c = false /\ c <> close.
Lemma items_ok : forall A B (rd : list Z -> option (B * list Z)) close (x : A -> list Z) (v : A -> B) l, white close = false -> close <> 44 ->
  (forall a t, In a l -> rd (x a ++ t) = Some (v a, t)) -> l <> [] -> forall n t, (length l <= n)%nat ->
  read_items rd close n (joined (map x l) ++ close :: t) = Some (map v l, t).
Proof.
  intros A B rd close x v l Hw Hc H Hl. induction l as [|a l IH]; [congruence|]. intros [|n] t Hn; [cbn [length] in Hn; lia|]. cbn [length] in Hn. destruct l as [|b l].
  - cbn [map joined read_items]. rewrite H by (left; reflexivity). cbn [skip_white]. rewrite Hw, Z.eqb_refl. reflexivity.
  - change (joined (map x (a :: b :: l))) with (x a ++ 44 :: joined (map x (b :: l))). rewrite <- app_assoc. cbn [read_items]. rewrite H by (left; reflexivity).
    cbn [app skip_white]. change (white 44) with false. cbv iota. destruct (Z.eqb_spec 44 close) as [He|_]; [congruence|]. change (44 =? 44) with true. cbv iota.
    rewrite IH; [reflexivity|intros; apply H; right; assumption|congruence|cbn [length] in *; lia].
Qed.
Lemma list_ok : forall A B (rd : list Z -> option (B * list Z)) close (x : A -> list Z) (v : A -> B) l, white close = false -> close <> 44 ->
  (forall a t, In a l -> rd (x a ++ t) = Some (v a, t)) -> (forall a, In a l -> opens close (x a)) -> forall n t, (length l <= n)%nat ->
  read_list rd close n (joined (map x l) ++ close :: t) = Some (map v l, t).
Proof.
  intros A B rd close x v l Hw Hc H Ho n t Hn. unfold read_list. destruct l as [|a l].
  - cbn [map joined app skip_white]. rewrite Hw, Z.eqb_refl. reflexivity.
  - destruct (Ho a (or_introl eq_refl)) as (c & s & E & W & N).
    assert (exists s', joined (map x (a :: l)) ++ close :: t = c :: s') as [s' Es'].
    { destruct l as [|b l]; [cbn [map joined]; rewrite E; eexists; reflexivity|]. change (joined (map x (a :: b :: l))) with (x a ++ 44 :: joined (map x (b :: l))). rewrite E. eexists; reflexivity. }
    rewrite Es' at 1. cbn [skip_white]. rewrite W. destruct (Z.eqb_spec c close); [contradiction|]. apply items_ok; auto. congruence.
Qed.
