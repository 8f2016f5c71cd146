From Verif Require Export S_Chars P_Utf8 P_Trim.
From Coq Require Import Lia ZArith.
Set Implicit Arguments. Unset Strict Implicit.
Local Open Scope Z_scope.

Lemma zb_eq : forall b z, bz b = z -> zb z = b.
Proof. intros b z <-. apply zb_bz. Qed.

Lemma bz_zb' : forall z, 0 <= z < 256 -> bz (zb z) = z.
Proof. intros z H. apply bz_zb. lia. Qed.

Lemma utf8_enc : forall r p, utf8 r p -> scalar r = true /\ p = enc r.
Proof.
  intros r p H. destruct H as [a Ha|a b x y Ha Hx Hb Hy Hr|a b c x y z Ha Hx Hb Hy Hc Hz Hr Hs|a b c d x y z w Ha Hx Hb Hy Hc Hz Hd Hw Hr].
  - pose proof (bz_range a). unfold scalar, in_range, enc. split; [lia|]. destruct (Z.ltb_spec (bz a) 128); [|lia]. rewrite zb_bz. reflexivity.
  - unfold scalar, in_range, enc. set (r := 64 * x + y) in *. split; [lia|].
    destruct (Z.ltb_spec r 128); [lia|]. destruct (Z.ltb_spec r 2048); [|lia].
    f_equal; [|f_equal]; symmetry; apply zb_eq; lia.
  - unfold scalar, in_range, enc. set (r := 4096 * x + 64 * y + z) in *. split; [lia|].
    destruct (Z.ltb_spec r 128); [lia|]. destruct (Z.ltb_spec r 2048); [lia|]. destruct (Z.ltb_spec r 65536); [|lia].
    f_equal; [|f_equal; [|f_equal]]; symmetry; apply zb_eq; lia.
  - unfold scalar, in_range, enc. set (r := 262144 * x + 4096 * y + 64 * z + w) in *. split; [lia|].
    destruct (Z.ltb_spec r 128); [lia|]. destruct (Z.ltb_spec r 2048); [lia|]. destruct (Z.ltb_spec r 65536); [lia|].
    f_equal; [|f_equal; [|f_equal; [|f_equal]]]; symmetry; apply zb_eq; lia.
Qed.

Lemma enc_utf8 : forall r, scalar r = true -> utf8 r (enc r).
Proof.
  intros r H. unfold scalar, in_range in H. unfold enc.
  destruct (Z.ltb_spec r 128).
  { replace r with (bz (zb r)) at 1 by (apply bz_zb'; lia). apply utf8_1. rewrite bz_zb'; lia. }
  destruct (Z.ltb_spec r 2048).
  { replace r with (64 * (r / 64) + r mod 64) at 1 by lia. apply utf8_2; try lia; apply bz_zb'; lia. }
  destruct (Z.ltb_spec r 65536).
  { replace r with (4096 * (r / 4096) + 64 * ((r / 64) mod 64) + r mod 64) at 1 by lia. apply utf8_3; try lia; apply bz_zb'; lia. }
  replace r with (262144 * (r / 262144) + 4096 * ((r / 4096) mod 64) + 64 * ((r / 64) mod 64) + r mod 64) at 1 by lia.
  apply utf8_4; try lia; apply bz_zb'; lia.
Qed.

Lemma utf8_iff : forall r p, utf8 r p <-> scalar r = true /\ p = enc r.
Proof. intros r p. split; [apply utf8_enc|]. intros [H ->]. apply enc_utf8, H. Qed.

Lemma runes_enc : forall r s, scalar r = true -> runes_of (enc r ++ s) = r :: runes_of s.
Proof.
  intros r s H. unfold runes_of. rewrite units_cons.
  - rewrite decode_enc by exact H. cbn [fst snd map]. rewrite skipn_app, skipn_all, Nat.sub_diag. reflexivity.
  - intro E. apply app_eq_nil in E as [E _]. pose proof (enc_length H) as L. rewrite E in L. destruct (r <? 128), (r <? 2048), (r <? 65536); discriminate L.
Qed.
Lemma runes_bad : forall b s, (forall r p q, b :: s = p ++ q -> ~ utf8 r p) -> runes_of (b :: s) = 65533 :: runes_of s.
Proof.
  intros b s H. unfold runes_of. rewrite units_cons by discriminate. destruct (decode_rune (b :: s)) as [r n] eqn:Ed.
  destruct (decode_cases (s := b :: s) (r := r) (n := n) ltac:(discriminate) Ed) as [[Hs Hn]|[-> [-> _]]]; [|reflexivity].
  exfalso. apply (H r (enc r) (skipn n (b :: s))); [rewrite <- Hn, firstn_skipn; reflexivity|apply enc_utf8, Hs].
Qed.

Lemma decodes_runes : forall s rs, decodes s rs -> runes_of s = rs.
Proof.
  intros s rs H. induction H as [|r p s rs Hp H IH|b s rs Hb H IH]; [reflexivity| |].
  - apply utf8_iff in Hp as [Hs ->]. rewrite runes_enc by exact Hs. rewrite IH. reflexivity.
  - rewrite runes_bad by exact Hb. rewrite IH. reflexivity.
Qed.
Lemma runes_decodes : forall s, decodes s (runes_of s).
Proof.
  intro s. remember (length s) as n eqn:En. revert s En. induction n as [n IH] using lt_wf_ind. intros [|b s] ->; [constructor|].
  destruct (decode_rune (b :: s)) as [r n] eqn:Ed.
  destruct (decode_cases (s := b :: s) (r := r) (n := n) ltac:(discriminate) Ed) as [[Hs Hn]|[-> [-> (b' & t & E & Hb)]]].
  - rewrite <- (firstn_skipn n (b :: s)), Hn, runes_enc by exact Hs. apply decodes_char; [apply enc_utf8, Hs|]. apply (IH (length (skipn n (b :: s)))); [|reflexivity].
    pose proof (f_equal (@length _) (firstn_skipn n (b :: s))) as L. rewrite app_length, Hn in L. pose proof (enc_length Hs) as K. destruct (r <? 128), (r <? 2048), (r <? 65536); lia.
  - assert (N : forall r p q, b :: s = p ++ q -> ~ utf8 r p).
    { intros r p q Eq Hu. apply utf8_iff in Hu as [Hr ->]. rewrite Eq, decode_enc in Ed by exact Hr. injection Ed as -> L. discriminate L. }
    rewrite runes_bad by exact N. apply decodes_bad; [exact N|]. apply (IH (length s)); [cbn; lia|reflexivity].
Qed.
Lemma decodes_iff : forall s rs, decodes s rs <-> runes_of s = rs.
Proof. intros s rs. split; [apply decodes_runes|]. intros <-. apply runes_decodes. Qed.

Lemma string_of_rune_iff : forall r p, string_of_rune r = p <-> utf8 r p \/ ((forall q, ~ utf8 r q) /\ p = [xef; xbf; xbd]).
Proof.
  intros r p. unfold string_of_rune. destruct (scalar r) eqn:Hs.
  - split.
    + intros <-. left. apply enc_utf8, Hs.
    + intros [H|[H _]]; [apply utf8_iff in H as [_ ->]; reflexivity|]. exfalso. apply (H (enc r)), enc_utf8, Hs.
  - split.
    + intros <-. right. split; [|reflexivity]. intros q H. apply utf8_iff in H. destruct H. congruence.
    + intros [H|[_ ->]]; [|reflexivity]. apply utf8_iff in H as [H _]. congruence.
Qed.

(** Membership in a list of bytes against a test, checked on the 128 ASCII characters. *)
Lemma ascii_class : forall (f : Z -> bool) l, (forall r, r < 0 -> f r = false) ->
  forallb (fun z => Bool.eqb (f z) (existsb (Z.eqb z) (map bz l))) (map Z.of_nat (seq 0 128)) = true ->
  Forall (fun b => bz b < 128) l -> forall r, r < 128 -> (f r = true <-> In r (map bz l)).
Proof.
  intros f l Hneg H Hl r Hr. destruct (Z.ltb_spec r 0) as [C|C].
  - rewrite Hneg by exact C. split; [discriminate|]. intro Hin. apply in_map_iff in Hin as (b & <- & _). pose proof (bz_range b). lia.
  - rewrite forallb_forall in H. specialize (H r). assert (Hin : In r (map Z.of_nat (seq 0 128))).
    { apply in_map_iff. exists (Z.to_nat r). split; [lia|]. apply in_seq. lia. }
    apply H in Hin. apply Bool.eqb_prop in Hin. rewrite Hin, existsb_exists. split.
    + intros (x & Hx & E). apply Z.eqb_eq in E as ->. exact Hx.
    + intro Hx. exists r. split; [exact Hx|apply Z.eqb_refl].
Qed.
Lemma class_test : forall (f : Z -> bool) l bad tab,
  (forall r, r < 0 -> f r = false) ->
  forallb (fun z => Bool.eqb (f z) (existsb (Z.eqb z) (map bz l))) (map Z.of_nat (seq 0 128)) = true ->
  forallb (fun b => bz b <? 128) l = true ->
  forall r, (if r <? 128 then f r else if r =? 65533 then bad else tab r) = true <-> class l bad tab r.
Proof.
  intros f l bad tab Hneg H Hl r. assert (Hl' : Forall (fun b => bz b < 128) l).
  { apply Forall_forall. intros b Hb. rewrite forallb_forall in Hl. apply Hl in Hb. lia. }
  unfold class. destruct (Z.ltb_spec r 128) as [C|C].
  - rewrite (ascii_class Hneg H Hl' C). intuition lia.
  - assert (N : ~ In r (map bz l)).
    { intro Hin. apply in_map_iff in Hin as (b & <- & Hb). rewrite Forall_forall in Hl'. apply Hl' in Hb. lia. }
    destruct (Z.eqb_spec r 65533) as [->|Hn]; intuition (try lia).
Qed.

Section Classes.
  Variable E : env.
  Ltac cls f l := apply (@class_test f l); [let r0 := fresh in let H0 := fresh in intros r0 H0; unfold ascii_upper, ascii_lower, ascii_digit, in_range; lia|vm_compute; reflexivity|vm_compute; reflexivity].
  Lemma letter_class : forall r, is_letter E r = true <-> class letters false (u_letter E) r.
  Proof. intro r. unfold is_letter. change RuneError with 65533. cls (fun r => ascii_upper r || ascii_lower r)%bool letters. Qed.
  Lemma number_class : forall r, is_number E r = true <-> class digits false (u_number E) r.
  Proof. intro r. unfold is_number. change RuneError with 65533. cls ascii_digit digits. Qed.
  Lemma space_class : forall r, is_space E r = true <-> class blanks false (u_space E) r.
  Proof. intro r. unfold is_space. change RuneError with 65533. cls (fun r => in_range 9 13 r || (r =? 32))%bool blanks. Qed.
  Lemma punct_class : forall r, is_punct E r = true <-> class puncts false (u_punct E) r.
  Proof.
    intro r. unfold is_punct. change RuneError with 65533.
    cls (fun r => in_range 33 35 r || in_range 37 42 r || in_range 44 47 r || in_range 58 59 r || in_range 63 64 r || in_range 91 93 r || (r =? 95) || (r =? 123) || (r =? 125))%bool puncts.
  Qed.
  Lemma symbol_class : forall r, is_symbol E r = true <-> class symbols true (u_symbol E) r.
  Proof.
    intro r. unfold is_symbol. change RuneError with 65533.
    cls (fun r => (r =? 36) || (r =? 43) || in_range 60 62 r || (r =? 94) || (r =? 96) || (r =? 124) || (r =? 126))%bool symbols.
  Qed.
  Lemma han_class : forall r, is_han E r = true <-> class [] false (u_han E) r.
  Proof. intro r. unfold is_han. change RuneError with 65533. cls (fun _ : Z => false) (@nil byte). Qed.
  Lemma kana_class : forall r, is_kana E r = true <-> class [] false (u_kana E) r.
  Proof. intro r. unfold is_kana. change RuneError with 65533. cls (fun _ : Z => false) (@nil byte). Qed.
End Classes.

Lemma written_enc : forall rs s, written rs s <-> Forall (fun r => scalar r = true) rs /\ s = concat (map enc rs).
Proof.
  intros rs s. split.
  - intro H. induction H as [|r p rs s Hp H [IH1 IH2]]; [split; constructor|]. apply utf8_iff in Hp as [Hs ->]. split; [constructor; assumption|]. cbn. rewrite IH2. reflexivity.
  - intros [H ->]. induction H as [|r rs Hr H IH]; [constructor|]. cbn. constructor; [apply enc_utf8, Hr|exact IH].
Qed.

Lemma lower_letters : forall E i, (i < 26)%nat -> rune_lower E (bz (nth i capitals x00)) = bz (nth i smalls x00).
Proof.
  intros E i Hi. do 26 (destruct i as [|i]; [reflexivity|]). lia.
Qed.
Lemma lower_rest : forall E r, ~ In r (map bz capitals) -> r < 128 \/ r = 65533 -> rune_lower E r = r.
Proof.
  intros E r Hn [H| ->]; [|reflexivity]. unfold rune_lower. destruct (Z.ltb_spec r 128); [|lia].
  destruct (ascii_upper r) eqn:Eu; [|reflexivity]. exfalso. apply Hn.
  apply (@ascii_class ascii_upper capitals); [unfold ascii_upper, in_range; intros; lia|vm_compute; reflexivity| |exact H|exact Eu].
  apply Forall_forall. intros b Hb. assert (K : forallb (fun b => bz b <? 128) capitals = true) by (vm_compute; reflexivity).
  rewrite forallb_forall in K. apply K in Hb. lia.
Qed.
