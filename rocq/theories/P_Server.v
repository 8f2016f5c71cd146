(** The answers of the server. *)
From Verif Require Import M_Server S_Json S_Server S_Chars S_Split S_Seg S_Trim S_Dict P_Utf8 P_Utf8b P_Chars P_Json P_Split P_Seg P_Seg2 P_Out P_Dict P_Dag P_Dag2 P_Hmm P_Trim3 P_Hist P_Exact2 P_Out2.
Set Implicit Arguments. Unset Strict Implicit.
Local Open Scope lit_scope.

(** *** Documents *)
Definition plain (c : Z) : Prop := (32 <= c)%Z /\ c <> 34%Z /\ c <> 92%Z.
Lemma read_plain : forall k t, Forall plain k -> read_string (k ++ 34%Z :: t) = Some (k, t).
Proof.
  intros k t H. induction H as [|c k (H1 & H2 & H3) H IH]; [reflexivity|]. cbn [app read_string]. destruct (Z.eqb_spec c 34); [congruence|]. destruct (Z.eqb_spec c 92); [congruence|].
  destruct (Z.ltb_spec c 32); [lia|]. rewrite IH. reflexivity.
Qed.
Definition mem_chars (m : list Z * list Z * json) : list Z := (34 :: fst (fst m) ++ 34 :: 58 :: snd (fst m))%Z.
Definition mem_value (m : list Z * list Z * json) : list Z * json := (fst (fst m), snd m).
Lemma member_ok : forall rd m t, Forall plain (fst (fst m)) -> (forall t, rd (snd (fst m) ++ t) = Some (snd m, t)) -> read_member rd (mem_chars m ++ t) = Some (mem_value m, t).
Proof.
  intros rd [[k x] v] t Hk H. cbn [fst snd] in *. unfold read_member, mem_chars, mem_value. cbn [app fst snd skip_white]. change (white 34) with false. change (34 =? 34)%Z with true. cbv iota.
  rewrite <- app_assoc. cbn [app]. rewrite read_plain by exact Hk. cbn [skip_white]. change (white 58) with false. change (58 =? 58)%Z with true. cbv iota. rewrite H. reflexivity.
Qed.
Lemma value_obj : forall n ms t, (length ms <= n)%nat -> (forall m, In m ms -> Forall plain (fst (fst m)) /\ forall t, read_value n (snd (fst m) ++ t) = Some (snd m, t)) ->
  read_value (S n) (123%Z :: joined (map mem_chars ms) ++ 125%Z :: t) = Some (JObj (map mem_value ms), t).
Proof.
  intros n ms t Hn H. cbn [read_value skip_white]. change (white 123) with false. change (123 =? 34)%Z with false. change (123 =? 91)%Z with false. change (123 =? 123)%Z with true. cbv iota.
  rewrite (list_ok (v := mem_value)); [reflexivity|reflexivity|discriminate| | |exact Hn].
  - intros m u Hm. destruct (H m Hm). apply member_ok; assumption.
  - intros m Hm. eexists _, _. split; [reflexivity|]. split; [reflexivity|discriminate].
Qed.
Lemma value_arr : forall n A (x : A -> list Z) v l t, (length l <= n)%nat -> (forall a, In a l -> opens 93 (x a) /\ forall t, read_value n (x a ++ t) = Some (v a, t)) ->
  read_value (S n) (91%Z :: joined (map x l) ++ 93%Z :: t) = Some (JArr (map v l), t).
Proof.
  intros n A x v l t Hn H. cbn [read_value skip_white]. change (white 91) with false. change (91 =? 34)%Z with false. change (91 =? 91)%Z with true. cbv iota.
  rewrite (list_ok (v := v)); [reflexivity|reflexivity|discriminate| | |exact Hn]; intros a; intros; apply H; assumption.
Qed.
Lemma value_str : forall n bf s t, read_value (S n) (chars bf s ++ t) = Some (JStr (runes_of s), t).
Proof. intros n bf s t. destruct (read_chars bf s t) as (u & -> & H). cbn [read_value skip_white]. change (white 34) with false. change (34 =? 34)%Z with true. cbv iota. rewrite H. reflexivity. Qed.
Lemma value_null : forall n t, read_value (S n) (key "null" ++ t) = Some (JNull, t).
Proof. reflexivity. Qed.
Lemma value_200 : forall n t, read_value (S n) (key "200," ++ t) = Some (JNum 200, 44%Z :: t).
Proof. reflexivity. Qed.

Ltac plains := repeat (apply Forall_cons; [split; [|split]; cbv; congruence|]); apply Forall_nil.
Ltac lits := repeat (rewrite <- app_assoc || rewrite runes_json_string || (rewrite runes_app_ascii by (apply ascii_forall; reflexivity))).

Definition pair_mems (bf : bool) (p : bytes * bytes) : list (list Z * list Z * json) :=
  [(key "text", chars bf (fst p), JStr (runes_of (fst p))); (key "pos", chars bf (snd p), JStr (runes_of (snd p)))].
Definition pair_chars bf p : list Z := (123 :: joined (map mem_chars (pair_mems bf p)) ++ [125])%Z.
Definition pair_value (p : bytes * bytes) : json := JObj [(key "text", JStr (runes_of (fst p))); (key "pos", JStr (runes_of (snd p)))].
Lemma runes_segment : forall bf p rest, runes_of (json_segment bf p ++ rest) = pair_chars bf p ++ runes_of rest.
Proof.
  intros bf p rest. unfold json_segment. lits. unfold pair_chars, pair_mems. cbn [map joined mem_chars fst snd]. cbn [app]. rewrite <- !app_assoc. cbn. rewrite <- !app_assoc. cbn. rewrite <- ?app_assoc. reflexivity.
Qed.
Lemma value_pair : forall n bf p t, (2 <= n)%nat -> read_value (S n) (pair_chars bf p ++ t) = Some (pair_value p, t).
Proof.
  intros n bf p t Hn. unfold pair_chars. cbn [app]. rewrite <- app_assoc. apply value_obj; [exact Hn|]. destruct n as [|n]; [lia|].
  intros m [<-|[<-|[]]]; (split; [plains|]); intro u; apply value_str.
Qed.

Lemma read_json_value : forall n s v, read_value n s = Some (v, []) -> (n <= S (length s))%nat -> (forall m, (n <= m)%nat -> read_value m s = Some (v, [])) -> read_json s = Some v.
Proof. intros n s v _ Hn H. unfold read_json. rewrite H by exact Hn. reflexivity. Qed.

Definition resp_mems bf (l : list (bytes * bytes)) : list (list Z * list Z * json) :=
  [(key "segments", 91%Z :: joined (map (pair_chars bf) l) ++ [93%Z], JArr (map pair_value l)); (key "err", key "null", JNull)].
Lemma response_json : forall bf l, read_json (runes_of (json_response bf l)) = Some (JObj [(key "segments", JArr (map pair_value l)); (key "err", JNull)]).
Proof.
  intros bf l.
  assert (Hc : runes_of (json_response bf l) = (123 :: joined (map mem_chars (resp_mems bf l)) ++ 125 :: [])%Z).
  { unfold json_response, json_array. lits. rewrite (runes_commas (x := pair_chars bf)) by (intros; apply runes_segment).
    rewrite <- (app_nil_r (str ",""err"":null}")). lits. change (runes_of []) with (@nil Z).
    unfold resp_mems. cbn [map joined mem_chars fst snd app]. rewrite <- !app_assoc. cbn. rewrite <- ?app_assoc. cbn. rewrite <- ?app_assoc. reflexivity. }
  assert (Hl : (length l + 4 <= length (runes_of (json_response bf l)))%nat).
  { rewrite Hc. assert (H : (length (map (pair_chars bf) l) <= length (joined (map (pair_chars bf) l)))%nat) by (apply joined_length, Forall_forall; intros x Hx; apply in_map_iff in Hx as (p & <- & _); discriminate).
    rewrite map_length in H. unfold resp_mems. repeat (progress (rewrite ?app_length; cbn [length app map joined mem_chars fst snd])). lia. }
  unfold read_json. set (n := length (runes_of (json_response bf l))) in *. rewrite Hc.
  rewrite (value_obj (n := n) (ms := resp_mems bf l)); [reflexivity|cbn [length resp_mems]; lia|].
  destruct n as [|[|[|[|n]]]]; try lia. intros m [<-|[<-|[]]].
  - split; [plains|]. intro t. cbn [fst snd]. cbn [app]. rewrite <- app_assoc. cbn [app]. apply value_arr; [lia|]. intros p Hp. split; [|intro u; apply value_pair; lia].
    eexists _, _. split; [reflexivity|]. split; [reflexivity|discriminate].
  - split; [plains|]. intro t. apply value_null.
Qed.

Definition cut_mems bf (l : list bytes) : list (list Z * list Z * json) := [(key "Seg", 91%Z :: joined (map (chars bf) l) ++ [93%Z], JArr (map (fun w => JStr (runes_of w)) l))].
Lemma resp_json : forall bf l, read_json (runes_of (json_resp bf l)) = Some (JObj [(key "Seg", JArr (map (fun w => JStr (runes_of w)) l))]).
Proof.
  intros bf l.
  assert (Hc : runes_of (json_resp bf l) = (123 :: joined (map mem_chars (cut_mems bf l)) ++ 125 :: [])%Z).
  { unfold json_resp, json_array. lits. rewrite (runes_commas (x := chars bf)) by (intros; apply runes_json_string).
    rewrite <- (app_nil_r (str "}")). lits. change (runes_of []) with (@nil Z).
    unfold cut_mems. cbn [map joined mem_chars fst snd app]. rewrite <- ?app_assoc. cbn. rewrite <- ?app_assoc. reflexivity. }
  assert (Hl : (length l + 4 <= length (runes_of (json_resp bf l)))%nat).
  { rewrite Hc. assert (H : (length (map (chars bf) l) <= length (joined (map (chars bf) l)))%nat) by (apply joined_length, Forall_forall; intros x Hx; apply in_map_iff in Hx as (p & <- & _); discriminate).
    rewrite map_length in H. unfold cut_mems. repeat (progress (rewrite ?app_length; cbn [length app map joined mem_chars fst snd])). lia. }
  unfold read_json. set (n := length (runes_of (json_resp bf l))) in *. rewrite Hc.
  rewrite (value_obj (n := n) (ms := cut_mems bf l)); [reflexivity|cbn [length cut_mems]; lia|].
  destruct n as [|[|[|[|n]]]]; try lia. intros m [<-|[]].
  split; [plains|]. intro t. cbn [fst snd]. cbn [app]. rewrite <- app_assoc. cbn [app]. apply value_arr; [lia|]. intros p Hp. split; [|intro u; apply value_str].
  eexists _, _. split; [reflexivity|]. split; [reflexivity|discriminate].
Qed.
Lemma ok_json : forall bf, read_json (runes_of (json_ok bf)) = Some (JObj [(key "code", JNum 200); (key "text", JStr (key "ok"))]).
Proof. intros []; vm_compute; reflexivity. Qed.

(** *** Characters *)
Lemma low_ascii : forall b, (bz b < 128)%Z -> bz (small b) = low (bz b).
Proof.
  intros b _. unfold small, low, capitals, smalls. generalize (combine (str "ABCDEFGHIJKLMNOPQRSTUVWXYZ") (str "abcdefghijklmnopqrstuvwxyz")). intro l.
  induction l as [|p l IH]; [reflexivity|]. cbn [find]. destruct (Byte.eqb (fst p) b) eqn:Hp.
  - apply byte_eqb_eq in Hp as ->. rewrite Z.eqb_refl. reflexivity.
  - destruct (Z.eqb_spec (bz (fst p)) (bz b)) as [He|_]; [apply bz_inj in He; subst b; rewrite byte_eqb_refl in Hp; discriminate|exact IH].
Qed.
Lemma low_high : forall r, (128 <= r)%Z -> low r = r.
Proof.
  intros r Hr. unfold low. assert (H : forall p, In p (combine capitals smalls) -> (bz (fst p) < 128)%Z).
  { intros p Hp. assert (K : forallb (fun p => bz (fst p) <? 128)%Z (combine capitals smalls) = true) by reflexivity. rewrite forallb_forall in K. apply Z.ltb_lt, K, Hp. }
  induction (combine capitals smalls) as [|p l IH]; [reflexivity|]. cbn [find]. destruct (Z.eqb_spec (bz (fst p)) r) as [He|_]; [specialize (H p (or_introl eq_refl)); lia|].
  apply IH. intros; apply H; right; assumption.
Qed.
Lemma low_not_capital : forall b, (bz b < 128)%Z -> ~ In (bz b) (map bz capitals) -> low (bz b) = bz b.
Proof.
  intros b _ H. unfold low. destruct (find _ _) as [p|] eqn:F; [|reflexivity]. apply find_some in F as [F1 F2]. apply Z.eqb_eq in F2. exfalso. apply H. rewrite <- F2. apply in_map.
  destruct p as [x y]. apply in_combine_l in F1. exact F1.
Qed.
Lemma capital_class : forall E z, In z (map bz capitals) -> is_letter E z = true /\ is_number E z = false /\ (z < 128)%Z.
Proof.
  intros E z H. assert (K : forallb (fun z => ((65 <=? z) && (z <=? 90))%Z) (map bz capitals) = true) by reflexivity. rewrite forallb_forall in K. specialize (K z H).
  unfold is_letter, is_number, ascii_upper, ascii_lower, ascii_digit, in_range. destruct (Z.ltb_spec z 128); lia.
Qed.
Lemma nunit_low : forall E c s u, In u (units s) -> fst (nunit E c u) = low_if (c_lower c && negb (c_alpha c)) (fst u).
Proof.
  intros E c s [r p] Hu. pose proof (units_nonempty s) as H1. pose proof (units_decode s) as H2. rewrite Forall_forall in H1, H2. specialize (H1 _ Hu). specialize (H2 _ Hu). cbn [fst snd] in *.
  unfold nunit, norm_unit. cbn [fst snd]. unfold low_if.
  destruct (@decode_unit_high p H1) as [(b & -> & Hb & Hlt)|Hhi]; [rewrite H2; reflexivity| |].
  - rewrite H2 in Hb. cbn [fst] in Hb. subst r. cbn [map]. unfold alnum_unit. cbn [fst snd length Nat.leb andb].
    assert (Hs : forall x : byte, (bz x < 128)%Z -> fst (decode_rune [x]) = bz x) by (intros x Hx; cbn [decode_rune]; destruct (Z.ltb_spec (bz x) 128); [reflexivity|lia]).
    destruct (in_dec Z.eq_dec (bz b) (map bz capitals)) as [Hc|Hc].
    + destruct (capital_class E Hc) as (-> & -> & _). cbn [andb]. rewrite orb_false_r. destruct (c_alpha c), (c_lower c); cbn [andb negb]; try (apply Hs; exact Hlt).
      rewrite Hs; [apply low_ascii, Hlt|]. rewrite small_eq. apply lower_byte_ascii, Hlt.
    + pose proof (low_not_capital Hlt Hc) as Hn. pose proof (low_ascii Hlt) as Hl. rewrite Hn in Hl. apply bz_inj in Hl. rewrite Hl, Hn.
      destruct (_ && c_lower c); destruct (c_lower c && _); apply Hs; exact Hlt.
  - assert (Hm : map small p = p) by (clear - Hhi; induction Hhi; [reflexivity|]; cbn [map]; rewrite small_eq, lower_byte_high, IHHhi by assumption; reflexivity).
    rewrite Hm. replace (if alnum_unit E c (r, p) && c_lower c then p else p) with p by (destruct (_ && _); reflexivity). rewrite H2. cbn [fst].
    destruct (_ && _); [|reflexivity]. symmetry. apply low_high. destruct p as [|b p]; [congruence|]. inversion Hhi as [|? ? Hb _]; subst. clear - H2 Hb.
    pose proof (@decode_cases (b :: p) r (length (b :: p)) ltac:(discriminate) H2) as [(Hs & He)|(-> & _)]; [|unfold RuneError; lia]. rewrite firstn_all in He.
    destruct (Z.lt_ge_cases r 128) as [Hr|Hr]; [|exact Hr]. unfold enc in He. destruct (Z.ltb_spec r 128); [|lia]. injection He as He _. subst b.
    unfold scalar, in_range in Hs. rewrite bz_zb in Hb by lia. lia.
Qed.
Lemma runes_norm : forall E c s, runes_of (norm E c s) = map (low_if (c_lower c && negb (c_alpha c))) (runes_of s).
Proof.
  intros E c s. unfold norm, runes_of. rewrite (@units_norm_part E c [] (units s) [] s) by (rewrite app_nil_r; reflexivity). rewrite !map_map. apply map_ext_in. intros u Hu. apply (nunit_low E c Hu).
Qed.
Lemma runes_reencode : forall s, runes_of (reencode s) = runes_of s.
Proof. intro s. unfold reencode. rewrite string_of_scalars by apply runes_scalar. apply runes_encs, runes_scalar. Qed.
Lemma lower_ascii : forall E r, (0 <= r < 128)%Z -> rune_lower E r = low r.
Proof.
  intros E r Hr. assert (K : forallb (fun n => (rune_lower E (Z.of_nat n) =? low (Z.of_nat n))%Z) (seq 0 128) = true) by reflexivity.
  rewrite forallb_forall in K. specialize (K (Z.to_nat r)). rewrite Z2Nat.id in K by lia. apply Z.eqb_eq, K, in_seq. lia.
Qed.
Lemma runes_lower : forall E s, Forall2 (lowers E) (runes_of s) (runes_of (to_lower_str E s)).
Proof.
  intros E s. unfold to_lower_str. pose proof (runes_scalar s) as Hs. revert Hs. generalize (runes_of s). intros rs Hs.
  unfold string_of_runes. induction Hs as [|r rs Hr Hs IH]; [constructor|]. cbn [map concat].
  assert (K : exists q, string_of_rune (rune_lower E r) = enc q /\ scalar q = true /\ lowers E r q).
  { unfold string_of_rune. assert (H0 : (0 <= r)%Z) by (unfold scalar, in_range in Hr; lia).
    destruct (Z.lt_ge_cases r 128) as [H|H].
    - rewrite lower_ascii by lia. exists (low r). assert (Hl : scalar (low r) = true).
      { assert (K : forallb (fun n => scalar (low (Z.of_nat n))) (seq 0 128) = true) by reflexivity. rewrite forallb_forall in K. specialize (K (Z.to_nat r)). rewrite Z2Nat.id in K by lia. apply K, in_seq. lia. }
      rewrite Hl. split; [reflexivity|]. split; [reflexivity|]. left. auto.
    - unfold rune_lower. destruct (Z.ltb_spec r 128); [lia|]. change RuneError with 65533%Z. destruct (Z.eqb_spec r 65533) as [->|Hn].
      + exists 65533%Z. split; [reflexivity|]. split; [reflexivity|]. right. left. auto.
      + destruct (scalar (u_lower E r)) eqn:Hu.
        * exists (u_lower E r). split; [reflexivity|]. split; [exact Hu|]. right. right. split; [lia|]. split; [exact Hn|]. left. split; [reflexivity|]. exists (enc (u_lower E r)). apply enc_utf8, Hu.
        * exists 65533%Z. split; [reflexivity|]. split; [reflexivity|]. right. right. split; [lia|]. split; [exact Hn|]. right. split; [reflexivity|]. intros p Hp. apply utf8_iff in Hp as [Hp _]. congruence. }
  destruct K as (q & -> & Hq & Hl). rewrite runes_enc by exact Hq. constructor; assumption.
Qed.

(** *** Handlers *)
Lemma form_get_value : forall l k v, value_of k l v <-> form_get l k = v.
Proof.
  intros l k v. unfold form_get, value_of. destruct (find _ l) as [[k' w]|] eqn:F.
  - pose proof (find_some _ _ F) as [F1 F2]. cbn [fst] in F2. apply beqb_eq in F2 as ->. cbn [snd].
    assert (K : exists before after, l = before ++ (k, w) :: after /\ forall x, ~ In (k, x) before).
    { clear F1. induction l as [|p l IH]; [discriminate|]. cbn [find] in F. destruct (beqb (fst p) k) eqn:Hp.
      - injection F as ->. exists [], l. split; [reflexivity|]. intros x [].
      - destruct (IH F) as (b & a & -> & Hb). exists (p :: b), a. split; [reflexivity|]. intros x [->|Hx]; [cbn in Hp; rewrite beqb_refl in Hp; discriminate|exact (Hb x Hx)]. }
    split.
    + intros [(b & a & E1 & N1)|[N _]]; [|exfalso; apply (N w), F1]. destruct K as (b' & a' & E2 & N2). rewrite E1 in E2. clear - E2 N1 N2.
      revert b' E2 N2. induction b as [|x b IH]; intros [|y b'] E2 N2; cbn [app] in E2.
      * injection E2 as E2 _. congruence.
      * injection E2 as E2 _. exfalso. apply (N2 v). left. congruence.
      * injection E2 as E2 _. exfalso. apply (N1 w). left. congruence.
      * injection E2 as _ E2. apply (IH (fun x H => N1 x (or_intror H)) b' E2 (fun x H => N2 x (or_intror H))).
    + intros <-. left. exact K.
  - assert (N : forall w, ~ In (k, w) l) by (intros w Hw; pose proof (find_none _ _ F _ Hw) as H; cbn in H; rewrite beqb_refl in H; discriminate). split.
    + intros [(b & a & -> & _)|[_ ->]]; [|reflexivity]. exfalso. apply (N v), in_or_app. right. left. reflexivity.
    + intros <-. right. auto.
Qed.
Lemma request_text : forall query post text, text_of_request query post text <-> match form_get query (str "text") with [] => form_get post (str "text") | t => t end = text.
Proof.
  intros query post text. unfold text_of_request. rewrite !form_get_value. destruct (form_get query (str "text")) as [|b t] eqn:F; split; try (intros [[H1 H2]|[H1 H2]]; congruence).
  - intros <-. right. auto.
  - intros <-. left. split; [discriminate|reflexivity].
Qed.

Section Handlers.
  Variables (E : env) (bf : bool) (c : cfg) (em : emits E) (d : dict E).
  Hypothesis Hr : reachable c d.

  Lemma concat_runes : forall (ws : list bytes) t, units t = concat (map units ws) -> runes_of t = concat (map runes_of ws).
  Proof. intros ws t H. unfold runes_of. rewrite H, concat_map, map_map. reflexivity. Qed.

  Lemma serve_segment : forall query post text, text_of_request query post text -> exists l, seg_pos c (Some d) text false = Ok l /\
    serve_json bf c em false d query post = Ok (json_response bf l) /\ runes_of (norm E c text) = concat (map (fun p => runes_of (fst p)) l) /\ Forall (fun p => fst p <> []) l.
  Proof.
    intros query post text Ht. apply request_text in Ht. unfold serve_json. cbv zeta. rewrite Ht. destruct (out_total text false Hr) as (_ & (l & Hl) & _). exists l. split; [exact Hl|].
    destruct (cut_units em Hr None text) as (ws & H1 & H2 & H3 & H4). cbn [cut cut_text] in *.
    unfold seg_pos, seg_slice in *. destruct (internal_segment c (Some d) text false) as [segs| |]; try discriminate. cbn [bind to_pos to_slice] in *. rewrite Hl. cbn [bind].
    assert (Hw : ws = map fst l).
    { clear - H1 Hl. assert (G : forall segs out l out', seg_loop (fun t => Ok [(join (t_text t), t_pos t)]) d segs out = Ok l -> map fst out = out' -> seg_loop (fun t => Ok [join (t_text t)]) d segs out' = Ok (map fst l)).
      { clear. induction segs as [|s segs IH]; intros out l out' H <-; cbn [seg_loop] in *; [injection H as ->; reflexivity|]. destruct (deref d (sg_tok s)) as [t| |]; try discriminate. cbn [bind] in *.
        apply (IH _ _ _ H). rewrite map_app. reflexivity. }
      rewrite (G _ _ _ [] Hl eq_refl) in H1. congruence. }
    split; [reflexivity|]. split.
    - rewrite (concat_runes H4), Hw, map_map. reflexivity.
    - rewrite Hw in H3. rewrite Forall_map in H3. exact H3.
  Qed.
  Lemma serve_cut : forall query post text, text_of_request query post text -> exists ws, cut d c em text (Some true) = Ok ws /\
    serve_json bf c em true d query post = Ok (json_resp bf ws) /\ runes_of (if c_lower c then to_lower_str E text else reencode text) = concat (map runes_of ws) /\ Forall (fun w => w <> []) ws.
  Proof.
    intros query post text Ht. apply request_text in Ht. unfold serve_json. cbv zeta. rewrite Ht. destruct (cut_units em Hr (Some true) text) as (ws & H1 & H2 & H3 & H4). exists ws.
    split; [exact H1|]. rewrite H1. cbn [bind]. split; [reflexivity|]. split; [|exact H3]. cbn [cut_text] in *. apply concat_runes. exact H4.
  Qed.
End Handlers.

Lemma calc_find : forall E c (d d' : dict E), reachable c d -> calc_token d = Ok d' -> forall w, dict_find d' w = dict_find d w /\ dict_value d' w = dict_value d w.
Proof.
  intros E c d d' Hr Hc w. pose proof (calc_trie Hr Hc) as Ht. pose proof (@c15_step_reachable E c d OpCalc d' Hr Hc) as Hi. cbn [effective] in Hi. rewrite app_nil_r in Hi.
  unfold dict_find. rewrite Ht. split; [|rewrite !dict_value_get, Ht; reflexivity]. destruct (t_jump (d_trie d) w []) as [id|]; [|reflexivity]. destruct (t_value (d_trie d) id) as [v|]; [|reflexivity].
  assert (K : forall v, option_map (@info E) (nth_error (d_tokens d') v) = option_map (@info E) (nth_error (d_tokens d) v)) by (intro; rewrite <- !nth_error_map, Hi; reflexivity).
  specialize (K v). unfold get. destruct (nth_error (d_tokens d') v) as [t'|], (nth_error (d_tokens d) v) as [t|]; try discriminate; [|reflexivity]. cbn [option_map] in K. unfold info in K. injection K as _ K1 K2. cbn [bind]. rewrite K1, K2. reflexivity.
Qed.
Lemma force_ok : forall E c (d : dict E) text freq pos, reachable c d -> exists d1 d', seg_add_token c d text freq pos = Ok d1 /\ reachable c d1 /\ calc_token d1 = Ok d' /\ reachable c d' /\ seg_add_force c d text freq pos = Ok d'.
Proof.
  intros E c d text freq pos [os Hos]. destruct (run_ops_total c (os ++ [OpAdd text freq pos])) as [d1 H1]. assert (R1 : reachable c d1) by (exists (os ++ [OpAdd text freq pos]); exact H1).
  rewrite run_ops_app, Hos in H1. cbn [bind run_ops run_op] in H1. destruct (seg_add_token c d text freq pos) as [d1'| |] eqn:Ha; try discriminate. cbn [bind] in H1. injection H1 as ->.
  destruct (calc_reachable R1) as (d' & C1 & _ & C3). exists d1, d'. unfold seg_add_force. rewrite Ha. cbn [bind]. auto.
Qed.
