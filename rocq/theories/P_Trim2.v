(** Proofs about SplitNum, FilterHtml, joining, stop word files and the composed cuts. *)
From Verif Require Import S_Trim P_Trim P_Utf8 P_Utf8b P_Str P_Hmm P_Split P_Seg2 P_Dag2 P_Out.
Set Implicit Arguments. Unset Strict Implicit.

(** ** SplitNum *)
Lemma take_while_app : forall A (p : A -> bool) a b, Forall (fun x => p x = true) a -> match b with [] => True | x :: _ => p x = false end ->
  take_while p (a ++ b) = a.
Proof.
  intros A p a b Ha Hb. induction Ha as [|x a Hx Ha IH]; cbn [app take_while].
  - destruct b; [reflexivity|]. cbn. rewrite Hb. reflexivity.
  - rewrite Hx, IH. reflexivity.
Qed.
Lemma split_num_fuel_ok : forall f s, length s <= f ->
  concat (split_num_fuel f s) = s /\ match s with [] => split_num_fuel f s = [] | b :: _ => alternate (is_digit_b b) (split_num_fuel f s) end.
Proof.
  induction f as [|f IH]; intros s Hf; [destruct s; [split; reflexivity|cbn in Hf; lia]|]. destruct s as [|b t]; [split; reflexivity|]. cbn [split_num_fuel].
  set (p := fun c => Bool.eqb (is_digit_b c) (is_digit_b b)). destruct (tw_split p t) as (r & Hr & Hp & Hq). set (run := take_while p t) in *.
  assert (Hsk : skipn (length (b :: run)) (b :: t) = r) by (cbn [length skipn]; rewrite Hr, skipn_app, skipn_all, Nat.sub_diag; reflexivity).
  rewrite Hsk. destruct (IH r) as [I1 I2]; [apply (f_equal (@length _)) in Hr; rewrite app_length in Hr; cbn in Hf; lia|]. split.
  - cbn [concat]. rewrite I1. cbn [app]. rewrite <- Hr. reflexivity.
  - cbn [alternate]. assert (Hrun : Forall (fun c => is_digit_b c = is_digit_b b) (b :: run)).
    { constructor; [reflexivity|]. eapply Forall_impl; [|exact Hp]. intros c H. apply eqb_prop. exact H. }
    split; [destruct (is_digit_b b) eqn:E; (split; [discriminate|exact Hrun])|].
    destruct r as [|x r]; [rewrite I2; exact I|]. unfold p in Hq. replace (negb (is_digit_b b)) with (is_digit_b x); [exact I2|].
    destruct (is_digit_b x), (is_digit_b b); cbn in Hq |- *; congruence.
Qed.
Lemma alternate_head : forall dg l, alternate dg l -> l <> [] -> exists b t, concat l = b :: t /\ is_digit_b b = dg.
Proof.
  intros dg [|w l] H Hn; [congruence|]. cbn [alternate] in H. destruct H as [H _].
  assert (K : w <> [] /\ Forall (fun b => is_digit_b b = dg) w) by (destruct dg; exact H). destruct K as [K1 K2]. destruct w as [|b w]; [congruence|].
  inversion_clear K2. exists b, (w ++ concat l). auto.
Qed.
Lemma split_num_alt : forall l dg f, alternate dg l -> length (concat l) <= f -> split_num_fuel f (concat l) = l.
Proof.
  induction l as [|w l IH]; intros dg f H Hf; [destruct f; reflexivity|]. cbn [alternate] in H. destruct H as [H1 H2].
  assert (K : w <> [] /\ Forall (fun b => is_digit_b b = dg) w) by (destruct dg; exact H1). destruct K as [K1 K2]. destruct w as [|b w]; [congruence|]. inversion_clear K2.
  destruct f as [|f]; [cbn in Hf; lia|]. cbn [concat app split_num_fuel].
  rewrite take_while_app.
  - cbn [length skipn]. rewrite skipn_app, skipn_all, Nat.sub_diag. cbn [app skipn]. f_equal. apply (IH (negb dg)); [exact H2|]. cbn [concat app length] in Hf. rewrite app_length in Hf. lia.
  - eapply Forall_impl; [|exact H0]. cbv beta. intros x Hx. rewrite Hx, H. apply eqb_reflx.
  - destruct l as [|w2 l]; [exact I|]. destruct (alternate_head H2) as (x & t & E1 & E2); [discriminate|]. rewrite E1, E2, H. destruct dg; reflexivity.
Qed.
Lemma split_num_iff : forall s l, split_num s = l <-> concat l = s /\ (alternate true l \/ alternate false l).
Proof.
  intros s l. split.
  - intros <-. destruct (@split_num_fuel_ok (length s) s) as [H1 H2]; [lia|]. split; [exact H1|]. unfold split_num. destruct s as [|b t]; [left; exact I|]. destruct (is_digit_b b); auto.
  - intros [<- [H|H]]; eapply split_num_alt; eauto.
Qed.

(** ** Joining *)
Lemma joined_iff : forall sep l s, joined sep l s <-> s = strings_join l sep.
Proof.
  intros sep l s. split.
  - intro H. induction H as [|a|a b l s H IH]; [reflexivity|reflexivity|]. rewrite IH. reflexivity.
  - intros ->. induction l as [|a [|b l] IH]; [constructor|constructor|]. cbn [strings_join] in *. constructor. exact IH.
Qed.
Lemma cut_str_loop_eq : forall sep l n i r, n = i + length l -> cut_str_loop sep n i l r = r ++ strings_join l sep.
Proof.
  intros sep. induction l as [|w l IH]; intros n i r Hn; [cbn; rewrite app_nil_r; reflexivity|]. cbn [cut_str_loop]. rewrite IH by (cbn in Hn; lia). destruct l as [|w2 l].
  - cbn in Hn. replace (Z.of_nat i =? Z.of_nat n - 1)%Z with true by (symmetry; apply Z.eqb_eq; lia). cbn. rewrite app_nil_r. reflexivity.
  - cbn in Hn. replace (Z.of_nat i =? Z.of_nat n - 1)%Z with false by (symmetry; apply Z.eqb_neq; lia). rewrite <- !app_assoc. reflexivity.
Qed.
Lemma cut_str_joined : forall l sep, joined (match sep with None => [x20] | Some s => s end) l (cut_str l sep).
Proof. intros l sep. apply joined_iff. unfold cut_str. rewrite cut_str_loop_eq by reflexivity. destruct sep; reflexivity. Qed.
Lemma pos_str_loop_eq : forall sk sep l n i r, pos_str_loop sk sep n i l r = cut_str_loop sep n i (map (fun w : bytes * bytes => if sk then fst w else fst w ++ [x2f] ++ snd w) l) r.
Proof. intros sk sep. induction l as [|w l IH]; intros n i r; [reflexivity|]. cbn [pos_str_loop map cut_str_loop]. apply IH. Qed.
Lemma pos_str_joined : forall (sk : bool) (l : list (bytes * bytes)) sep,
  joined (match sep with None => [x20] | Some s => s end) (map (fun w : bytes * bytes => if sk then fst w else fst w ++ [x2f] ++ snd w) l) (pos_str sk l sep).
Proof.
  intros sk l sep. apply joined_iff. unfold pos_str. rewrite pos_str_loop_eq, cut_str_loop_eq by (rewrite map_length; reflexivity). destruct sep; reflexivity.
Qed.
(** A one-byte separator that is in no word: the words can be recovered. *)
Lemma joined_fields : forall b l s, joined [b] l s -> l <> [] -> Forall (fun w => ~ In b w) l -> fields [b] s l.
Proof.
  intros b l s H Hn HF. induction H as [|a|a b' l s H IH]; [congruence| |].
  - constructor. intros i (x & y & E & _). inversion_clear HF. apply H. rewrite E. apply in_or_app. right. left. reflexivity.
  - inversion_clear HF. constructor; [|apply IH; [discriminate|assumption]]. intros i Hi (x & y & E & Hx). apply H0.
    assert (K : nth_error (a ++ [b] ++ s) i = Some b) by (rewrite E, nth_error_app2 by lia; rewrite Hx, Nat.sub_diag; reflexivity).
    rewrite nth_error_app1 in K by lia. eapply nth_error_In, K.
Qed.

(** ** FilterHtml *)
Definition closes (inner : bytes) : bool := match rev inner with c :: _ => html_class c | [] => false end.
Lemma class_iff : forall c, html_class c = true <-> ascii_alnum (bz c) = true \/ In c [x5f; x7c; x3d; x22].
Proof.
  intro c. unfold html_class, is_alnum_b. rewrite orb_true_iff, existsb_exists. apply or_iff_compat_l. split.
  - intros (x & H1 & H2). apply Byte.byte_dec_bl in H2. subst. exact H1.
  - intro H. exists c. split; [exact H|apply Byte.byte_dec_lb; reflexivity].
Qed.
Lemma closes_snoc : forall inner c, closes (inner ++ [c]) = html_class c.
Proof. intros. unfold closes. rewrite rev_app_distr. reflexivity. Qed.
Lemma tag_iff : forall t, tag t <-> exists inner, t = x3c :: inner ++ [x3e] /\ ~ In x3e inner /\ closes inner = true.
Proof.
  intro t. split.
  - intros (inner & c & H1 & H2 & H3). exists (inner ++ [c]). rewrite closes_snoc. split; [rewrite H1, <- app_assoc; reflexivity|]. split; [exact H2|]. apply class_iff, H3.
  - intros (inner & H1 & H2 & H3). destruct inner as [|c inner _] using rev_ind; [discriminate|]. rewrite closes_snoc in H3. exists inner, c.
    split; [rewrite H1, <- app_assoc; reflexivity|]. split; [exact H2|]. apply class_iff, H3.
Qed.
Definition not_gt (c : byte) : bool := negb (Byte.eqb c x3e).
Lemma not_gt_iff : forall c, not_gt c = true <-> c <> x3e.
Proof.
  intro c. unfold not_gt. rewrite negb_true_iff. split.
  - intros H ->. discriminate.
  - intro H. destruct (Byte.eqb c x3e) eqn:E; [apply Byte.byte_dec_bl in E; congruence|reflexivity].
Qed.
Lemma not_gt_all : forall l, Forall (fun c => not_gt c = true) l <-> ~ In x3e l.
Proof.
  intro l. rewrite Forall_forall. split.
  - intros H K. apply H in K. discriminate.
  - intros H c Hc. apply not_gt_iff. intros ->. auto.
Qed.
(** The text after "<" up to the first ">", if there is one. *)
Lemma html_at_closed : forall inner rest, ~ In x3e inner -> html_at (x3c :: inner ++ x3e :: rest) = if closes inner then Some (length inner + 2) else None.
Proof.
  intros inner rest H. unfold html_at. change (Byte.eqb x3c x3c) with true. cbv iota. fold not_gt. rewrite take_while_app; [|apply not_gt_all, H|reflexivity].
  replace (length inner <? length (inner ++ x3e :: rest)) with true by (symmetry; apply Nat.ltb_lt; rewrite app_length; cbn; lia).
  unfold closes. destruct (rev inner); reflexivity.
Qed.
Lemma html_at_open : forall t, ~ In x3e t -> html_at (x3c :: t) = None.
Proof.
  intros t H. unfold html_at. change (Byte.eqb x3c x3c) with true. cbv iota. fold not_gt.
  assert (K : take_while not_gt t = t) by (rewrite <- (app_nil_r t) at 1; apply take_while_app; [apply not_gt_all, H|exact I]).
  rewrite K, Nat.ltb_irrefl. reflexivity.
Qed.
Lemma html_at_other : forall b t, b <> x3c -> html_at (b :: t) = None.
Proof. intros b t H. unfold html_at. destruct (Byte.eqb b x3c) eqn:E; [apply Byte.byte_dec_bl in E; congruence|reflexivity]. Qed.
Lemma gt_split : forall t, (~ In x3e t) \/ exists inner rest, t = inner ++ x3e :: rest /\ ~ In x3e inner.
Proof.
  induction t as [|b t IH]; [left; auto|]. destruct (Byte.byte_eq_dec b x3e) as [->|Hb]; [right; exists [], t; auto|].
  destruct IH as [H|(i & r & -> & H)]; [left; intros [K|K]; auto|right]. exists (b :: i), r. split; [reflexivity|]. intros [K|K]; auto.
Qed.
Lemma html_at_Some : forall s n, html_at s = Some n -> exists t r, s = t ++ r /\ tag t /\ length t = n.
Proof.
  intros [|b t] n H; [discriminate|]. destruct (Byte.byte_eq_dec b x3c) as [->|Hb]; [|rewrite html_at_other in H by exact Hb; discriminate].
  destruct (gt_split t) as [K|(i & r & -> & K)]; [rewrite html_at_open in H by exact K; discriminate|]. rewrite html_at_closed in H by exact K.
  destruct (closes i) eqn:Ec; [|discriminate]. injection H as <-. exists (x3c :: i ++ [x3e]), r. split; [cbn; rewrite <- app_assoc; reflexivity|].
  split; [apply tag_iff; eauto|cbn; rewrite app_length; cbn; lia].
Qed.
Lemma html_at_tag : forall t r, tag t -> html_at (t ++ r) = Some (length t).
Proof.
  intros t r H. apply tag_iff in H as (i & -> & H1 & H2). cbn [app]. rewrite <- app_assoc. cbn [app]. rewrite html_at_closed by exact H1. rewrite H2. f_equal. cbn. rewrite app_length. cbn. lia.
Qed.

Lemma html_fuel : forall f s, length s <= f -> html_loop f s = filter_html s.
Proof.
  assert (K : forall f g s, length s <= f -> length s <= g -> html_loop f s = html_loop g s).
  { induction f as [|f IH]; intros g s Hf Hg; [destruct s; [destruct g; reflexivity|cbn in Hf; lia]|]. destruct s as [|b t]; [destruct g; reflexivity|].
    destruct g as [|g]; [cbn in Hg; lia|]. cbn [html_loop]. destruct (html_at (b :: t)) as [n|] eqn:E.
    - apply html_at_Some in E as (tg & r & E1 & E2 & E3). rewrite E1 in *. rewrite <- E3, skipn_app, skipn_all, Nat.sub_diag. cbn [app skipn].
      apply tag_iff in E2 as (i & -> & _ & _). rewrite app_length in *. cbn [length] in *. apply IH; lia.
    - f_equal. apply IH; cbn in *; lia. }
  intros f s H. apply K; [exact H|lia].
Qed.
Lemma html_nil : filter_html [] = []. Proof. reflexivity. Qed.
Lemma html_tag : forall t r, tag t -> filter_html (t ++ r) = filter_html r.
Proof.
  intros t r H. pose proof (html_at_tag r H) as Ha. pose proof H as Ht. apply tag_iff in Ht as (i & Et & _ & _). unfold filter_html at 1.
  destruct (t ++ r) as [|b u] eqn:Eu; [rewrite Et in Eu; discriminate|]. cbn [length html_loop]. rewrite Ha, <- Eu, skipn_app, skipn_all, Nat.sub_diag. cbn [app skipn]. apply html_fuel.
  apply (f_equal (@length _)) in Eu. rewrite app_length in Eu. rewrite Et in Eu. cbn in Eu. lia.
Qed.
Lemma html_keep : forall b t, html_at (b :: t) = None -> filter_html (b :: t) = b :: filter_html t.
Proof. intros b t H. unfold filter_html at 1. cbn [length html_loop]. rewrite H. reflexivity. Qed.

Lemma html_at_None : forall b t, html_at (b :: t) = None -> forall tg r, b :: t = tg ++ r -> ~ tag tg.
Proof. intros b t H tg r E K. rewrite E, (html_at_tag r K) in H. discriminate. Qed.
Lemma no_tag_cons : forall b s n, html_at (b :: s) = None -> no_tag_before n s -> no_tag_before (S n) (b :: s).
Proof.
  intros b s n H1 H2 a t r E Hl. destruct a as [|x a].
  - cbn [app] in E. eapply html_at_None; eauto.
  - injection E as _ E. eapply H2; [exact E|cbn in Hl; lia].
Qed.
Lemma html_untagged : forall s, untagged s (filter_html s).
Proof.
  intro s. remember (length s) as n eqn:En. assert (Hn : length s <= n) by lia. clear En. revert s Hn. induction n as [|n IH]; intros s Hn.
  - destruct s; [|cbn in Hn; lia]. apply ut_end. intros a t r _ H. cbn in H. lia.
  - destruct s as [|b s]; [apply ut_end; intros a t r _ H; cbn in H; lia|]. destruct (html_at (b :: s)) as [k|] eqn:Eh.
    + apply html_at_Some in Eh as (t & r & E1 & E2 & E3). rewrite E1, (html_tag r E2). apply (@ut_tag [] t r); [exact E2|intros a u v _ H; cbn in H; lia|].
      apply IH. apply (f_equal (@length _)) in E1. rewrite app_length in E1. apply tag_iff in E2 as (i & -> & _). cbn in *. lia.
    + rewrite (html_keep Eh). specialize (IH s ltac:(cbn in Hn; lia)). revert Eh IH. generalize (filter_html s). clear Hn. intros o Eh IH. revert Eh.
      destruct IH as [s Hs|a t s out Ht Hs Hu]; intro Eh.
      * apply ut_end. cbn [length]. apply no_tag_cons; assumption.
      * apply (@ut_tag (b :: a) t s out); [exact Ht| |exact Hu]. cbn [length app]. apply no_tag_cons; [exact Eh|exact Hs].
Qed.
Lemma html_prefix : forall a s, no_tag_before (length a) (a ++ s) -> filter_html (a ++ s) = a ++ filter_html s.
Proof.
  induction a as [|b a IH]; intros s H; [reflexivity|]. cbn [app]. rewrite html_keep.
  - rewrite IH; [reflexivity|]. intros x t r E Hl. apply (H (b :: x) t r); [cbn [app]; rewrite <- E; reflexivity|cbn; lia].
  - destruct (html_at (b :: a ++ s)) as [n|] eqn:E; [|reflexivity]. apply html_at_Some in E as (t & r & E1 & E2 & _). exfalso. apply (H [] t r); [exact E1|cbn; lia|exact E2].
Qed.
Lemma untagged_html : forall s out, untagged s out -> filter_html s = out.
Proof.
  intros s out H. induction H as [s Hs|a t s out Ht Hs H IH].
  - rewrite <- (app_nil_r s) in Hs at 2. apply html_prefix in Hs. rewrite app_nil_r in Hs. rewrite Hs, html_nil, app_nil_r. reflexivity.
  - rewrite html_prefix by exact Hs. rewrite (html_tag s Ht), IH. reflexivity.
Qed.
Lemma html_subset : forall s x, In x (filter_html s) -> In x s.
Proof.
  intros s x. pose proof (html_untagged s) as H. revert H. generalize (filter_html s). intros out H. induction H as [s Hs|a t s out Ht Hs H IH]; [auto|].
  rewrite !in_app_iff. tauto.
Qed.
Lemma closes_cons : forall b i, closes (b :: i) = false -> closes i = false.
Proof. intros b i H. destruct i as [|c i _] using rev_ind; [reflexivity|]. change (b :: i ++ [c]) with ((b :: i) ++ [c]) in H. rewrite closes_snoc in *. exact H. Qed.
Lemma html_inner : forall inner rest, ~ In x3e inner -> closes inner = false -> filter_html (inner ++ x3e :: rest) = inner ++ x3e :: filter_html rest.
Proof.
  induction inner as [|b i IH]; intros rest H1 H2.
  - cbn [app]. apply html_keep, html_at_other. discriminate.
  - cbn [app]. rewrite html_keep.
    + rewrite IH; [reflexivity|intro K; apply H1; right; exact K|exact (closes_cons H2)].
    + destruct (Byte.byte_eq_dec b x3c) as [->|Hb]; [|apply html_at_other, Hb]. rewrite html_at_closed by (intro K; apply H1; right; exact K). rewrite (closes_cons H2). reflexivity.
Qed.
Lemma html_idem : forall s, filter_html (filter_html s) = filter_html s.
Proof.
  intro s. remember (length s) as n eqn:En. assert (Hn : length s <= n) by lia. clear En. revert s Hn. induction n as [|n IH]; intros s Hn.
  - destruct s; [reflexivity|cbn in Hn; lia].
  - destruct s as [|b s]; [reflexivity|]. destruct (html_at (b :: s)) as [k|] eqn:Eh.
    + apply html_at_Some in Eh as (t & r & E1 & E2 & E3). rewrite E1, (html_tag r E2). apply IH.
      apply (f_equal (@length _)) in E1. rewrite app_length in E1. apply tag_iff in E2 as (i & -> & _). cbn in *. lia.
    + rewrite (html_keep Eh). rewrite html_keep; [f_equal; apply IH; cbn in Hn; lia|]. destruct (Byte.byte_eq_dec b x3c) as [->|Hb]; [|apply html_at_other, Hb].
      destruct (gt_split s) as [K|(i & r & -> & K)].
      * apply html_at_open. intro H. apply K, html_subset, H.
      * rewrite html_at_closed in Eh by exact K. destruct (closes i) eqn:Ec; [discriminate|]. rewrite html_inner by assumption. rewrite html_at_closed by exact K. rewrite Ec. reflexivity.
Qed.
Lemma html_no_tag : forall s a t b, filter_html s = a ++ t ++ b -> ~ tag t.
Proof.
  intros s a t b H K. pose proof (html_idem s) as Hi. rewrite H in Hi. pose proof (html_untagged (a ++ t ++ b)) as Hu.
  assert (L : forall s out, untagged s out -> length out <= length s /\ (length out = length s -> no_tag_before (length s) s)).
  { clear. intros s out H. induction H as [s Hs|a t s out Ht Hs H [I1 I2]]; [split; auto|]. rewrite !app_length. apply tag_iff in Ht as (i & -> & _). cbn [length]. split; lia. }
  apply L in Hu as [_ Hu]. rewrite Hi in Hu. apply (Hu eq_refl a t b eq_refl); [|exact K]. rewrite !app_length. apply tag_iff in K as (i & -> & _). cbn. lia.
Qed.

(** ** Stop word files *)
Lemma drop_cr_iff : forall l w, chomped l w <-> w = drop_cr l.
Proof.
  intros l w. destruct l as [|c l _] using rev_ind.
  - unfold chomped. cbn. split; [intros [H|[H _]]; [destruct w; discriminate|auto]|intros ->; right; split; [reflexivity|destruct a; discriminate]].
  - unfold drop_cr. rewrite rev_app_distr. cbn [rev app]. destruct (Byte.eqb c x0d) eqn:E.
    + apply Byte.byte_dec_bl in E. subst c. rewrite rev_involutive. split; [intros [H|[_ H]]; [apply app_inj_tail in H; symmetry; apply H|destruct (H l eq_refl)]|intros ->; left; reflexivity].
    + split; [intros [H|[H _]]; [apply app_inj_tail in H as [_ H]; subst c; discriminate|auto]|intros ->; right; split; [reflexivity|]]. intros a H. apply app_inj_tail in H as [_ ->]. discriminate.
Qed.
Lemma short_in : forall ls w, In w (short_lines ls) <-> exists before l after, ls = before ++ l :: after /\ w = drop_cr l /\ Forall (fun x => (Z.of_nat (length x) < 65536)%Z) (before ++ [l]).
Proof.
  induction ls as [|l ls IH]; intro w; cbn [short_lines].
  - split; [intros []|intros (b & l & a & H & _)]. destruct b; discriminate.
  - destruct (Z.of_nat (length l) <=? 65535)%Z eqn:E.
    + apply Z.leb_le in E. cbn [In]. rewrite IH. split.
      * intros [<-|(b & l' & a & -> & H2 & H3)]; [exists [], l, ls; split; [reflexivity|]; split; [reflexivity|]; repeat constructor; lia|].
        exists (l :: b), l', a. split; [reflexivity|]. split; [exact H2|]. constructor; [lia|exact H3].
      * intros (b & l' & a & H1 & H2 & H3). destruct b as [|x b]; injection H1 as -> ->; [left; auto|right]. exists b, l', a. inversion_clear H3. auto.
    + apply Z.leb_gt in E. split; [intros []|]. intros (b & l' & a & H1 & H2 & H3). destruct b as [|x b]; injection H1 as -> ->; inversion_clear H3; lia.
Qed.
Lemma file_word_iff : forall data w, file_word data w <-> In w (filter (fun k => negb (beqb k [])) (scan_lines data)).
Proof.
  intros data w. rewrite filter_In, nonempty_b. unfold file_word, scan_lines. rewrite short_in. split.
  - intros (H & b & l & a & H1 & H2 & H3). split; [|exact H]. apply fields_iff in H1; [|discriminate]. exists b, l, a. split; [auto|]. split; [apply drop_cr_iff, H2|exact H3].
  - intros ((b & l & a & H1 & H2 & H3) & H). split; [exact H|]. exists b, l, a. split; [apply fields_iff; [discriminate|auto]|]. split; [apply drop_cr_iff, H2|exact H3].
Qed.
Lemma stop_files_ok : forall fs ps l,
  (forall w, is_stop (fst (stop_files fs ps l)) w = true <-> In w l \/
     exists before p after data, ps = before ++ p :: after /\ Forall (fun q => fs q <> None) before /\ fs p = Some data /\ file_word data w) /\
  (snd (stop_files fs ps l) = true <-> exists p, In p ps /\ fs p = None) /\ fst (stop_files fs ps l) <> None.
Proof.
  intros fs. induction ps as [|p ps IH]; intro l; cbn [stop_files].
  - split; [|split; [|discriminate]].
    + intro w. cbn [fst]. rewrite is_stop_made. cbn [made]. split; [auto|]. intros [H|(b & p & a & data & H & _)]; [exact H|destruct b; discriminate].
    + cbn. split; [discriminate|intros (p & [] & _)].
  - destruct (fs p) as [data|] eqn:E.
    + destruct (IH (put_all l (filter (fun k => negb (beqb k [])) (scan_lines data)))) as (I1 & I2 & I3). split; [|split; [|exact I3]].
      * intro w. rewrite I1, put_all_in, <- file_word_iff. split.
        -- intros [[H|H]|(b & q & a & dt & -> & H2 & H3)]; [auto|right; exists [], p, ps, data; auto|].
           right. exists (p :: b), q, a, dt. split; [reflexivity|]. split; [constructor; [congruence|exact H2]|exact H3].
        -- intros [H|(b & q & a & dt & H1 & H2 & H3 & H4)]; [auto|]. destruct b as [|x b]; injection H1 as -> ->.
           ++ left. right. congruence.
           ++ right. exists b, q, a, dt. inversion_clear H2. auto.
      * rewrite I2. split; intros (q & H1 & H2); exists q; (split; [|exact H2]); [right; exact H1|]. destruct H1 as [->|H1]; [congruence|exact H1].
    + cbn [fst snd]. split; [|split; [|discriminate]].
      * intro w. rewrite is_stop_made. cbn [made]. split; [auto|]. intros [H|(b & q & a & dt & H1 & H2 & H3 & H4)]; [exact H|]. destruct b as [|x b]; injection H1 as -> ->; [congruence|inversion_clear H2; congruence].
      * split; [|reflexivity]. intros _. exists p. split; [left; reflexivity|exact E].
Qed.
Lemma load_stop_ok : forall fs m files, exists ps, stop_paths files ps /\
  (forall w, is_stop (fst (load_stop fs m files)) w = true <-> is_stop m w = true \/
     exists before p after data, ps = before ++ p :: after /\ Forall (fun q => fs q <> None) before /\ fs p = Some data /\ file_word data w) /\
  (snd (load_stop fs m files) = true <-> exists p, In p ps /\ fs p = None) /\ fst (load_stop fs m files) <> None.
Proof.
  intros fs m files. unfold load_stop. destruct files as [|f files]; cbn [stop_paths].
  - exists [SDefault]. split; [reflexivity|]. destruct (stop_files_ok fs [SDefault] (made m)) as (H1 & H2). split; [|exact H2]. intro w. rewrite H1, is_stop_made. reflexivity.
  - change (str ", ")%lit with [x2c; x20]. change (str "zh")%lit with [x7a; x68]. pose proof (@split_fields [x2c; x20] f ltac:(discriminate)) as Hf. destruct (split_str f [x2c; x20]) as [|n ns] eqn:Es; [destruct (split_str_ne Es)|].
    set (ps := (if beqb n [x7a; x68] then SZh else SUser n) :: map SUser ns). exists ps. split; [exists n, ns; auto|].
    destruct (stop_files_ok fs ps (made m)) as (H1 & H2). split; [|exact H2]. intro w. rewrite H1, is_stop_made. reflexivity.
Qed.

(** ** Composed cuts *)
Section Cuts.
  Variable E : env.

  Lemma symbol_units : forall l s, units s = concat (map units l) -> symbol_free E s = concat (map (symbol_free E) l).
  Proof.
    intros l s H. unfold symbol_free, runes_of. rewrite H. clear H. induction l as [|w l IH]; [reflexivity|]. cbn [map concat]. rewrite map_app, filter_app, map_app, concat_app, IH. reflexivity.
  Qed.
  Lemma units_valid : forall l, Forall valid l -> units (concat l) = concat (map units l).
  Proof.
    assert (V : forall l, Forall valid l -> valid (concat l)) by (intros l H; induction H; [apply valid_nil|apply valid_app; assumption]).
    induction l as [|w l IH]; intro H; [reflexivity|]. inversion_clear H. cbn [map concat]. rewrite units_sync by (apply valid_sync, V; assumption). rewrite IH by assumption. reflexivity.
  Qed.

  (** A word list tiling the words of a text. *)
  Lemma wsplit_units : forall c s ps, concat ps = wsplit E c s -> concat (map units (map (@concat byte) ps)) = units (norm E c s).
  Proof.
    intros c s ps H. destruct (split_is_split E c s) as (gs & a & Hg & Hc & Hw). rewrite Hw in H.
    assert (K : exists gss, concat gss = gs /\ ps = map (map (fun g => concat (map (norm_unit E c) g))) gss).
    { clear Hg Hc Hw a. revert gs H. induction ps as [|p ps IH]; intros gs H; [cbn in H; destruct gs; [exists []; auto|discriminate]|]. cbn [concat] in H.
      symmetry in H. apply map_eq_app in H as (g1 & g2 & -> & H1 & H2). destruct (IH g2 (eq_sym H2)) as (gss & K1 & K2). exists (g1 :: gss). cbn. rewrite K1, K2, H1. auto. }
    destruct K as (gss & K1 & ->). rewrite map_map. subst gs.
    assert (G : forall gss us, units s = us ++ concat (concat gss) -> concat (map (fun x => units (concat (map (fun g => concat (map (norm_unit E c) g)) x))) gss) = map (nunit E c) (concat (concat gss))).
    { clear. induction gss as [|g gss IH]; intros us H; [reflexivity|]. cbn [map concat] in *. rewrite concat_app in *.
      rewrite (IH (us ++ concat g)) by (rewrite <- app_assoc; exact H). rewrite map_app. f_equal.
      replace (concat (map (fun g => concat (map (norm_unit E c) g)) g)) with (concat (map (norm_unit E c) (concat g))) by (clear; induction g as [|x g IH]; [reflexivity|]; cbn [map concat]; rewrite map_app, concat_app, IH; reflexivity).
      apply (units_norm_part _ _ H). }
    rewrite map_map. rewrite (G gss []) by (symmetry; exact Hc). rewrite Hc. symmetry. apply (@units_norm_part E c [] (units s) [] s). rewrite app_nil_r. reflexivity.
  Qed.
End Cuts.

(** ** LoadStopEmbed *)
Lemma embed_list : forall E fs m w, is_stop (fold_left (load_stop_str E) fs m) w = true <-> is_stop m w = true \/ exists f, In f fs /\ stop_line E f w.
Proof.
  intros E. induction fs as [|f fs IH]; intros m w; cbn [fold_left].
  - split; [auto|]. intros [H|(f & [] & _)]. exact H.
  - rewrite IH, stop_str_in. split.
    + intros [[H|H]|(g & H1 & H2)]; [auto|right; exists f; cbn; auto|right; exists g; cbn; auto].
    + intros [H|(g & [->|H1] & H2)]; [auto|auto|right; exists g; auto].
Qed.
Lemma embed_ok : forall E sd m d fs w, fields [x2c; x20] d fs ->
  (is_stop (load_stop_embed E sd m None) w = true <-> is_stop m w = true \/ stop_line E sd w) /\
  (is_stop (load_stop_embed E sd m (Some d)) w = true <-> is_stop m w = true \/
     (if (2 <=? length fs) && contains d [x7a; x68; x2c] then stop_line E sd w \/ exists f, In f (tl fs) /\ stop_line E f w
      else exists f, In f fs /\ stop_line E f w)).
Proof.
  intros E sd m d fs w H. split; [apply stop_str_in|]. unfold load_stop_embed. change (str ", ")%lit with [x2c; x20]. change (str "zh,")%lit with [x7a; x68; x2c].
  assert (Hc : contains d [x2c; x20] = (2 <=? length fs)).
  { inversion H as [s Hs E1 E2|f rest fs' Hs Hf E1 E2]; subst.
    - cbn [length]. destruct (contains d [x2c; x20]) eqn:Ec; [|reflexivity]. apply contains_iff in Ec as (a & b & ->). destruct (Hs (length a)). exists a, b. auto.
    - assert (1 <= length fs') by (inversion Hf; cbn; lia). replace (2 <=? length (f :: fs')) with true by (symmetry; apply Nat.leb_le; cbn; lia). apply contains_iff. eauto. }
  rewrite Hc. pose proof H as Hf. apply fields_iff in H; [|discriminate]. destruct (2 <=? length fs) eqn:El; cbn [andb].
  - destruct (contains d [x7a; x68; x2c]); rewrite embed_list, <- H; cbn [skipn]; [|reflexivity]. rewrite stop_str_in. destruct fs; cbn [skipn tl]; tauto.
  - apply Nat.leb_gt in El. clear H Hc. assert (fs = [d]) as -> by (inversion Hf as [s Hs E1 E2|f rest fs' Hs Hf' E1 E2]; subst; [reflexivity|inversion Hf'; subst; cbn in El; lia]).
    rewrite stop_str_in. split; intros [K|K]; auto; [right; exists d; cbn; auto|]. destruct K as (f & [->|[]] & K). auto.
Qed.
