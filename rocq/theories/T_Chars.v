(** C94: bytes, characters and their classes. *)
From Verif Require Import S_Chars P_Chars P_Utf8b P_Trim P_Seg Ieee Demo.
Local Open Scope lit_scope.

(** Every byte string, valid or not, is read by RFC 3629. *)
Theorem C94_decode : forall s rs, runes_of s = rs <-> decodes s rs.
Proof. intros s rs. symmetry. apply decodes_iff. Qed.
Print Assumptions C94_decode.
Theorem C94_encode : forall r p, string_of_rune r = p <-> utf8 r p \/ ((forall q, ~ utf8 r q) /\ p = [xef; xbf; xbd]).
Proof. exact string_of_rune_iff. Qed.
Print Assumptions C94_encode.
Theorem C94_classes : forall (E : env) (r : Z),
  (is_letter E r = true <-> class letters false (u_letter E) r) /\ (is_number E r = true <-> class digits false (u_number E) r) /\
  (is_space E r = true <-> class blanks false (u_space E) r) /\ (is_punct E r = true <-> class puncts false (u_punct E) r) /\
  (is_symbol E r = true <-> class symbols true (u_symbol E) r) /\
  (is_han E r = true <-> class [] false (u_han E) r) /\ (is_kana E r = true <-> class [] false (u_kana E) r).
Proof.
  intros E r. split; [apply letter_class|]. split; [apply number_class|]. split; [apply space_class|]. split; [apply punct_class|].
  split; [apply symbol_class|]. split; [apply han_class|apply kana_class].
Qed.
Print Assumptions C94_classes.
Theorem C94_lower : forall (E : env) (r : Z),
  (forall i, i < 26 -> r = bz (nth i capitals x00) -> rune_lower E r = bz (nth i smalls x00)) /\
  (~ In r (map bz capitals) -> (r < 128)%Z \/ r = 65533%Z -> rune_lower E r = r) /\
  ((128 <= r)%Z -> r <> 65533%Z -> rune_lower E r = u_lower E r).
Proof.
  intros E r. split; [intros i Hi ->; apply lower_letters, Hi|]. split; [apply lower_rest|].
  intros H1 H2. unfold rune_lower. destruct (Z.ltb_spec r 128); [lia|]. change RuneError with 65533%Z. destruct (Z.eqb_spec r 65533); [contradiction|reflexivity].
Qed.
Print Assumptions C94_lower.
(** The filters of trim.go and IsJp, in these terms: what is kept, and how it is written. *)
Theorem C94_filters : forall (E : env) s rs, decodes s rs ->
  (exists out, selects (fun r => ~ class symbols true (u_symbol E) r /\ ~ class blanks false (u_space E) r /\ ~ class puncts false (u_punct E) r) rs out /\
     written out (filter_symbol E s)) /\
  (exists out, selects (fun r => (r < 65536)%Z) rs out /\ written out (filter_emoji s)) /\
  (forall lang f, u_script E lang = Some f -> exists out t, selects (fun r => class letters false (u_letter E) r \/ f r = true) rs out /\
     filter_lang E s lang = Ok t /\ written out t) /\
  (exists out, written rs out /\ concat (range_str s) = out) /\
  (is_jp E s = true <-> exists r, In r rs /\ class [] false (u_kana E) r).
Proof.
  intros E s rs H. apply decodes_iff in H as <-.
  assert (W : forall p, written (filter p (runes_of s)) (concat (map enc (filter p (runes_of s))))).
  { intro p. apply written_enc. split; [apply filter_scalar|reflexivity]. }
  split; [|split; [|split; [|split]]].
  - eexists. split; [|rewrite symbol_eq; apply W]. apply selects_filter. intro r. unfold wordy.
    rewrite <- symbol_class, <- space_class, <- punct_class. destruct (is_symbol E r), (is_space E r), (is_punct E r); cbn; intuition congruence.
  - eexists. split; [|rewrite emoji_eq; apply W]. apply selects_filter. intro r. apply Z.ltb_lt.
  - intros lang f Hf. eexists. eexists. split; [|split; [apply (lang_eq s Hf)|apply W]]. apply selects_filter. intro r.
    rewrite <- letter_class. destruct (is_letter E r), (f r); cbn; intuition congruence.
  - eexists. split; [apply written_enc; split; [apply runes_scalar|reflexivity]|]. destruct (range_eq s) as [-> _]. reflexivity.
  - unfold is_jp. rewrite existsb_exists. split; intros (r & Hr & K); exists r; (split; [exact Hr|apply kana_class; exact K]).
Qed.
Print Assumptions C94_filters.
(** A stray byte, a character of three bytes, a truncated one and an encoded surrogate. *)
Example C94_ex : decodes ([xff] ++ str "世" ++ [xe4; xb8] ++ [xed; xa0; x80]) ([65533; 19990; 65533; 65533; 65533; 65533; 65533])%Z /\
  filter_symbol demo ([xff] ++ str "a+世" ++ [xe4; xb8]) = str "a世" /\ is_jp demo (str "aあ") = true /\ is_jp demo (str "a世") = false.
Proof. split; [apply decodes_iff; vm_compute; reflexivity|]. repeat split; vm_compute; reflexivity. Qed.
