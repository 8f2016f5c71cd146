(** C81: ASCII text is treated by fixed lists of bytes, whatever the Unicode tables say. *)
From Verif Require Import S_Ascii P_Utf8 P_Utf8b P_Split P_Str P_Trim P_Trim2 P_Ascii Demo T_Split.
Local Open Scope lit_scope.

Theorem C81_ascii_split : forall E c s ws, ascii s -> (split_words E c s = Ok ws <-> ascii_words c s ws).
Proof. exact c81_split. Qed.
Print Assumptions C81_ascii_split.
Theorem C81_ascii_lower : forall E s, ascii s -> to_lower_str E s = map small s.
Proof. exact ascii_lower. Qed.
Print Assumptions C81_ascii_lower.
Theorem C81_ascii_filters : forall E s, ascii s ->
  filter_symbol E s = filter (fun b => negb (one_of symbols b || one_of blanks b || one_of puncts b)) s /\
  filter_emoji s = s /\
  (forall lang f, u_script E lang = Some f -> filter_lang E s lang = Ok (filter (fun b => one_of letters b || f (bz b)) s)) /\
  trim_punct E [s] = (if existsb (fun b => negb (one_of blanks b || one_of puncts b)) s then [s] else []) /\
  exists a b, s = a ++ trim_space E s ++ b /\ Forall (fun x => one_of blanks x = true) (a ++ b) /\
    (trim_space E s = [] \/ exists x m y n, trim_space E s = x :: m /\ trim_space E s = n ++ [y] /\ one_of blanks x = false /\ one_of blanks y = false).
Proof.
  intros E s Ha. split; [rewrite symbol_eq; apply ascii_symbol_free, Ha|]. assert (M : concat (map enc (map bz s)) = s) by (clear - Ha; induction Ha as [|b s Hb H IH]; [reflexivity|]; cbn [map concat]; rewrite IH, enc_byte by (apply Z.ltb_lt, Hb); reflexivity).
  split; [|split; [|split; [|apply ascii_trim, Ha]]].
  - rewrite emoji_eq, (ascii_runes Ha). rewrite <- M at 2. do 2 f_equal. clear - Ha. induction Ha as [|b s Hb H IH]; [reflexivity|]. cbn [map filter]. rewrite IH. destruct (Z.ltb_spec (bz b) 65536); [reflexivity|lia].
  - intros lang f Hf. rewrite (lang_eq s Hf), (ascii_runes Ha). f_equal. clear - Ha. induction Ha as [|b s Hb H IH]; [reflexivity|]. cbn [map filter]. apply Z.ltb_lt in Hb. rewrite letter_byte by exact Hb.
    destruct (_ || _); [|exact IH]. cbn [map concat]. rewrite IH, enc_byte by exact Hb. reflexivity.
  - pose proof (trim_punct_eq E [s]) as K. inversion K as [|? ? ? K1 K2 E1 E2|? ? ? K1 K2 E1 E2]; subst; inversion K2; subst; apply (ascii_solid E) in K1 || (rewrite (ascii_solid E Ha) in K1); try exact Ha.
    + apply Exists_exists in K1 as (b & B1 & B2). replace (existsb _ s) with true; [reflexivity|]. symmetry. apply existsb_exists. exists b. rewrite B2. auto.
    + destruct (existsb _ s) eqn:Ex; [|reflexivity]. destruct K1. apply existsb_exists in Ex as (b & B1 & B2). apply Exists_exists. exists b. split; [exact B1|]. apply negb_true_iff, B2.
Qed.
Print Assumptions C81_ascii_filters.
(** A byte that is not part of a character is a symbol: a word of its own, dropped with the symbols, and neither white space nor punctuation. *)
Theorem C81_stray_bytes : forall E c a b s wa ws, ascii a -> (128 <= bz b)%Z -> ascii s -> ascii_words c a wa -> ascii_words c s ws ->
  split_words E c (a ++ b :: s) = Ok (wa ++ [b] :: ws) /\ filter_symbol E (a ++ b :: s) = filter_symbol E (a ++ s) /\
  trim_punct E [a ++ b :: s] = [a ++ b :: s] /\ trim_space E [b] = [b].
Proof.
  intros E c a b s wa ws Ha Hb Hs Wa Ws. split; [apply stray_split; assumption|]. split.
  - rewrite !symbol_eq, stray_symbol by assumption. assert (H : ascii (a ++ s)) by (apply Forall_app; auto). rewrite (ascii_symbol_free E H), (ascii_symbol_free E Ha), (ascii_symbol_free E Hs). symmetry. apply filter_app.
  - split; [|apply stray_trim, Hb]. pose proof (trim_punct_eq E [a ++ b :: s]) as K. inversion K as [|? ? ? K1 K2 E1 E2|? ? ? K1 K2 E1 E2]; subst; inversion K2; subst; [reflexivity|]. destruct K1. apply stray_solid; assumption.
Qed.
Print Assumptions C81_stray_bytes.
Example C81_ex :
  split_words demo cfg0 (str "Go1.5, [x]_Y") = Ok (map str ["go1"; "."; "5"; ","; " "; "["; "x"; "]"; "_"; "y"]) /\
  filter_symbol demo (str "a+b=[c]{d}_e@f") = str "abcdef" /\ trim_punct demo (map str ["["; "$"; "_a"; " ?"]) = map str ["$"; "_a"] /\ trim_space demo (str "  a b	") = str "a b" /\
  split_words demo cfg0 (str "ab" ++ [xff] ++ str "c") = Ok [str "ab"; [xff]; str "c"] /\ filter_symbol demo (str "ab" ++ [xff] ++ str "c") = str "abc" /\
  ascii (str "Go1.5, [x]_Y").
Proof. repeat split; try (vm_compute; reflexivity). unfold ascii. cbn. repeat constructor. Qed.
