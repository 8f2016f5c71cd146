(** C31-C35: the HMM cutter. *)
From Verif Require Import S_Hmm P_Laws64 P_Hmm Ieee Demo.
Local Open Scope lit_scope.

(** Entries of hmm/prob_emit.go for the characters of the examples (tools/demo_emit.py). *)
Definition demo_emit : emits demo := fun y r =>
  match y with
  | HB =>
    if (r =? 32445)%Z then Some (lit_64 (-165793303611009) (-44)) else
    if (r =? 32422)%Z then Some (lit_64 (-2459039108793605) (-48)) else
    if (r =? 26102)%Z then Some (lit_64 (-3183200973510715) (-49)) else
    if (r =? 20195)%Z then Some (lit_64 (-7264233487333299) (-50)) else
    if (r =? 24191)%Z then Some (lit_64 (-1846839573009057) (-48)) else
    if (r =? 22330)%Z then Some (lit_64 (-286668714024239) (-45)) else
    if (r =? 35199)%Z then Some (lit_64 (-3425763695420303) (-49)) else
    if (r =? 38597)%Z then Some (lit_64 (-1263266733695005) (-47)) else
    if (r =? 22270)%Z then Some (lit_64 (-8249158358673963) (-50)) else
    if (r =? 22826)%Z then Some (lit_64 (-7415304801795007) (-50)) else
    if (r =? 31354)%Z then Some (lit_64 (-973692330802783) (-47)) else
    if (r =? 38024)%Z then Some (lit_64 (-2395255497277369) (-48)) else
    None
  | HE =>
    if (r =? 32445)%Z then Some (lit_64 (-1395257808463679) (-47)) else
    if (r =? 32422)%Z then Some (lit_64 (-4139457742287421) (-49)) else
    if (r =? 26102)%Z then Some (lit_64 (-770645201027297) (-47)) else
    if (r =? 20195)%Z then Some (lit_64 (-3356562091613749) (-49)) else
    if (r =? 24191)%Z then Some (lit_64 (-4789601209667437) (-49)) else
    if (r =? 22330)%Z then Some (lit_64 (-6515430993886001) (-50)) else
    if (r =? 35199)%Z then Some (lit_64 (-3722167433086565) (-49)) else
    if (r =? 38597)%Z then Some (lit_64 (-78561017725877) (-43)) else
    if (r =? 22270)%Z then Some (lit_64 (-8490070749159653) (-50)) else
    if (r =? 22826)%Z then Some (lit_64 (-143890562299661) (-44)) else
    if (r =? 31354)%Z then Some (lit_64 (-8277978449273707) (-50)) else
    if (r =? 38024)%Z then Some (lit_64 (-298918864012563) (-45)) else
    None
  | HM =>
    if (r =? 32445)%Z then Some (lit_64 (-5575185276940065) (-49)) else
    if (r =? 32422)%Z then Some (lit_64 (-2220716825675413) (-48)) else
    if (r =? 26102)%Z then Some (lit_64 (-7141062423470277) (-50)) else
    if (r =? 20195)%Z then Some (lit_64 (-5220504133377347) (-50)) else
    if (r =? 24191)%Z then Some (lit_64 (-7201208783770619) (-50)) else
    if (r =? 22330)%Z then Some (lit_64 (-4208247359216947) (-49)) else
    if (r =? 35199)%Z then Some (lit_64 (-6561441700479643) (-50)) else
    if (r =? 38597)%Z then Some (lit_64 (-8660499690980515) (-50)) else
    if (r =? 22270)%Z then Some (lit_64 (-1165684206396217) (-47)) else
    if (r =? 22826)%Z then Some (lit_64 (-1722327991071263) (-48)) else
    if (r =? 31354)%Z then Some (lit_64 (-7877614329906891) (-50)) else
    if (r =? 38024)%Z then Some (lit_64 (-1431489092705661) (-47)) else
    None
  | HS =>
    if (r =? 32445)%Z then Some (lit_64 (-6348737813837223) (-49)) else
    if (r =? 32422)%Z then Some (lit_64 (-123003629631703) (-44)) else
    if (r =? 26102)%Z then Some (lit_64 (-1594714830730967) (-48)) else
    if (r =? 20195)%Z then Some (lit_64 (-4734625722061045) (-49)) else
    if (r =? 24191)%Z then Some (lit_64 (-4936285174207965) (-49)) else
    if (r =? 22330)%Z then Some (lit_64 (-1107706199736827) (-47)) else
    if (r =? 35199)%Z then Some (lit_64 (-4165375403819607) (-49)) else
    if (r =? 38597)%Z then Some (lit_64 (-360909420191353) (-45)) else
    if (r =? 22270)%Z then Some (lit_64 (-8796890234297639) (-50)) else
    if (r =? 22826)%Z then Some (lit_64 (-3992765960043289) (-49)) else
    if (r =? 31354)%Z then Some (lit_64 (-583814973159155) (-46)) else
    if (r =? 38024)%Z then Some (lit_64 (-331361799041861) (-45)) else
    None
  end.

Definition ny : bytes := str "纽约时代广场".
Definition path_of (r : res (f64 demo * list hst)) : list hst := match r with Ok (_, p) => p | _ => [] end.

(** C31 *)
Theorem C31_state_path_legal : forall E (em : emits E) obs, obs <> [] ->
  exists p path, viterbi em obs all_states = Ok (p, path) /\ length path = length obs /\ legal_path path /\
    (last_state path = Some HE \/ last_state path = Some HS) /\ p = path_prob em obs path.
Proof. exact c31. Qed.
Print Assumptions C31_state_path_legal.

Example C31_ex : path_of (viterbi demo_emit (runes_of ny) all_states) = [HB; HE; HB; HM; HM; HE].
Proof. vm_compute. reflexivity. Qed.
(** Also when nothing is known about the characters (the table is empty before LoadModel). *)
Example C31_ex_no_model : path_of (viterbi (@no_model demo) (runes_of ny) all_states) = [HS; HS; HS; HS; HS; HS].
Proof. vm_compute. reflexivity. Qed.

(** The probabilities are those of the source, the missing ones -3.14e100; exactly the allowed transitions have one. *)
Theorem C31_tables_of_the_source : forall E y0 y,
  match dec_start y with
  | Some n => exists m e, prob_start E y = lit64 E m e /\ nearest n m e
  | None => exists m e, prob_start E y = lit64 E m e /\ (2 ^ 52 <= Z.abs m < 2 ^ 53 /\ 0 < e /\ 2 * Z.abs (m * 2 ^ e + 314 * 10 ^ 98) <= 2 ^ e)%Z
  end /\
  match dec_trans y0 y with
  | Some n => legal y0 y /\ exists m e, prob_trans E y0 y = Some (lit64 E m e) /\ nearest n m e
  | None => ~ legal y0 y
  end.
Proof.
  intros E y0 y. split.
  - destruct y; eexists _, _; (split; [reflexivity|]); first [lia|split; [lia|]; first [exists 0%Z; lia|exists 1%Z; lia]].
  - destruct y0, y; cbn [dec_trans legal]; try exact (fun H => H); (split; [exact I|]); eexists _, _; (split; [reflexivity|]); first [lia|split; [lia|]; first [exists 0%Z; lia|exists 1%Z; lia]].
Qed.
Print Assumptions C31_tables_of_the_source.

(** C32 *)
Theorem C32_state_path_optimal : forall E (em : emits E) obs p path, ar E = ieee ->
  (forall q y, length q = length obs -> legal_path q -> last_state q = Some y -> num64 (path_prob em obs q)) ->
  viterbi em obs all_states = Ok (p, path) ->
  forall q, length q = length obs -> legal_path q -> (last_state q = Some HE \/ last_state q = Some HS) -> le64 (path_prob em obs q) p.
Proof.
  intros E em obs p path HE Hn. apply c32; [rewrite HE; exact ieee_laws64|]. intros q y (H1 & H2 & H3). eauto.
Qed.
Print Assumptions C32_state_path_optimal.

(** In particular for every table of finite values. *)
Theorem C32_state_path_optimal_finite : forall E (em : emits E) obs p path, ar E = ieee ->
  (forall y o v, em y o = Some v -> fin64 v) ->
  viterbi em obs all_states = Ok (p, path) ->
  forall q, length q = length obs -> legal_path q -> (last_state q = Some HE \/ last_state q = Some HS) -> le64 (path_prob em obs q) p.
Proof.
  intros E em obs p path HE Hf Hv. apply (@c32 E em) with (path := path); [rewrite HE; exact ieee_laws64| |exact Hv].
  apply fin_no_nan; auto. intros ->. discriminate Hv.
Qed.
Print Assumptions C32_state_path_optimal_finite.

Lemma demo_emit_fin : forall y o v, demo_emit y o = Some v -> fin64 (A := ieee) v.
Proof.
  intros y o v H. destruct y; unfold demo_emit in H;
    repeat match type of H with (if ?c then _ else _) = _ => destruct c; [injection H as <-; vm_compute; reflexivity|] end; discriminate.
Qed.
(** The other way to cut, 纽约时/代广场 (BMEBME), is less probable than the one chosen. *)
Example C32_ex : match viterbi demo_emit (runes_of ny) all_states with
  | Ok (p, _) => ltb64 demo (path_prob (E := demo) demo_emit (runes_of ny) [HB; HM; HE; HB; HM; HE]) p
  | _ => false end = true.
Proof. vm_compute. reflexivity. Qed.

(** C33 *)
Theorem C33_hmm_cut_preserves_text : forall E (em : emits E) s reg, Forall (fun f => wf_matcher f /\ nonempty_matcher f) reg ->
  exists out, hmm_cut em s reg = Ok out /\ Forall (fun w => w <> []) out /\ preserved s out /\
    (length reg <= 1 -> concat out = s) /\
    (valid s -> Forall rune_matcher reg -> concat out = s).
Proof. exact c33. Qed.
Print Assumptions C33_hmm_cut_preserves_text.

(** A text of Han characters is cut after each E and S of its state path. *)
Theorem C33_hmm_cut_follows_path : forall E (em : emits E) s, s <> [] -> Forall (fun r => is_han E r = true) (runes_of s) ->
  exists p path, viterbi em (runes_of s) all_states = Ok (p, path) /\
    hmm_cut em s [] = Ok (map string_of_runes (cut_after path (runes_of s) [])).
Proof. exact c33_han. Qed.
Print Assumptions C33_hmm_cut_follows_path.

Example C33_ex : hmm_cut demo_emit (str "西雅图太空针, 纽约时代广场, New York City.") [] =
  Ok (map str ["西雅图"; "太空针"; ", "; "纽约"; "时代广场"; ", "; "New"; " "; "York"; " "; "City"; "."]).
Proof. vm_compute. reflexivity. Qed.
Example C33_ex_number : hmm_cut demo_emit (str "v3.14a时代") [] = Ok (map str ["v3"; "."; "14a"; "时代"]).
Proof. vm_compute. reflexivity. Qed.
Example C33_ex_invalid : hmm_cut demo_emit (xff :: str "a时代") [] = Ok ([[xff]] ++ map str ["a"; "时代"]).
Proof. vm_compute. reflexivity. Qed.

(** C34 *)
Theorem C34_empty_skip_match_hangs : forall E (em : emits E) s reg skip, pick_skip reg = skip -> skip s = Some (0, 0) -> s <> [] ->
  (pick_han E reg s = None \/ exists a b, pick_han E reg s = Some (S a, b)) ->
  forall fuel result, hcut_loop fuel em (pick_han E reg) (pick_skip reg) s result = Hang.
Proof. exact c34_hang. Qed.
Print Assumptions C34_empty_skip_match_hangs.

Theorem C34_empty_han_match_panics : forall E (em : emits E) s reg, pick_han E reg s = Some (0, 0) -> hmm_cut em s reg = Panic.
Proof. exact c34_panic. Qed.
Print Assumptions C34_empty_han_match_panics.

(** The expression [0-9]* : the leading digits. *)
Definition digits_star : matcher := fun s => Some (0, length (take_while is_digit_b s)).
Lemma digits_star_wf : wf_matcher digits_star.
Proof. intros s a b H. injection H as <- <-. pose proof (tw_length is_digit_b s). lia. Qed.
Theorem C34_termination_refuted :
  (exists f s, wf_matcher f /\ forall fuel result, hcut_loop fuel demo_emit (pick_han demo [f]) (pick_skip [f]) s result = Hang) /\
  (exists f g s, wf_matcher f /\ wf_matcher g /\ hmm_cut demo_emit s [f; g] = Panic).
Proof.
  split.
  - exists digits_star, (str "a"). split; [exact digits_star_wf|].
    apply (@C34_empty_skip_match_hangs demo demo_emit (str "a") [digits_star] digits_star eq_refl); [reflexivity|discriminate|left; reflexivity].
  - exists (reg_skip), digits_star, (str "a"). split; [apply skip_wf|]. split; [exact digits_star_wf|]. apply C34_empty_han_match_panics. reflexivity.
Qed.
Print Assumptions C34_termination_refuted.

(** C35 *)
Theorem C35_model_is_global : forall E (def : emits E) before o after m id s reg, sets_model def o = Some m ->
  Forall (fun o => sets_model def o = None) after ->
  forall g, snd (run_hops def g (before ++ o :: after ++ [HCut id s reg])) = snd (run_hops def g (before ++ o :: after)) ++ [hmm_cut m s reg].
Proof. exact c35. Qed.
Print Assumptions C35_model_is_global.
Theorem C35_cut_mod_sets_model : forall E (def : emits E) before id s prob g, exists m, sets_model def (HCutMod id s prob) = Some m /\
  snd (run_hops def g (before ++ [HCutMod id s prob])) = snd (run_hops def g before) ++ [hmm_cut m s []].
Proof. exact c35_mod. Qed.
Print Assumptions C35_cut_mod_sets_model.
Theorem C35_no_model : forall E (def : emits E) os id s reg, Forall (fun o => sets_model def o = None) os ->
  snd (run_hops def (@no_model E) (os ++ [HCut id s reg])) = snd (run_hops def (@no_model E) os) ++ [hmm_cut (E := E) (fun _ _ => None) s reg].
Proof. exact c35_none. Qed.
Print Assumptions C35_no_model.

(** Segmenter 2 cuts differently after segmenter 1 has loaded its own model. *)
Definition all_single : rune -> option (f64 demo) := fun _ => Some (lit_64 0 0).
Definition nothing : rune -> option (f64 demo) := fun _ => None.
Example C35_ex : snd (run_hops demo_emit (@no_model demo)
    [HInit 1 false; HCut 2 ny []; HLoad 1 [nothing; nothing; nothing; all_single]; HCut 2 (str "纽约") []; HInit 3 false; HCut 2 (str "纽约") []]) =
  [Ok (map str ["纽约"; "时代广场"]); Ok (map str ["纽"; "约"]); Ok (map str ["纽约"])].
Proof. vm_compute. reflexivity. Qed.
