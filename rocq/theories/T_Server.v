(** C96: the answers of the server in tools/server. *)
From Verif Require Import M_Server S_Server S_Split S_Trim S_Dict P_Utf8 P_Utf8b P_Chars P_Json P_Split P_Seg P_Seg2 P_Hist P_Trim3 P_Server Ieee Demo T_Split T_Seg T_Hmm.
Local Open Scope lit_scope.

(** Without the hmm flag: the answer is JSON; read by RFC 8259 it is the list of the words and tags of Pos, and the words together are the characters that were sent
    (stray bytes as U+FFFD), capitals made small. *)
Theorem C96_segments : forall E bf c em (d : dict E) query post text rs, reachable c d -> text_of_request query post text -> decodes text rs ->
  exists body cs l ps, serve bf c em false d (ReqJson query post) = Ok (d, body) /\ decodes body cs /\
    read_json cs = Some (JObj [(key "segments", JArr (map (fun p => JObj [(key "text", JStr (fst p)); (key "pos", JStr (snd p))]) ps)); (key "err", JNull)]) /\
    seg_pos c (Some d) text false = Ok l /\ Forall2 (fun x p => decodes (fst x) (fst p) /\ decodes (snd x) (snd p) /\ fst p <> []) l ps /\
    concat (map fst ps) = map (low_if (c_lower c && negb (c_alpha c))) rs.
Proof.
  intros E bf c em d query post text rs Hr Ht Hd. destruct (serve_segment bf em Hr Ht) as (l & L1 & L2 & L3 & L4). apply decodes_iff in Hd as <-.
  exists (json_response bf l), (runes_of (json_response bf l)), l, (map (fun p => (runes_of (fst p), runes_of (snd p))) l). split; [cbn [serve]; rewrite L2; reflexivity|].
  split; [apply decodes_iff; reflexivity|]. split; [rewrite response_json, map_map; reflexivity|]. split; [exact L1|]. split.
  - clear - L4. induction L4 as [|p l Hp L4 IH]; cbn [map]; constructor; [|exact IH]. cbn [fst snd]. split; [apply decodes_iff; reflexivity|]. split; [apply decodes_iff; reflexivity|].
    unfold runes_of. rewrite units_cons by exact Hp. discriminate.
  - rewrite map_map. cbn [fst]. rewrite <- L3. apply runes_norm.
Qed.
Print Assumptions C96_segments.

(** With it: the words of Cut, which together are the text in small letters. *)
Theorem C96_words : forall E bf c em (d : dict E) query post text rs, reachable c d -> text_of_request query post text -> decodes text rs ->
  exists body cs ws ps, serve bf c em true d (ReqJson query post) = Ok (d, body) /\ decodes body cs /\
    read_json cs = Some (JObj [(key "Seg", JArr (map JStr ps))]) /\
    cut d c em text (Some true) = Ok ws /\ Forall2 (fun w p => decodes w p /\ p <> []) ws ps /\
    if c_lower c then Forall2 (lowers E) rs (concat ps) else concat ps = rs.
Proof.
  intros E bf c em d query post text rs Hr Ht Hd. destruct (serve_cut bf em Hr Ht) as (ws & L1 & L2 & L3 & L4). apply decodes_iff in Hd as <-.
  exists (json_resp bf ws), (runes_of (json_resp bf ws)), ws, (map runes_of ws). split; [cbn [serve]; rewrite L2; reflexivity|].
  split; [apply decodes_iff; reflexivity|]. split; [rewrite resp_json, map_map; reflexivity|]. split; [exact L1|]. split.
  - clear - L4. induction L4 as [|p l Hp L4 IH]; cbn [map]; constructor; [|exact IH]. split; [apply decodes_iff; reflexivity|]. unfold runes_of. rewrite units_cons by exact Hp. discriminate.
  - rewrite <- L3. destruct (c_lower c); [apply runes_lower|apply runes_reencode].
Qed.
Print Assumptions C96_words.

(** /add always answers ok, but a word that is already there is left as it is. *)
Theorem C96_add : forall E bf c em hmm (d : dict E) query text freq pos, reachable c d ->
  value_of (str "text") query text -> value_of (str "freq") query freq -> value_of (str "pos") query pos ->
  exists d' body cs, serve bf c em hmm d (ReqAdd query) = Ok (d', body) /\ reachable c d' /\
    decodes body cs /\ read_json cs = Some (JObj [(key "code", JNum 200); (key "text", JStr (key "ok"))]) /\
    (dict_value d (norm E c text) = None -> dict_find d' (norm E c text) = Ok (fst (parse_float E freq), pos, true)) /\
    (dict_value d (norm E c text) <> None -> forall w, dict_find d' w = dict_find d w).
Proof.
  intros E bf c em hmm d query text freq pos Hr Ht Hf Hp. apply form_get_value in Ht, Hf, Hp. cbn [serve]. unfold serve_add. cbv zeta. rewrite Ht, Hf, Hp.
  destruct (force_ok text (fst (parse_float E freq)) pos Hr) as (d1 & d' & F1 & F2 & F3 & F4 & F5). exists d', (json_ok bf), (runes_of (json_ok bf)).
  split; [rewrite F5; reflexivity|]. split; [exact F4|]. split; [apply decodes_iff; reflexivity|]. split; [apply ok_json|].
  destruct (c17_add Hr F1) as (A1 & A2 & A3). split.
  - intro H. rewrite (proj1 (calc_find F2 F3 _)). apply A2, H.
  - intros H w. rewrite (proj1 (calc_find F2 F3 _)). rewrite (A3 H). reflexivity.
Qed.
Print Assumptions C96_add.

(** No sequence of requests makes the server panic, and every answer is a JSON text. *)
Theorem C96_any_requests : forall E bf c em hmm (d : dict E) reqs, reachable c d -> exists d' bodies, serve_all bf c em hmm d reqs = Ok (d', bodies) /\ reachable c d' /\
  length bodies = length reqs /\ Forall (fun b => exists cs v, decodes b cs /\ read_json cs = Some v) bodies.
Proof.
  intros E bf c em hmm d reqs. revert d. induction reqs as [|r reqs IH]; intros d Hr; cbn [serve_all].
  - exists d, []. split; [reflexivity|]. split; [exact Hr|]. split; [reflexivity|constructor].
  - assert (K : exists d1 b, serve bf c em hmm d r = Ok (d1, b) /\ reachable c d1 /\ exists cs v, decodes b cs /\ read_json cs = Some v).
    { destruct r as [query post|query].
      - destruct hmm.
        + destruct (@C96_words E bf c em d query post _ _ Hr (proj2 (request_text _ _ _) eq_refl) (proj2 (decodes_iff _ _) eq_refl)) as (b & cs & ws & ps & S1 & S2 & S3 & _). exists d, b. eauto 7.
        + destruct (@C96_segments E bf c em d query post _ _ Hr (proj2 (request_text _ _ _) eq_refl) (proj2 (decodes_iff _ _) eq_refl)) as (b & cs & ws & ps & S1 & S2 & S3 & _). exists d, b. eauto 7.
      - destruct (@C96_add E bf c em hmm d query _ _ _ Hr (proj2 (form_get_value _ _ _) eq_refl) (proj2 (form_get_value _ _ _) eq_refl) (proj2 (form_get_value _ _ _) eq_refl)) as (d1 & b & cs & S1 & S2 & S3 & S4 & _).
        exists d1, b. eauto 7. }
    destruct K as (d1 & b & -> & K2 & K3). cbn [bind fst snd]. destruct (IH d1 K2) as (d' & bs & -> & I2 & I3 & I4). exists d', (b :: bs). cbn [bind fst snd length]. split; [reflexivity|]. split; [exact I2|]. split; [congruence|].
    constructor; assumption.
Qed.
Print Assumptions C96_any_requests.

(** The reader rejects a number with a leading zero, as RFC 8259 does. *)
Example C96_ex_number : read_json (runes_of (str "200")) = Some (JNum 200) /\ read_json (runes_of (str "0200")) = None /\ read_json (runes_of (str "0")) = Some (JNum 0).
Proof. repeat split; vm_compute; reflexivity. Qed.
(** A text with a quotation mark, a stray byte and a capital, before and after a word is added twice. *)
Definition reqs_96 : list request :=
  [ReqJson [(str "text", [])] [(str "text", str "世界<A" ++ [xff; x22])]; ReqAdd [(str "text", str "世界"); (str "freq", str "4"); (str "pos", str "n")];
   ReqAdd [(str "text", str "世界"); (str "freq", str "8"); (str "pos", str "v")]; ReqJson [(str "text", str "世界"); (str "text", str "x")] []; ReqJson [] []].
Example C96_ex : reachable cfg0 (dict_of cfg0 [add (str "好") 4 []; add (str "你") 4 []]) /\
  match serve_all true cfg0 demo_emit false (dict_of cfg0 [add (str "好") 4 []; add (str "你") 4 []]) reqs_96 with Ok x => snd x | _ => [] end =
  [str "{""segments"":[{""text"":""世"",""pos"":""x""},{""text"":""界"",""pos"":""x""},{""text"":""\u003c"",""pos"":""x""},{""text"":""a"",""pos"":""x""},{""text"":""\ufffd"",""pos"":""x""},{""text"":""\"""",""pos"":""x""}],""err"":null}";
   str "{""code"":200,""text"":""ok""}"; str "{""code"":200,""text"":""ok""}";
   str "{""segments"":[{""text"":""世界"",""pos"":""n""}],""err"":null}"; str "{""segments"":[],""err"":null}"].
Proof. split; [apply dict_of_reachable|]. vm_compute. reflexivity. Qed.
