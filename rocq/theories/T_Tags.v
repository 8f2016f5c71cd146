(** C80: the life of a TagExtracter. *)
From Verif Require Import S_Tags P_Idf2 P_Tags Ieee Demo T_Split T_Seg T_Hmm T_Dag T_Load T_Idf.
Local Open Scope lit_scope.

(** Setting up returns. [h0] are the calls on stop words before, [s0] is a zero Segmenter. *)
Theorem C80_setup_returns : forall E srt (s0 : seg E) h0 os, s_dict s0 = None -> s_load s0 = false -> sorts srt ->
  Forall (plain (length (h_sws (h_run h0)))) os -> in_order false os -> exists x, t_run srt s0 (t_zero (h_run h0) s0) os = Ok x.
Proof. intros E srt s0 h0 os H1 H2 H3 H4 H5. exact (c80_total H1 H2 H3 (h_run h0) H4 H5). Qed.
Print Assumptions C80_setup_returns.

(** When ExtractTags returns and when it panics. *)
Theorem C80_extract_tags_panics : forall E srt (s0 : seg E) h0 os x o1 o2 em text topK, s_dict s0 = None -> s_load s0 = false -> sorts srt ->
  assigns h0 = false -> Forall (plain (length (h_sws (h_run h0)))) os -> same_keys_in_any_order o1 -> same_keys_in_any_order o2 ->
  t_run srt s0 (t_zero (h_run h0) s0) os = Ok x ->
  (has_dict false os = false -> t_extract srt o1 o2 em x text topK = Panic) /\
  (has_dict false os = true -> exists d l ws, s_dict (te_seg (x_te x)) = Some d /\ cut d (s_cfg (te_seg (x_te x))) em text (Some true) = Ok ws /\
     (forall w, in_list w l = stopped w (in_list w (nth 0 (h_maps (h_run h0)) [])) os) /\
     if (topK <? 0)%Z || negb (has_idf os) && existsb (fun w => (2 <=? length (runes_of w)) && negb (in_list w l)) (map (trim_space E) ws)
     then t_extract srt o1 o2 em x text topK = Panic else exists out, t_extract srt o1 o2 em x text topK = Ok out).
Proof.
  intros E srt s0 h0 os x o1 o2 em text topK H1 H2 H3 H4 H5 H6 H7 H8.
  destruct (c80_extract H1 H2 em text topK H4 H5 H8 H6 H7 H3) as [(K1 & K2 & K3)|(d & ws & K1 & K2 & K3 & K4)].
  - split; [auto|congruence].
  - split; [congruence|]. intros _. set (l := map_of (the_map (h_run h0)) os) in K4. exists d, l, ws. split; [exact K1|]. split; [exact K3|]. split; [intro w; apply stopped_map|].
    assert (Hk : existsb (fun w => (2 <=? length (runes_of w)) && negb (in_list w l)) (map (trim_space E) ws) = true <-> kept E l ws <> []).
    { unfold kept. set (f := fun w => (2 <=? length (runes_of w)) && negb (in_list w l)). rewrite existsb_exists. split.
      - intros (w & W1 & W2) K. assert (W : In w (filter f (map (trim_space E) ws))) by (apply filter_In; auto). rewrite K in W. exact W.
      - intro K. destruct (filter f (map (trim_space E) ws)) as [|w r] eqn:Ef; [congruence|]. exists w. apply filter_In. rewrite Ef. left. reflexivity. }
    destruct K4 as [[C K]|(C1 & C2 & K)].
    + assert (((topK <? 0)%Z || negb (has_idf os) && existsb (fun w => (2 <=? length (runes_of w)) && negb (in_list w l)) (map (trim_space E) ws)) = true) as ->; [|exact K].
      destruct C as [C|[C1 C2]]; [apply Z.ltb_lt in C; rewrite C; reflexivity|]. rewrite C1, (proj2 Hk C2). apply orb_true_r.
    + assert (((topK <? 0)%Z || negb (has_idf os) && existsb (fun w => (2 <=? length (runes_of w)) && negb (in_list w l)) (map (trim_space E) ws)) = false) as ->; [|exact K].
      apply orb_false_iff. split; [apply Z.ltb_ge, C1|]. destruct C2 as [->|C2]; [reflexivity|]. destruct (existsb _ _); [destruct (proj1 Hk eq_refl C2)|]. apply andb_false_r.
Qed.
Print Assumptions C80_extract_tags_panics.

(** Only the order of the calls for the dictionary, of those for the idf values, and of those for the stop words matters, not how they are interleaved. *)
Theorem C80_setup_order : forall E srt (s0 : seg E) h0 os os' x o1 o2 em text topK, s_dict s0 = None -> s_load s0 = false ->
  assigns h0 = false -> Forall (plain (length (h_sws (h_run h0)))) os -> Forall (plain (length (h_sws (h_run h0)))) os' ->
  filter (@for_dict E) os = filter (@for_dict E) os' -> filter (@for_idf E) os = filter (@for_idf E) os' -> filter (@for_stop E) os = filter (@for_stop E) os' ->
  t_run srt s0 (t_zero (h_run h0) s0) os = Ok x ->
  exists x', t_run srt s0 (t_zero (h_run h0) s0) os' = Ok x' /\ t_extract srt o1 o2 em x text topK = t_extract srt o1 o2 em x' text topK.
Proof. intros E srt s0 h0 os os' x o1 o2 em text topK H1 H2 H3 H4 H5 H6 H7 H8 H9. exact (c80_order H1 H2 o1 o2 em text topK H3 H4 H5 H6 H7 H8 H9). Qed.
Print Assumptions C80_setup_order.

Definition seg80 : seg demo := set_dict seg0 (Some d_dag).
Definition idf80 : bytes := str "世界 8 n" ++ [x0a] ++ str "go语言 9 n" ++ [x0a].
Definition stop80 : spath -> option bytes := fun _ => Some (str "你好" ++ [x0a]).
Definition tags80 (h0 : list swop) (os : list (top demo)) (txt : bytes) (k : Z) : option (list bytes) :=
  match t_run ins_sort seg0 (t_zero (h_run h0) seg0) os with
  | Ok x => tags_of (t_extract ins_sort (fun m => m) (@rev _) demo_emit x txt k)
  | _ => Some [str "setup"]
  end.
Definition txt80 : bytes := str "你好世界, 你好 你好 go the 世界 啊".
Example C80_ex :
  tags80 [] [TGse seg80; TIdfStr idf80] txt80 9 = Some (map str ["世界"; "你好"; "go"]) /\
  tags80 [] [TGse seg80; TIdfStr idf80; TStop stop80 []] txt80 9 = Some (map str ["世界"; "go"]) /\
  tags80 [] [TStop stop80 []; TIdfStr idf80; TGse seg80] txt80 9 = Some (map str ["世界"; "go"]) /\
  tags80 [WNew; WAdd 0 (str "世界")] [TStop stop80 []; TIdfStr idf80; TGse seg80; TOther (WRemove 0 (str "你好"))] txt80 9 = Some (map str ["你好"; "go"]).
Proof. vm_compute. repeat split. Qed.
Example C80_ex_panics :
  tags80 [] [TIdfStr idf80; TStop stop80 []] [] 9 = None /\ tags80 [] [TGse seg80; TStop stop80 []] txt80 9 = None /\
  tags80 [] [TGse seg80; TStop stop80 []] (str "你好 a the") 9 = Some [] /\ tags80 [] [TGse seg80; TIdfStr idf80] txt80 (-1) = None /\
  tags80 [] [TGse seg80; TDict fs1 (Some (str "user.txt")); TIdf fs1 (str "idf.txt") None] txt80 9 <> None /\
  tags80 [] [TIdfAdd (E := demo) (str "a") (lit_64 5 0) []] txt80 9 = Some [str "setup"].
Proof. vm_compute. repeat split. discriminate. Qed.
Example C80_ex_plain : Forall (plain (E := demo) 1) [TStop stop80 []; TIdfStr idf80; TGse seg80; TOther (WRemove 0 (str "你好"))].
Proof. constructor; [exact I|]. constructor; [exact I|]. constructor; [exact (dict_of_reachable cfg0 _)|]. constructor; [exact (le_n 1)|constructor]. Qed.
