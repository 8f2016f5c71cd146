(** C85: the part-of-speech tags do not influence the cuts. *)
From Verif Require Import S_Untag P_Seg2 P_Untag M_Out Ieee Demo T_Split T_Seg T_Meta.
Local Open Scope lit_scope.

(** C85 *)
Theorem C85_tags_do_not_matter : forall E c (e1 e2 d1 d2 : dict E), reachable c e1 -> reachable c e2 ->
  calc_token e1 = Ok d1 -> calc_token e2 = Ok d2 -> d_total d1 = d_total d2 -> same_but_tags d1 d2 -> same_cuts c d1 d2.
Proof. intros E c e1 e2 d1 d2. apply c85. Qed.
Print Assumptions C85_tags_do_not_matter.
Theorem C85_calls_with_other_tags : forall E c os1 os2 (d1 d2 : dict E), Forall2 (@same_call E) os1 os2 ->
  run_ops c (new_dict E) (os1 ++ [OpCalc]) = Ok d1 -> run_ops c (new_dict E) (os2 ++ [OpCalc]) = Ok d2 -> same_cuts c d1 d2.
Proof. intros E c os1 os2 d1 d2. apply c85_histories. Qed.
Print Assumptions C85_calls_with_other_tags.

Definition retag (o : dop demo) : dop demo := match o with OpAdd w f _ => OpAdd w f (str "zz") | o => o end.
Example C85_ex : Forall2 (@same_call demo) os77 (map retag os77) /\
  seg_pos cfg0 (Some (dict_of cfg0 (os77 ++ [OpCalc]))) (str "你好世界go") false = Ok [(str "你好", str "l"); (str "世界", str "n"); (str "go", str "e")] /\
  seg_pos cfg0 (Some (dict_of cfg0 (map retag os77 ++ [OpCalc]))) (str "你好世界go") false = Ok [(str "你好", str "zz"); (str "世界", str "zz"); (str "go", str "zz")].
Proof.
  split; [unfold os77, adds, l77; cbn [map retag]; repeat (constructor; [apply sc_add|]); constructor|]. split; vm_compute; reflexivity.
Qed.
