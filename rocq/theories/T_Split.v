(** C10-C12: SplitTextToWords. *)
From Verif Require Import S_Split P_Split Demo.
Local Open Scope lit_scope.

(** C10: the words concatenate to the normalised text; none is empty; with ToLower off nothing changes. *)
Theorem C10_split_lossless : forall E c s, exists ws, split_words E c s = Ok ws /\
  concat ws = norm E c s /\ length (concat ws) = length s /\ Forall (fun w => w <> []) ws /\
  Forall2 (fun b b' => b' = b \/ b' = small b) s (concat ws) /\
  (c_lower c = false -> concat ws = s).
Proof. exact c10. Qed.
Print Assumptions C10_split_lossless.

Definition cfg0 : cfg := {| c_alphanum := false; c_alpha := false; c_num := false; c_lower := true |}.
Definition cfg_an : cfg := {| c_alphanum := true; c_alpha := false; c_num := false; c_lower := true |}.

Example C10_example : split_words demo cfg0 (str "Hello, 世界 X1" ++ [xe4; xb8]) =
  Ok (map str ["hello"; ","; " "; "世"; "界"; " "; "x1"] ++ [[xe4]; [xb8]]).
Proof. vm_compute. reflexivity. Qed.

(** C11: exactly the UTF-8 units with maximal alphanumeric runs fused. *)
Theorem C11_split_groups : forall E c s ws, split_words E c s = Ok ws <-> is_split E c s ws.
Proof. exact c11. Qed.
Print Assumptions C11_split_groups.

Example C11_example : is_split demo cfg_an (str "Ab1世") (map str ["a"; "b"; "1"; "世"]).
Proof. apply C11_split_groups. vm_compute. reflexivity. Qed.

(** C12: every contiguous range of the words is stable under splitting. *)
Theorem C12_split_stable : forall E c s ws1 ws2 ws3, split_words E c s = Ok (ws1 ++ ws2 ++ ws3) ->
  split_words E c (concat ws2) = Ok ws2.
Proof. exact c12. Qed.
Print Assumptions C12_split_stable.

Example C12_example : split_words demo cfg0 (str "ABC世Def界") =
  Ok ([str "abc"] ++ map str ["世"; "def"] ++ [str "界"]).
Proof. vm_compute. reflexivity. Qed.
