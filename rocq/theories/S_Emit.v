(** Reading the emission tables of the source. *)
From Verif Require Export M_HmmEmit M_PosEmit M_PosTab S_Hmm.
Local Open Scope Z_scope.

(** [r] is one of the characters of a literal: four hexadecimal digits at a position divisible by four. *)
Definition in_hex (h r : Z) : Prop := exists k, 0 <= k /\ 2 ^ (16 * k) <= h /\ (h / 2 ^ (16 * k)) mod 2 ^ 16 = r.
(** The table gives [r] the value -n * 10^-17. *)
Definition listed (tab : list (Z * list Z)) (r n : Z) : Prop := exists hs h, In (n, hs) tab /\ In h hs /\ in_hex h r.
Definition hmm_rows (y : hst) : list (Z * list Z) := match y with HB => emit_B | HE => emit_E | HM => emit_M | HS => emit_S end.
Definition pos_listed (y r n : Z) : Prop := exists tab, In (y, tab) pos_emit_tab /\ listed tab r n.
(** The char-state table lists state [y] for [r]: three decimal digits of its literal. *)
Definition state_listed (r y : Z) : Prop :=
  exists h k, In (r, h) char_hex /\ 0 <= k /\ 2 ^ (12 * k) <= h /\
    let z := (h / 2 ^ (12 * k)) mod 2 ^ 12 in y = z / 256 * 100 + (z / 16) mod 16 * 10 + z mod 16.
