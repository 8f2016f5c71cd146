(** The built-in emission tables of packages hmm and pos as functions. *)
From Verif Require Export M_Hmm M_Pos M_HmmEmit M_PosEmit.
Set Implicit Arguments. Unset Strict Implicit.

(** A float constant of the source, -n * 10^-17, as the Go compiler reads it: the float64 nearest to it (m * 2^e). *)
Definition ten17 : Z := 100000000000000000%Z.
Definition const_float (n : Z) : Z * Z :=
  (if n =? 0 then (0, 0)
   else let l := Z.log2 n in
        let e := if Z.shiftl n (109 - l) <? Z.shiftl ten17 53 then l - 109 else l - 108 in
        (- ((2 * Z.shiftl n (- e) + ten17) / (2 * ten17)), e))%Z.
(** The characters of a hexadecimal literal of the tables. *)
Fixpoint hex_chars (fuel : nat) (h : Z) (acc : list Z) : list Z :=
  match fuel with
  | O => acc
  | S f => if (h =? 0)%Z then acc else hex_chars f (Z.shiftr h 16) (Z.land h 65535 :: acc)
  end.
Definition chars_of (hs : list Z) : list rune := flat_map (fun h => hex_chars 24 h []) hs.
Definition emit_find (tab : list (Z * list Z)) (r : rune) : option Z :=
  match find (fun row => existsb (Z.eqb r) (chars_of (snd row))) tab with Some row => Some (fst row) | None => None end.

Section Emit.
  Variable E : env.
  Definition emit_lit (o : option Z) : option (f64 E) :=
    match o with Some n => Some (lit64 E (fst (const_float n)) (snd (const_float n))) | None => None end.
  (** hmm/prob_emit.go:7-35243 loadDefEmit: what probEmit holds afterwards *)
  Definition hmm_table (y : hst) : list (Z * list Z) := match y with HB => emit_B | HE => emit_E | HM => emit_M | HS => emit_S end.
  Definition def_emit : emits E := fun y r => emit_lit (emit_find (hmm_table y) r).
  (** hmm/pos/prob_emit.go:17-89564 probEmit *)
  Definition pos_table (y : Z) : list (Z * list Z) := match assoc pos_emit_tab y with Some t => t | None => [] end.
  Definition pos_def_emit (y : Z) (r : rune) : option (f64 E) := emit_lit (emit_find (pos_table y) r).
End Emit.
