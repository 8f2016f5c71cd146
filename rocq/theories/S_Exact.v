(** Arithmetic without rounding. *)
From Verif Require Export S_Dag.
From Coq Require Export Reals.
Set Implicit Arguments. Unset Strict Implicit.

(** [val] reads the numbers as real numbers, [None] as minus infinity; the operations are exact and math.Log is the natural logarithm.
    Nothing is said about division by 0, the logarithm of a negative number, subtraction of minus infinity. *)
Record exact (E : env) (val : f64 E -> option R) : Prop := {
  v_lit : forall m e, val (lit64 E m e) = Some (IZR m * powerRZ 2 e)%R;
  v_add : forall x y, val (add64 E x y) = match val x, val y with Some a, Some b => Some (a + b)%R | _, _ => None end;
  v_sub : forall x y b, val y = Some b -> val (sub64 E x y) = match val x with Some a => Some (a - b)%R | None => None end;
  v_sub_inf : forall x y, val x = None -> val (sub64 E x y) = None;
  v_mul : forall x y a b, val x = Some a -> val y = Some b -> val (mul64 E x y) = Some (a * b)%R;
  v_div : forall x y a b, val x = Some a -> val y = Some b -> b <> 0%R -> val (div64 E x y) = Some (a / b)%R;
  v_lt : forall x y, ltb64 E x y = true <-> match val x, val y with Some a, Some b => (a < b)%R | None, Some _ => True | _, None => False end;
  v_eq : forall x y, eqb64 E x y = true <-> val x = val y;
  v_trunc : forall x a, val x = Some a -> (0 <= a)%R -> exists n, val (trunc64 E x) = Some (IZR n) /\ (IZR n <= a < IZR n + 1)%R;
  v_log : forall x a, val x = Some a -> (0 < a)%R -> val (m_log E x) = Some (ln a);
  v_log0 : forall x, val x = Some 0%R -> val (m_log E x) = None
}.

(** Spelled as AddToken stores it and as the cutters read it. *)
Definition own_spelling (E : env) (c : cfg) (w : bytes) : Prop := w <> [] /\ norm E c w = w /\ to_lower_str E w = w.

(** No two neighbouring characters are ASCII letters or digits. *)
Definition no_ascii_pair (w : bytes) : Prop := forall l a b r, runes_of w = l ++ a :: b :: r -> ascii_alnum a && ascii_alnum b = false.

(** No stored frequency is negative, and the total is positive. *)
Definition sound_freqs (E : env) (val : f64 E -> option R) (d : dict E) : Prop :=
  (forall w f, stored d w f -> exists a, val f = Some a /\ (0 <= a)%R) /\ (exists t, val (d_total d) = Some t /\ (0 < t)%R).

(** The same for float32, read by [val32]; conversion and base 2 logarithm. *)
Record exact32 (E : env) (val : f64 E -> option R) (val32 : f32 E -> option R) : Prop := {
  x_lit : forall m e, val32 (lit32 E m e) = Some (IZR m * powerRZ 2 e)%R;
  x_add : forall x y, val32 (add32 E x y) = match val32 x, val32 y with Some a, Some b => Some (a + b)%R | _, _ => None end;
  x_sub : forall x y a b, val32 x = Some a -> val32 y = Some b -> val32 (sub32 E x y) = Some (a - b)%R;
  x_lt : forall x y, ltb32 E x y = true <-> match val32 x, val32 y with Some a, Some b => (a < b)%R | None, Some _ => True | _, None => False end;
  x_eq : forall x y, eqb32 E x y = true <-> val32 x = val32 y;
  x_to : forall x a, val x = Some a -> val32 (to32 E x) = Some a;
  x_log2 : forall x a, val x = Some a -> (0 < a)%R -> val (m_log2 E x) = Some (ln a / ln 2)%R
}.

(** The words [ws] read as the words [qs] with probability [r]: a dictionary word has its relative frequency ([t]: the total), one that is not
    in the dictionary 2^-32. *)
Inductive likely (E : env) (val : f64 E -> option R) (d : dict E) (t : R) : list bytes -> list bytes -> R -> Prop :=
| lk_nil : likely val d t [] [] 1
| lk_word : forall p rest qs r f a, p <> [] -> stored d (concat p) f -> val f = Some a -> likely val d t rest qs r ->
    likely val d t (p ++ rest) (concat p :: qs) (a / t * r)
| lk_other : forall w rest qs r, (forall f, ~ stored d w f) -> likely val d t rest qs r -> likely val d t (w :: rest) (w :: qs) (/ 2 ^ 32 * r).
