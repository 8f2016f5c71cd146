(** Common vocabulary: Go byte strings, results with panics, list helpers. *)
From Coq Require Export List Arith ZArith Lia Bool.
From Coq Require Export Strings.Byte.
From Coq Require Import NArith.
Export ListNotations.
Set Implicit Arguments. Unset Strict Implicit.

(** A Go [string], [[]byte] or gse [Text] (token.go:67). *)
Notation bytes := (list byte).
(** A Go [rune]. *)
Notation rune := Z.

Definition bz (b : byte) : Z := Z.of_N (Byte.to_N b).
Definition zb (z : Z) : byte :=
  match Byte.of_N (Z.to_N z) with Some b => b | None => x00 end.

(** Outcome of a Go computation: a value, a run-time panic, or exhausted fuel. *)
Inductive res (A : Type) : Type :=
| Ok (a : A)
| Panic
| Hang.
Arguments Ok {A} _.
Arguments Panic {A}.
Arguments Hang {A}.

Definition bind {A B} (x : res A) (f : A -> res B) : res B :=
  match x with Ok a => f a | Panic => Panic | Hang => Hang end.
Notation "'do' x <- e ; f" := (bind e (fun x => f))
  (at level 200, x name, e at level 100, f at level 200).

(** Slice access with bounds check: [l[i]]. *)
Definition get {A} (l : list A) (i : nat) : res A :=
  match nth_error l i with Some a => Ok a | None => Panic end.

(** Functional update of position [i] (no effect out of range). *)
Fixpoint upd {A} (l : list A) (i : nat) (a : A) : list A :=
  match l, i with
  | [], _ => []
  | _ :: t, O => a :: t
  | h :: t, S j => h :: upd t j a
  end.

(** [s[a:b]] for [a <= b <= len s]. *)
Definition slice {A} (s : list A) (a b : nat) : list A := firstn (b - a) (skipn a s).

Fixpoint beqb (s t : bytes) : bool :=
  match s, t with
  | [], [] => true
  | a :: s', b :: t' => Byte.eqb a b && beqb s' t'
  | _, _ => false
  end.

Fixpoint is_prefix (p s : bytes) : bool :=
  match p, s with
  | [], _ => true
  | a :: p', b :: s' => Byte.eqb a b && is_prefix p' s'
  | _, _ => false
  end.

(** String literals: UTF-8 source text as bytes, [str "..."]. *)
Inductive lit : Set := Lit (l : list byte).
Definition lit_parse (l : list byte) : lit := Lit l.
Definition lit_print (l : lit) : list byte := match l with Lit b => b end.
Declare Scope lit_scope.
Delimit Scope lit_scope with lit.
Bind Scope lit_scope with lit.
String Notation lit lit_parse lit_print : lit_scope.
Definition str (l : lit) : bytes := match l with Lit b => b end.

(* ------------------------------------------------------------------ *)
(** Facts *)

Lemma bz_range : forall b, (0 <= bz b < 256)%Z.
Proof. intro b; unfold bz. pose proof (Byte.to_N_bounded b). lia. Qed.

Lemma bz_inj : forall a b, bz a = bz b -> a = b.
Proof.
  unfold bz; intros a b H. apply N2Z.inj in H.
  pose proof (Byte.of_to_N a) as Ha. pose proof (Byte.of_to_N b) as Hb.
  rewrite H in Ha. congruence.
Qed.

Lemma zb_bz : forall b, zb (bz b) = b.
Proof. intro b; unfold zb, bz. rewrite N2Z.id, Byte.of_to_N. reflexivity. Qed.

Lemma bz_zb : forall z, (0 <= z < 256)%Z -> bz (zb z) = z.
Proof.
  intros z Hz; unfold zb.
  destruct (Byte.of_N (Z.to_N z)) as [b|] eqn:E.
  - apply Byte.to_of_N in E. unfold bz. rewrite E. lia.
  - apply Byte.of_N_None_iff in E. lia.
Qed.

Lemma byte_eqb_eq : forall a b, Byte.eqb a b = true <-> a = b.
Proof.
  intros a b; split; intro H.
  - apply Byte.byte_dec_bl. exact H.
  - apply Byte.byte_dec_lb. exact H.
Qed.

Lemma byte_eqb_refl : forall a, Byte.eqb a a = true.
Proof. intro; apply byte_eqb_eq; reflexivity. Qed.

Lemma beqb_eq : forall s t, beqb s t = true <-> s = t.
Proof.
  induction s as [|a s IH]; destruct t as [|b t]; cbn; split; intro H; try congruence; auto.
  - apply andb_prop in H as [H1 H2]. apply byte_eqb_eq in H1. apply IH in H2. congruence.
  - inversion H; subst. rewrite byte_eqb_refl. cbn. apply IH; reflexivity.
Qed.

Lemma beqb_refl : forall s, beqb s s = true.
Proof. intro; apply beqb_eq; reflexivity. Qed.

Lemma beqb_neq : forall s t, beqb s t = false <-> s <> t.
Proof.
  intros s t; destruct (beqb s t) eqn:E; split; intro H; try congruence; auto.
  - apply beqb_eq in E; contradiction.
  - intro Heq. apply beqb_eq in Heq. congruence.
Qed.

Lemma bytes_eq_dec : forall s t : bytes, {s = t} + {s <> t}.
Proof.
  intros s t; destruct (beqb s t) eqn:E; [left; apply beqb_eq|right; apply beqb_neq]; exact E.
Qed.

Lemma is_prefix_spec : forall p s, is_prefix p s = true <-> exists t, s = p ++ t.
Proof.
  induction p as [|a p IH]; intros s; cbn.
  - split; intro H; [exists s; reflexivity|reflexivity].
  - destruct s as [|b s].
    + split; [discriminate|intros [t Ht]; discriminate].
    + rewrite andb_true_iff, byte_eqb_eq, IH. split.
      * intros [-> [t ->]]. exists t; reflexivity.
      * intros [t Ht]. inversion Ht; subst. split; [reflexivity|exists t; reflexivity].
Qed.

Lemma upd_length : forall A (l : list A) i a, length (upd l i a) = length l.
Proof. induction l as [|h t IH]; destruct i; cbn; intros; auto. Qed.

Lemma nth_upd_eq : forall A (l : list A) i a, i < length l -> nth_error (upd l i a) i = Some a.
Proof. induction l as [|h t IH]; destruct i; cbn; intros; try lia; auto. apply IH; lia. Qed.

Lemma nth_upd_neq : forall A (l : list A) i j a, i <> j -> nth_error (upd l i a) j = nth_error l j.
Proof.
  induction l as [|h t IH]; intros i j a H; [destruct i; reflexivity|].
  destruct i, j; cbn; auto; try lia.
Qed.

Lemma get_Ok : forall A (l : list A) i a, get l i = Ok a <-> nth_error l i = Some a.
Proof. unfold get; intros A l i a; destruct (nth_error l i); split; intro H; congruence. Qed.

Lemma bind_Ok : forall A B (x : res A) (f : A -> res B) b,
  bind x f = Ok b <-> exists a, x = Ok a /\ f a = Ok b.
Proof.
  intros A B x f b; destruct x as [a| |]; cbn; split; intro H; try discriminate.
  - exists a; auto.
  - destruct H as (a' & H1 & H2); inversion H1; subst; exact H2.
  - destruct H as (a' & H1 & H2); discriminate.
  - destruct H as (a' & H1 & H2); discriminate.
Qed.

Lemma slice_length : forall A (s : list A) a b, b <= length s -> length (slice s a b) = b - a.
Proof. intros A s a b H. unfold slice. rewrite firstn_length, skipn_length. lia. Qed.

Lemma skipn_skipn : forall A (s : list A) a b, skipn a (skipn b s) = skipn (a + b) s.
Proof.
  intros A s a b; revert s; induction b as [|b IH]; intros s.
  - rewrite Nat.add_0_r. reflexivity.
  - rewrite Nat.add_succ_r. destruct s as [|x s]; cbn; [destruct a; reflexivity|apply IH].
Qed.

Lemma slice_app : forall A (s : list A) a b c, a <= b -> b <= c ->
  slice s a b ++ slice s b c = slice s a c.
Proof.
  intros A s a b c H1 H2. unfold slice.
  replace (c - a) with ((b - a) + (c - b)) by lia.
  replace (skipn b s) with (skipn (b - a) (skipn a s)).
  - rewrite <- (firstn_skipn (b - a) (firstn ((b - a) + (c - b)) (skipn a s))) at 1.
    rewrite firstn_firstn, Nat.min_l by lia. f_equal.
    rewrite skipn_firstn_comm. f_equal. lia.
  - rewrite skipn_skipn. f_equal. lia.
Qed.

Lemma slice_full : forall A (s : list A), slice s 0 (length s) = s.
Proof. intros. unfold slice. rewrite Nat.sub_0_r. cbn. apply firstn_all. Qed.

Lemma slice_nil : forall A (s : list A) a, slice s a a = [].
Proof. intros. unfold slice. rewrite Nat.sub_diag. reflexivity. Qed.

Lemma slice_to_end : forall A (s : list A) a, slice s a (length s) = skipn a s.
Proof. intros. unfold slice. rewrite <- (skipn_length a s). apply firstn_all. Qed.

(** Checked slicing [s[a:b]]. (Go allows [b] up to the capacity of a slice; no code modelled here
    goes beyond the length, and the model counts doing so as a panic.) *)
Definition gslice {A} (s : list A) (a b : nat) : res (list A) :=
  if (a <=? b) && (b <=? length s) then Ok (slice s a b) else Panic.

Lemma gslice_ok : forall A (s : list A) a b, a <= b -> b <= length s -> gslice s a b = Ok (slice s a b).
Proof.
  intros A s a b H1 H2. unfold gslice.
  apply Nat.leb_le in H1, H2. rewrite H1, H2. reflexivity.
Qed.

Lemma slice_skipn : forall A (s : list A) a n, slice s a (a + n) = firstn n (skipn a s).
Proof. intros. unfold slice. f_equal. lia. Qed.

Lemma Forall2_length' : forall A B (R : A -> B -> Prop) l l', Forall2 R l l' -> length l = length l'.
Proof. induction 1; cbn; auto. Qed.

Lemma Forall2_firstn : forall A B (R : A -> B -> Prop) n l l', Forall2 R l l' -> Forall2 R (firstn n l) (firstn n l').
Proof. intros A B R n; induction n; intros l l' H; cbn; [constructor|]. inversion H; subst; constructor; auto. Qed.

Lemma Forall2_skipn : forall A B (R : A -> B -> Prop) n l l', Forall2 R l l' -> Forall2 R (skipn n l) (skipn n l').
Proof. intros A B R n; induction n; intros l l' H; cbn; [exact H|]. inversion H; subst; auto. Qed.
