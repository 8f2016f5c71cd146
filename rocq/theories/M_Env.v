(** The environment of the model: floating point arithmetic and oracles for library code
    whose source is not in /repo. All theorems are quantified over it (or over [ieee]). *)
From Verif Require Export Base.

(** Go's float64/float32 operations used by gse. Instance: [ieee] in Ieee.v. The only laws assumed
    of every instance are 0 == 0 and not 0 < 0. *)
Record arith : Type := {
  f64 : Type;
  f32 : Type;
  lit64 : Z -> Z -> f64;           (* constant m * 2^e *)
  add64 : f64 -> f64 -> f64;
  sub64 : f64 -> f64 -> f64;
  mul64 : f64 -> f64 -> f64;
  div64 : f64 -> f64 -> f64;
  ltb64 : f64 -> f64 -> bool;      (* Go <  *)
  eqb64 : f64 -> f64 -> bool;      (* Go == *)
  trunc64 : f64 -> f64;            (* integer part of math.Modf *)
  lit32 : Z -> Z -> f32;
  add32 : f32 -> f32 -> f32;
  sub32 : f32 -> f32 -> f32;
  ltb32 : f32 -> f32 -> bool;
  eqb32 : f32 -> f32 -> bool;
  to32 : f64 -> f32;               (* float32(x) *)
  zero32_refl : eqb32 (lit32 0 0) (lit32 0 0) = true; (* 0 == 0 *)
  zero64_refl : eqb64 (lit64 0 0) (lit64 0 0) = true;
  zero64_irr : ltb64 (lit64 0 0) (lit64 0 0) = false
}.

Record env : Type := {
  ar :> arith;
  (* unicode tables for runes >= 0x80 other than U+FFFD; ASCII and U+FFFD are spelled out below *)
  u_letter : rune -> bool;
  u_number : rune -> bool;
  u_space : rune -> bool;
  u_punct : rune -> bool;
  u_symbol : rune -> bool;
  u_lower : rune -> rune;
  u_han : rune -> bool;
  u_kana : rune -> bool;           (* Hiragana or Katakana *)
  u_script : bytes -> option (rune -> bool); (* unicode.Scripts[lang]; None: no such entry, a nil table *)
  (* package math, strconv *)
  m_log : f64 ar -> f64 ar;
  m_log2 : f64 ar -> f64 ar;
  parse_float : bytes -> f64 ar * bool;  (* value, error? ; on ErrRange Go returns ±Inf and an error *)
  (* cedar: does Delete of a path that is not a key but a proper prefix of keys drop the subtree? *)
  q_drop : bool;
  (* fmt.Fscanln: is end of input after at least one but not all fields reported as io.EOF
     (rather than io.ErrUnexpectedEOF)? *)
  q_eof : bool
}.

Definition RuneError : rune := 65533%Z.  (* U+FFFD *)

Section Unicode.
  Variable E : env.
  Local Open Scope Z_scope.

  Definition in_range (lo hi r : Z) : bool := (lo <=? r) && (r <=? hi).

  Definition ascii_upper (r : rune) := in_range 65 90 r.
  Definition ascii_lower (r : rune) := in_range 97 122 r.
  Definition ascii_digit (r : rune) := in_range 48 57 r.
  Definition ascii_alnum (r : rune) := ascii_upper r || ascii_lower r || ascii_digit r.

  (** unicode.IsLetter (go standard library), ASCII part exact *)
  Definition is_letter (r : rune) : bool :=
    if r <? 128 then ascii_upper r || ascii_lower r
    else if r =? RuneError then false else u_letter E r.
  (** unicode.IsNumber *)
  Definition is_number (r : rune) : bool :=
    if r <? 128 then ascii_digit r
    else if r =? RuneError then false else u_number E r.
  (** unicode.IsSpace: \t \n \v \f \r and space in ASCII *)
  Definition is_space (r : rune) : bool :=
    if r <? 128 then in_range 9 13 r || (r =? 32)
    else if r =? RuneError then false else u_space E r.
  (** unicode.IsPunct; in ASCII: 33-35, 37-42, 44-47, 58-59, 63-64, 91-93, 95, 123, 125 *)
  Definition is_punct (r : rune) : bool :=
    if r <? 128 then
      in_range 33 35 r || in_range 37 42 r || in_range 44 47 r || in_range 58 59 r
      || in_range 63 64 r || in_range 91 93 r || (r =? 95) || (r =? 123) || (r =? 125)
    else if r =? RuneError then false else u_punct E r.
  (** unicode.IsSymbol; in ASCII: 36, 43, 60-62, 94, 96, 124, 126; U+FFFD has category So *)
  Definition is_symbol (r : rune) : bool :=
    if r <? 128 then
      (r =? 36) || (r =? 43) || in_range 60 62 r || (r =? 94) || (r =? 96) || (r =? 124) || (r =? 126)
    else if r =? RuneError then true else u_symbol E r.
  (** unicode.ToLower *)
  Definition rune_lower (r : rune) : rune :=
    if r <? 128 then (if ascii_upper r then r + 32 else r)
    else if r =? RuneError then RuneError else u_lower E r.
  (** \p{Han} *)
  Definition is_han (r : rune) : bool :=
    if r <? 128 then false else if r =? RuneError then false else u_han E r.
  (** unicode.Is(Hiragana) || unicode.Is(Katakana), used by IsJp (dict_util.go:441-451) *)
  Definition is_kana (r : rune) : bool :=
    if r <? 128 then false else if r =? RuneError then false else u_kana E r.
End Unicode.
