(** Go's UTF-8 conversions: utf8.DecodeRune, string(rune), []rune(s), range over a string,
    strings.ToLower. These are library/language semantics, not code of /repo; gse relies on them in
    segmenter.go:214, dag.go:225, trim.go:216, etc. *)
From Verif Require Export M_Env.
Local Open Scope Z_scope.

Definition cont (b : byte) : bool := in_range 128 191 (bz b).

(** utf8.DecodeRune: rune and size; invalid or truncated input gives (U+FFFD, 1), empty (U+FFFD, 0). *)
Definition decode_rune (s : bytes) : rune * nat :=
  match s with
  | [] => (RuneError, 0%nat)
  | b0 :: t =>
    let c0 := bz b0 in
    if c0 <? 128 then (c0, 1%nat)
    else if c0 <? 194 then (RuneError, 1%nat)
    else if c0 <? 224 then
      match t with
      | b1 :: _ => if cont b1 then ((c0 - 192) * 64 + (bz b1 - 128), 2%nat) else (RuneError, 1%nat)
      | _ => (RuneError, 1%nat)
      end
    else if c0 <? 240 then
      match t with
      | b1 :: b2 :: _ =>
        if in_range (if c0 =? 224 then 160 else 128) (if c0 =? 237 then 159 else 191) (bz b1) && cont b2
        then ((c0 - 224) * 4096 + (bz b1 - 128) * 64 + (bz b2 - 128), 3%nat)
        else (RuneError, 1%nat)
      | _ => (RuneError, 1%nat)
      end
    else if c0 <? 245 then
      match t with
      | b1 :: b2 :: b3 :: _ =>
        if in_range (if c0 =? 240 then 144 else 128) (if c0 =? 244 then 143 else 191) (bz b1)
           && cont b2 && cont b3
        then ((c0 - 240) * 262144 + (bz b1 - 128) * 4096 + (bz b2 - 128) * 64 + (bz b3 - 128), 4%nat)
        else (RuneError, 1%nat)
      | _ => (RuneError, 1%nat)
      end
    else (RuneError, 1%nat)
  end.

(** Unicode scalar values: what string(r) encodes as itself. *)
Definition scalar (r : rune) : bool := in_range 0 55295 r || in_range 57344 1114111 r.

Definition enc (r : rune) : bytes :=
  if r <? 128 then [zb r]
  else if r <? 2048 then [zb (192 + r / 64); zb (128 + r mod 64)]
  else if r <? 65536 then [zb (224 + r / 4096); zb (128 + (r / 64) mod 64); zb (128 + r mod 64)]
  else [zb (240 + r / 262144); zb (128 + (r / 4096) mod 64); zb (128 + (r / 64) mod 64); zb (128 + r mod 64)].

(** string(r): runes that are not scalar values become U+FFFD. *)
Definition string_of_rune (r : rune) : bytes := enc (if scalar r then r else RuneError).

(** string(runes) *)
Definition string_of_runes (rs : list rune) : bytes := List.concat (List.map string_of_rune rs).

(** The successive (rune, bytes) units seen by repeated DecodeRune, as in
    [for _, r := range s] and []rune(s). Fuel: the length always suffices. *)
Fixpoint units_fuel (fuel : nat) (s : bytes) : list (rune * bytes) :=
  match fuel with
  | O => []
  | S f =>
    match s with
    | [] => []
    | _ :: _ => let rn := decode_rune s in
                (fst rn, firstn (snd rn) s) :: units_fuel f (skipn (snd rn) s)
    end
  end.
Definition units (s : bytes) : list (rune * bytes) := units_fuel (List.length s) s.

(** []rune(s) *)
Definition runes_of (s : bytes) : list rune := List.map fst (units s).

(** strings.ToLower: for ASCII strings the bytes are mapped; otherwise strings.Map(unicode.ToLower),
    which re-encodes every rune and replaces invalid bytes by U+FFFD. Both are this function. *)
Definition to_lower_str (E : env) (s : bytes) : bytes :=
  string_of_runes (List.map (rune_lower E) (runes_of s)).
