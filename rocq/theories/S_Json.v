(** A reader for JSON texts by RFC 8259, on characters (Unicode code points). Not covered, and rejected: negative and fractional numbers, true and false,
    and \u escapes of surrogates. *)
From Verif Require Export Base.
Set Implicit Arguments. Unset Strict Implicit.
Local Open Scope lit_scope.
Local Open Scope Z_scope.

Inductive json : Type :=
| JNull
| JNum (n : Z)
| JStr (s : list Z)
| JArr (l : list json)
| JObj (l : list (list Z * json)).

(** Section 2: insignificant white space. *)
Definition white (c : Z) : bool := (c =? 32) || (c =? 9) || (c =? 10) || (c =? 13).
Fixpoint skip_white (s : list Z) : list Z := match s with c :: t => if white c then skip_white t else s | [] => [] end.

(** Section 7: strings, from behind the opening quotation mark. *)
Definition hex_value (c : Z) : option Z :=
  if (48 <=? c) && (c <=? 57) then Some (c - 48) else if (97 <=? c) && (c <=? 102) then Some (c - 87) else if (65 <=? c) && (c <=? 70) then Some (c - 55) else None.
Definition hex4 (a b c d : Z) : option Z :=
  match hex_value a, hex_value b, hex_value c, hex_value d with
  | Some x, Some y, Some z, Some w => let v := 4096 * x + 256 * y + 16 * z + w in if (55296 <=? v) && (v <? 57344) then None else Some v
  | _, _, _, _ => None
  end.
(** quotation mark, reverse solidus, solidus, b, f, n, r, t *)
Definition escapes : list (Z * Z) := [(34, 34); (92, 92); (47, 47); (98, 8); (102, 12); (110, 10); (114, 13); (116, 9)].
Definition escaped (c : Z) : option Z := match find (fun p => fst p =? c) escapes with Some p => Some (snd p) | None => None end.
Definition put_char (r : Z) (x : option (list Z * list Z)) : option (list Z * list Z) := match x with Some (cs, t) => Some (r :: cs, t) | None => None end.
Fixpoint read_string (s : list Z) : option (list Z * list Z) :=
  match s with
  | [] => None
  | c :: t =>
    if c =? 34 then Some ([], t)
    else if c =? 92 then
      match t with
      | [] => None
      | e :: t' =>
        if e =? 117 then match t' with h1 :: h2 :: h3 :: h4 :: t4 => match hex4 h1 h2 h3 h4 with Some v => put_char v (read_string t4) | None => None end | _ => None end
        else match escaped e with Some v => put_char v (read_string t') | None => None end
      end
    else if c <? 32 then None
    else put_char c (read_string t)
  end.

(** Section 6: non-negative integers. *)
Definition digit (c : Z) : bool := (48 <=? c) && (c <=? 57).
Fixpoint read_digits (acc : Z) (s : list Z) : Z * list Z := match s with c :: t => if digit c then read_digits (10 * acc + (c - 48)) t else (acc, s) | [] => (acc, []) end.

(** Sections 4 and 5: what stands between the brackets, elements separated by commas. *)
Section Items.
  Variables (A : Type) (rd : list Z -> option (A * list Z)) (close : Z).
  Fixpoint read_items (n : nat) (s : list Z) : option (list A * list Z) :=
    match n with
    | O => None
    | S n' =>
      match rd s with
      | None => None
      | Some (v, t) =>
        match skip_white t with
        | [] => None
        | c :: t' =>
          if c =? close then Some ([v], t')
          else if c =? 44 then match read_items n' t' with Some (vs, u) => Some (v :: vs, u) | None => None end
          else None
        end
      end
    end.
  Definition read_list (n : nat) (s : list Z) : option (list A * list Z) :=
    match skip_white s with
    | c :: t => if c =? close then Some ([], t) else read_items n s
    | [] => None
    end.
End Items.
Definition read_member (rd : list Z -> option (json * list Z)) (s : list Z) : option ((list Z * json) * list Z) :=
  match skip_white s with
  | c :: t =>
    if c =? 34 then
      match read_string t with
      | Some (k, t1) =>
        match skip_white t1 with
        | c' :: t2 => if c' =? 58 then match rd t2 with Some (v, t3) => Some ((k, v), t3) | None => None end else None
        | [] => None
        end
      | None => None
      end
    else None
  | [] => None
  end.
(** Section 3: values. [n] bounds the nesting and the lengths of lists. *)
Fixpoint read_value (n : nat) (s : list Z) : option (json * list Z) :=
  match n with
  | O => None
  | S n' =>
    match skip_white s with
    | [] => None
    | c :: t =>
      if c =? 34 then match read_string t with Some (cs, u) => Some (JStr cs, u) | None => None end
      else if c =? 91 then match read_list (read_value n') 93 n' t with Some (l, u) => Some (JArr l, u) | None => None end
      else if c =? 123 then match read_list (read_member (read_value n')) 125 n' t with Some (l, u) => Some (JObj l, u) | None => None end
      else if c =? 48 then Some (JNum 0, t) (* no leading zeros *)
      else if digit c then let r := read_digits 0 (c :: t) in Some (JNum (fst r), snd r)
      else match t with
           | u :: l1 :: l2 :: t' => if (c =? 110) && (u =? 117) && (l1 =? 108) && (l2 =? 108) then Some (JNull, t') else None
           | _ => None
           end
    end
  end.
(** A whole text. *)
Definition read_json (s : list Z) : option json :=
  match read_value (S (length s)) s with
  | Some (v, t) => match skip_white t with [] => Some v | _ => None end
  | None => None
  end.
