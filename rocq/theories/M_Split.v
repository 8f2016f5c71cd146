(** Splitting text into words: segmenter.go:201-270. *)
From Verif Require Export M_Utf8.

(** The options SplitTextToWords reads: Segmenter.AlphaNum/Alpha/Num (segmenter.go:36-38) and the
    package variable ToLower (gse.go). *)
Record cfg : Type := {
  c_alphanum : bool;
  c_alpha : bool;
  c_num : bool;
  c_lower : bool
}.

(** segmenter.go:259-270 toLower: maps 'A'..'Z' to 'a'..'z' byte by byte (the index loop is [map]). *)
Definition lower_byte (b : byte) : byte :=
  if in_range 65 90 (bz b) then zb (bz b - 65 + 97) else b.
Definition to_lower (s : bytes) : bytes := List.map lower_byte s.

(** segmenter.go:250-256 toLow *)
Definition to_low (c : cfg) (s : bytes) : bytes := if c_lower c then to_lower s else s.

Section Split.
  Variable E : env.
  Variable c : cfg.

  (** segmenter.go:210-245, the loop and the final flush of SplitTextToWords. [fuel] counts iterations. *)
  Fixpoint split_loop (fuel : nat) (text : bytes) (current alnumStart : nat) (inAlnum : bool)
           (output : list bytes) : res (list bytes) :=
    if current <? length text then
      match fuel with
      | O => Hang
      | S f =>
        let rs := decode_rune (skipn current text) in
        let r := fst rs in
        let size := snd rs in
        let isNum := is_number E r && negb (c_num c) in
        let isAlpha := is_letter E r && negb (c_alpha c) in
        if (size <=? 2) && (isAlpha || isNum) then
          let alnumStart' := if inAlnum then alnumStart else current in
          do output' <- (if c_alphanum c then
                           do w <- gslice text current (current + size) ;
                           Ok (output ++ [to_low c w])
                         else Ok output) ;
          split_loop f text (current + size) alnumStart' true output'
        else
          do output' <- (if inAlnum then
                           if negb (current =? 0) && negb (c_alphanum c) then
                             do w <- gslice text alnumStart current ;
                             Ok (output ++ [to_low c w])
                           else Ok output
                         else Ok output) ;
          do w <- gslice text current (current + size) ;
          split_loop f text (current + size) alnumStart false (output' ++ [w])
      end
    else if inAlnum && negb (c_alphanum c) then
      if negb (current =? 0) then
        do w <- gslice text alnumStart current ;
        Ok (output ++ [to_low c w])
      else Ok output
    else Ok output.

  (** segmenter.go:208-248 SplitTextToWords *)
  Definition split_words (text : bytes) : res (list bytes) :=
    split_loop (length text) text 0 0 true [].
End Split.
