(** Stop words (stop.go), filters (trim.go) and joining (gse.go). *)
From Verif Require Export M_Str M_Load M_Dag.
Set Implicit Arguments. Unset Strict Implicit.
Local Open Scope lit_scope.

(** ** Stop words *)

(** Segmenter.StopWordMap (segmenter.go:58): a set of strings (every stored value is true); [None] is the nil map. *)
Definition stops := option (list bytes).
Definition set_put (l : list bytes) (w : bytes) : list bytes := if in_list w l then l else w :: l.
Definition set_del (l : list bytes) (w : bytes) : list bytes := filter (fun x => negb (beqb x w)) l.
(** if seg.StopWordMap == nil { make } (stop.go:32-34, 43-45, dict_1.16.go:158-160) *)
Definition made (m : stops) : list bytes := match m with None => [] | Some l => l end.
Definition put_all (l : list bytes) (ws : list bytes) : list bytes := fold_left set_put ws l.

(** stop.go:104-108 IsStop *)
Definition is_stop (m : stops) (w : bytes) : bool := match m with None => false | Some l => in_list w l end.
(** stop.go:31-39 LoadStopArr, :88-90 AddStopArr *)
Definition load_stop_arr (m : stops) (ws : list bytes) : stops := Some (put_all (made m) ws).
(** stop.go:83-85 AddStop: assignment to an entry of a nil map panics. *)
Definition add_stop (m : stops) (w : bytes) : res stops := match m with None => Panic | Some l => Ok (Some (set_put l w)) end.
(** stop.go:93-95 RemoveStop: delete on a nil map does nothing. *)
Definition remove_stop (m : stops) (w : bytes) : stops := option_map (fun l => set_del l w) m.
(** stop.go:98-101 EmptyStop *)
Definition empty_stop : stops := None.

Section Stop.
  Variable E : env.

  (** dict_1.16.go:157-171 LoadStopStr; the error is always nil. *)
  Definition load_stop_str (m : stops) (dict : bytes) : stops :=
    Some (put_all (made m) (filter (fun k => negb (beqb k [])) (map (trim_space E) (split_str dict [x0a])))).

  (** dict_1.16.go:132-154 LoadStopEmbed; [stopDict] is the embedded text (dict_embed.go:24-25), [None] no argument. *)
  Definition load_stop_embed (stopDict : bytes) (m : stops) (arg : option bytes) : stops :=
    match arg with
    | None => load_stop_str m stopDict
    | Some d =>
      if contains d (str ", ") then
        let zh := contains d (str "zh,") in
        fold_left load_stop_str (skipn (if zh then 1 else 0) (split_str d (str ", "))) (if zh then load_stop_str m stopDict else m)
      else load_stop_str m d
    end.

  (** bufio.Scanner with ScanLines (library): the lines without "\n" and one trailing "\r"; the last one also without
      "\n" if it is not empty; scanning ends before a line of 65536 or more bytes (bufio.MaxScanTokenSize). An empty
      last line, which ScanLines does not report, is dropped by the caller like every empty line. *)
  Definition drop_cr (l : bytes) : bytes := match rev l with b :: r => if Byte.eqb b x0d then rev r else l | [] => [] end.
  Fixpoint short_lines (ls : list bytes) : list bytes :=
    match ls with [] => [] | l :: t => if (Z.of_nat (length l) <=? 65535)%Z then drop_cr l :: short_lines t else [] end.
  Definition scan_lines (data : bytes) : list bytes := short_lines (split_str data [x0a]).

  (** A stop word file: the default one, the one "zh" stands for, or a user path. *)
  Inductive spath : Type := SDefault | SZh | SUser (f : bytes).

  (** stop.go:58-77, the loop of LoadStop: new map, error? [fs p = None] is an error of os.Open; read errors end a file
      silently, so [fs] gives the bytes read before. *)
  Fixpoint stop_files (fs : spath -> option bytes) (ps : list spath) (l : list bytes) : stops * bool :=
    match ps with
    | [] => (Some l, false)
    | p :: t => match fs p with
                | None => (Some l, true)
                | Some data => stop_files fs t (put_all l (filter (fun k => negb (beqb k [])) (scan_lines data)))
                end
    end.
  (** stop.go:42-80 LoadStop: only the first argument is used. *)
  Definition load_stop (fs : spath -> option bytes) (m : stops) (files : list bytes) : stops * bool :=
    stop_files fs
      (match files with
       | [] => [SDefault]
       | f :: _ => match split_str f (str ", ") with
                   | [] => []
                   | n :: t => (if beqb n (str "zh") then SZh else SUser n) :: map SUser t
                   end
       end) (made m).

  (** *** Histories of stop word operations *)
  Inductive sop : Type :=
  | SArr (ws : list bytes)   (* LoadStopArr, AddStopArr *)
  | SStr (dict : bytes)      (* LoadStopStr *)
  | SAdd (w : bytes) | SRemove (w : bytes) | SEmpty.
  Definition run_sop (m : stops) (o : sop) : res stops :=
    match o with
    | SArr ws => Ok (load_stop_arr m ws)
    | SStr dict => Ok (load_stop_str m dict)
    | SAdd w => add_stop m w
    | SRemove w => Ok (remove_stop m w)
    | SEmpty => Ok empty_stop
    end.
  Fixpoint run_sops (m : stops) (os : list sop) : res stops :=
    match os with [] => Ok m | o :: t => do m' <- run_sop m o ; run_sops m' t end.
End Stop.

(** ** trim.go *)
Section Trim.
  Variable E : env.

  (** trim.go:227-236 FilterSymbol *)
  Fixpoint symbol_loop (rs : list rune) (acc : bytes) : bytes :=
    match rs with
    | [] => acc
    | r :: t => symbol_loop t (if negb (is_symbol E r) && negb (is_space E r) && negb (is_punct E r) then acc ++ string_of_rune r else acc)
    end.
  Definition filter_symbol (text : bytes) : bytes := symbol_loop (runes_of text) [].

  (** trim.go:215-224 FilterEmoji *)
  Fixpoint emoji_loop (rs : list rune) (acc : bytes) : bytes :=
    match rs with
    | [] => acc
    | r :: t => emoji_loop t (if snd (decode_rune (string_of_rune r)) <=? 3 then acc ++ string_of_rune r else acc)
    end.
  Definition filter_emoji (text : bytes) : bytes := emoji_loop (runes_of text) [].

  (** trim.go:246-254 FilterLang; unicode.Is on a nil table panics. *)
  Fixpoint lang_loop (tab : option (rune -> bool)) (rs : list rune) (acc : bytes) : res bytes :=
    match rs with
    | [] => Ok acc
    | r :: t => do b <- (if is_letter E r then Ok true else match tab with None => Panic | Some f => Ok (f r) end) ;
                lang_loop tab t (if (b : bool) then acc ++ string_of_rune r else acc)
    end.
  Definition filter_lang (text lang : bytes) : res bytes := lang_loop (u_script E lang) (runes_of text) [].

  (** trim.go:257-263 Range, :266-272 RangeText *)
  Definition range_str (text : bytes) : list bytes := map string_of_rune (runes_of text).
  Definition range_text (text : bytes) : bytes := fold_left (fun acc r => acc ++ string_of_rune r ++ [x20]) (runes_of text) [].

  (** trim.go:24-32 notPunct *)
  Fixpoint not_punct (rs : list rune) : bool :=
    match rs with [] => false | r :: t => if negb (is_space E r) && negb (is_punct E r) then true else not_punct t end.

  (** trim.go:35-49 TrimPunct *)
  Fixpoint trim_punct_loop (s : list bytes) (r : list bytes) : list bytes :=
    match s with
    | [] => r
    | w :: t =>
      let ru := runes_of w in
      let r' := match ru with
                | [] => r
                | r0 :: _ => if negb (is_space E r0) && negb (is_punct E r0) then r ++ [w]
                             else if (1 <? length ru) && not_punct ru then r ++ [w] else r
                end in
      trim_punct_loop t r'
    end.
  Definition trim_punct (s : list bytes) : list bytes := trim_punct_loop s [].

  (** trim.go:52-67 TrimPosPunct (with [notStop] = true it is also hmm/pos/pos_seg.go:358-369 TrimPunct): the result, and the caller's slice, which it overwrites. *)
  Fixpoint trim_pos_punct_loop (notStop : bool) (m : stops) (se : list (bytes * bytes)) (se' re : list (bytes * bytes)) :
    list (bytes * bytes) * list (bytes * bytes) :=
    match se with
    | [] => (re, se')
    | w :: t =>
      let w' := if negb notStop && is_stop m (fst w) then ([], snd w) else w in
      let re' := match runes_of (fst w') with
                 | [] => re
                 | ru :: _ => if negb (is_space E ru) && negb (is_punct E ru) then re ++ [w'] else re
                 end in
      trim_pos_punct_loop notStop m t (se' ++ [w']) re'
    end.
  Definition trim_pos_punct (notStop : bool) (m : stops) (se : list (bytes * bytes)) := trim_pos_punct_loop notStop m se [] [].

  (** trim.go:70-85 TrimWithPos; also hmm/pos/pos_seg.go:388-403 *)
  Fixpoint trim_with_pos_loop (first : bool) (se re : list (bytes * bytes)) (pos : list bytes) : list (bytes * bytes) :=
    match pos with
    | [] => re
    | p :: t =>
      let se := if first then se else re in
      let re := if first then re else [] in
      trim_with_pos_loop false se (re ++ filter (fun w => negb (beqb (snd w) p)) se) t
    end.
  Definition trim_with_pos (se : list (bytes * bytes)) (pos : list bytes) : list (bytes * bytes) := trim_with_pos_loop true se [] pos.

  (** trim.go:88-95 Stop *)
  Fixpoint stop_loop (m : stops) (s r : list bytes) : list bytes :=
    match s with [] => r | v :: t => stop_loop m t (if negb (is_stop m v) && negb (beqb v []) then r ++ [v] else r) end.
  Definition stop (m : stops) (s : list bytes) : list bytes := stop_loop m s [].

  (** trim.go:98-111 Trim *)
  Fixpoint trim_loop (notStop : bool) (m : stops) (s r : list bytes) : list bytes :=
    match s with
    | [] => r
    | w :: t =>
      let si := filter_symbol w in
      let si := if negb notStop && is_stop m si then [] else si in
      trim_loop notStop m t (if negb (beqb si []) then r ++ [si] else r)
    end.
  Definition trim (notStop : bool) (m : stops) (s : list bytes) : list bytes := trim_loop notStop m s [].

  (** trim.go:114-123 TrimSymbol *)
  Fixpoint trim_symbol_loop (s r : list bytes) : list bytes :=
    match s with
    | [] => r
    | w :: t => let si := filter_symbol w in trim_symbol_loop t (if negb (beqb si []) then r ++ [si] else r)
    end.
  Definition trim_symbol (s : list bytes) : list bytes := trim_symbol_loop s [].

  (** trim.go:126-139 TrimPos; also hmm/pos/pos_seg.go:372-385 Trim, with the settings of the segmenter of the dictionary *)
  Fixpoint trim_pos_loop (notStop : bool) (m : stops) (s r : list (bytes * bytes)) : list (bytes * bytes) :=
    match s with
    | [] => r
    | w :: t =>
      let si := filter_symbol (fst w) in
      let si := if negb notStop && is_stop m si then [] else si in
      trim_pos_loop notStop m t (if negb (beqb si []) then r ++ [w] else r)
    end.
  Definition trim_pos (notStop : bool) (m : stops) (s : list (bytes * bytes)) : list (bytes * bytes) := trim_pos_loop notStop m s [].

  (** gse.go:106-121 CutStr *)
  Fixpoint cut_str_loop (sep : bytes) (n i : nat) (str : list bytes) (r : bytes) : bytes :=
    match str with
    | [] => r
    | w :: t => cut_str_loop sep n (S i) t (if Z.of_nat i =? Z.of_nat n - 1 then r ++ w else r ++ w ++ sep)%Z
    end.
  Definition cut_str (l : list bytes) (separator : option bytes) : bytes :=
    cut_str_loop (match separator with None => str " " | Some s => s end) (length l) 0 l [].

  (** gse.go:170-190 PosStr *)
  Fixpoint pos_str_loop (skipPos : bool) (sep : bytes) (n i : nat) (str : list (bytes * bytes)) (r : bytes) : bytes :=
    match str with
    | [] => r
    | w :: t =>
      let add := if skipPos then fst w else fst w ++ [x2f] ++ snd w in
      pos_str_loop skipPos sep n (S i) t (if Z.of_nat i =? Z.of_nat n - 1 then r ++ add else r ++ add ++ sep)%Z
    end.
  Definition pos_str (skipPos : bool) (l : list (bytes * bytes)) (separator : option bytes) : bytes :=
    pos_str_loop skipPos (match separator with None => str " " | Some s => s end) (length l) 0 l [].

  (** trim.go:204-207 SplitNum: regexp \d+|\D+, all matches from the left; longest runs because both are greedy. \D matches any
      rune but an ASCII digit, an invalid byte too, so bytes can be compared. *)
  Fixpoint split_num_fuel (fuel : nat) (s : bytes) : list bytes :=
    match fuel, s with
    | S f, b :: t =>
      let run := b :: take_while (fun c => Bool.eqb (is_digit_b c) (is_digit_b b)) t in
      run :: split_num_fuel f (skipn (length run) s)
    | _, _ => []
    end.
  Definition split_num (s : bytes) : list bytes := split_num_fuel (length s) s.
  (** trim.go:210-212 SplitNums with strings.Join *)
  Fixpoint strings_join (l : list bytes) (sep : bytes) : bytes :=
    match l with [] => [] | [a] => a | a :: t => a ++ sep ++ strings_join t sep end.
  Definition split_nums (s : bytes) : bytes := strings_join (split_num s) (str " ").

  (** trim.go:239-243 FilterHtml. The regular expression (?U)\<[^>]*[\w|=|""]+\> at "<": the text up to the first ">", which
      must follow a character of the class [\w|=|""]. *)
  Definition html_class (b : byte) : bool := is_alnum_b b || existsb (Byte.eqb b) [x5f; x7c; x3d; x22].
  Definition html_at (s : bytes) : option nat :=
    match s with
    | b :: t =>
      if Byte.eqb b x3c then
        let inner := take_while (fun c => negb (Byte.eqb c x3e)) t in
        if length inner <? length t then
          match rev inner with c :: _ => if html_class c then Some (length inner + 2) else None | [] => None end
        else None
      else None
    | [] => None
    end.
  (** ReplaceAllString(text, ""): leftmost matches, not overlapping. *)
  Fixpoint html_loop (fuel : nat) (s : bytes) : bytes :=
    match fuel, s with
    | S f, b :: t => match html_at s with Some n => html_loop f (skipn n s) | None => b :: html_loop f t end
    | _, _ => []
    end.
  Definition filter_html (s : bytes) : bytes := html_loop (length s) s.

  (** ** Compositions *)
  Variable d : dict E.
  Variable c : cfg.
  Variable em : emits E.
  (** trim.go:142-144 CutStop, :147-150 CutTrim *)
  Definition cut_stop (m : stops) (s : bytes) (hmm : option bool) : res (list bytes) := do ws <- cut d c em s hmm ; Ok (stop m ws).
  Definition cut_trim (notStop : bool) (m : stops) (s : bytes) (hmm : option bool) : res (list bytes) := do ws <- cut d c em s hmm ; Ok (trim notStop m ws).
  (** trim.go:153-157 PosTrim, :160-167 PosTrimArr, :170-173 PosTrimStr *)
  Definition pos_trim (notStop : bool) (m : stops) (s : bytes) (search : bool) (pos : list bytes) : res (list (bytes * bytes)) :=
    do p <- seg_pos c (Some d) s search ; Ok (trim_pos notStop m (trim_with_pos p pos)).
  Definition pos_trim_arr (notStop : bool) (m : stops) (s : bytes) (search : bool) (pos : list bytes) : res (list bytes) :=
    do p <- pos_trim notStop m s search pos ; Ok (map fst p).
  Definition pos_trim_str (notStop : bool) (m : stops) (s : bytes) (search : bool) (pos : list bytes) : res bytes :=
    do p <- pos_trim_arr notStop m s search pos ; Ok (cut_str p None).
  (** trim.go:176-180 CutTrimHtml, :183-186 CutTrimHtmls *)
  Definition cut_trim_html (s : bytes) (hmm : option bool) : res (list bytes) := do ws <- cut d c em (filter_html s) hmm ; Ok (trim_symbol ws).
  Definition cut_trim_htmls (s : bytes) (hmm : option bool) : res bytes := do ws <- cut_trim_html s hmm ; Ok (cut_str ws (Some (str " "))).
  (** trim.go:189-196 CutUrl ([num]: whether an argument is given), :199-201 CutUrls *)
  Definition cut_url (s : bytes) (num : bool) : res (list bytes) := do ws <- cut d c em (if num then s else split_nums s) None ; Ok (trim_symbol ws).
  Definition cut_urls (s : bytes) (num : bool) : res bytes := do ws <- cut_url s num ; Ok (cut_str ws (Some (str " "))).
End Trim.
