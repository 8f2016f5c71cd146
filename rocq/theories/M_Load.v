(** Dictionary loaders: dict_util.go:41-439, dict_1.16.go:20-129. Logging is omitted. *)
From Verif Require Export M_Str M_Seg.
Set Implicit Arguments. Unset Strict Implicit.
Local Open Scope lit_scope.

Section Load.
  Variable E : env.

  (** The Segmenter fields read by the loaders (segmenter.go:24-59): DictSep, LoadNoFreq, MinTokenFreq,
      TextFreq. *)
  Record lcfg : Type := {
    l_sep : bytes;
    l_nofreq : bool;
    l_min : f64 E;
    l_textfreq : bytes
  }.

  (** A Segmenter: splitting options, Dict (nil is [None]), Load, loader options. *)
  Record seg : Type := {
    s_cfg : cfg;
    s_dict : option (dict E);
    s_load : bool;
    s_lc : lcfg
  }.
  Definition set_dict (s : seg) (d : option (dict E)) : seg :=
    {| s_cfg := s_cfg s; s_dict := d; s_load := s_load s; s_lc := s_lc s |}.

  (** dict_util.go:42-55 Init; LoadModel is modelled in M_Hmm. *)
  Definition init_lc (l : lcfg) : lcfg :=
    {| l_sep := l_sep l;
       l_nofreq := l_nofreq l;
       l_min := if eqb64 E (l_min l) (lit64 E 0 0) then lit64 E 2 0 else l_min l;
       l_textfreq := match l_textfreq l with [] => str "2.0" | t => t end |}.

  (** dict_util.go:259-294 Size; returning early leaves the named result as it is, which after a range
      error of ParseFloat is an infinity. *)
  Definition size_freq (l : lcfg) (size : nat) (text freqText : bytes) : f64 E :=
    match size with
    | O => lit64 E 0 0
    | _ =>
      if (size <? 2) && negb (l_nofreq l) then lit64 E 0 0
      else
        let v := parse_float E (if size <? 2 then l_textfreq l else freqText) in
        if snd v then fst v
        else if ltb64 E (fst v) (l_min l) then lit64 E 0 0
        else if length (runes_of text) <? 2 then lit64 E 2 0
        else fst v
    end.

  (** The common tail of all loaders: split the text and call Dict.AddToken unless the frequency is 0.
      (dict_util.go:122-129, 368-380; dict_1.16.go:110-124) A nil Dict panics. *)
  Definition add_entry (c : cfg) (od : option (dict E)) (text : bytes) (freq : f64 E) (pos : bytes) : res (option (dict E)) :=
    if eqb64 E freq (lit64 E 0 0) then Ok od
    else match od with
         | None => Panic
         | Some d => do d' <- seg_add_token c d text freq pos ; Ok (Some d')
         end.

  Definition calc_opt (od : option (dict E)) : res (option (dict E)) :=
    match od with None => Panic | Some d => do d' <- calc_token d ; Ok (Some d') end.

  (** dict_1.16.go:92-95 and dict_util.go:114-117: start with a new dictionary if there is none. *)
  Definition ensure_dict (s : seg) : seg :=
    match s_dict s with
    | Some _ => s
    | None => {| s_cfg := s_cfg s; s_dict := Some (new_dict E); s_load := s_load s; s_lc := init_lc (s_lc s) |}
    end.

  (** dict_1.16.go:98-125, one line of LoadDictStr. strings.Split never returns an empty slice. *)
  Definition str_line (c : cfg) (l : lcfg) (od : option (dict E)) (line : bytes) : res (option (dict E)) :=
    let s1 := split_str line (l_sep l ++ str " ") in
    let size := length s1 in
    let text := trim_space E (nth 0 s1 []) in
    let freqText := if 1 <? size then trim_space E (nth 1 s1 []) else [] in
    let freq := size_freq l size text freqText in
    let pos := if 2 <? size then trim_space E (trim_nl (nth 2 s1 [])) else [] in
    add_entry c od text freq pos.
  Fixpoint str_lines (c : cfg) (l : lcfg) (od : option (dict E)) (lines : list bytes) : res (option (dict E)) :=
    match lines with
    | [] => Ok od
    | x :: t => do od' <- str_line c l od x ; str_lines c l od' t
    end.

  (** dict_1.16.go:91-129 LoadDictStr *)
  Definition load_str (s : seg) (text : bytes) : res seg :=
    let s := ensure_dict s in
    do od <- str_lines (s_cfg s) (s_lc s) (s_dict s) (split_str text [x0a]) ;
    do od' <- calc_opt od ;
    Ok (set_dict s od').

  (** A Go map[string]string: distinct keys, reading an absent key gives "". *)
  Definition smap := list (bytes * bytes).
  Fixpoint m_get (m : smap) (k : bytes) : bytes :=
    match m with [] => [] | (k', v) :: m' => if beqb k' k then v else m_get m' k end.

  (** dict_util.go:113-133 LoadDictMap *)
  Definition map_entry (c : cfg) (l : lcfg) (od : option (dict E)) (m : smap) : res (option (dict E)) :=
    add_entry c od (m_get m (str "text")) (size_freq l (length m) (m_get m (str "text")) (m_get m (str "freq")))
              (m_get m (str "pos")).
  Fixpoint map_entries (c : cfg) (l : lcfg) (od : option (dict E)) (ms : list smap) : res (option (dict E)) :=
    match ms with
    | [] => Ok od
    | x :: t => do od' <- map_entry c l od x ; map_entries c l od' t
    end.
  Definition load_map (s : seg) (ms : list smap) : res seg :=
    let s := ensure_dict s in
    do od <- map_entries (s_cfg s) (s_lc s) (s_dict s) ms ;
    do od' <- calc_opt od ;
    Ok (set_dict s od').

  (** ** Reader *)

  (** What follows the data of an io.Reader: end of file, or an error that is not io.EOF and is returned
      again by every later read (for example reading a directory). *)
  Inductive rend : Set := REof | RFail.
  (** Error returned by one read of a line: none, io.EOF, or another error. *)
  Inductive rerr : Set := ENone | EEof | EOther.

  (** fmt.Fscanln (library): scanner over the runes of the input.
      skip_sp skips spaces; [true] if it stopped by consuming a newline. A '\r' is a space in every case. *)
  Fixpoint skip_sp (rs : list rune) : bool * list rune :=
    match rs with
    | [] => (false, [])
    | r :: t => if Z.eqb r 10 then (true, t) else if is_space E r then skip_sp t else (false, rs)
    end.
  Fixpoint scan_word (rs : list rune) : list rune * list rune :=
    match rs with
    | [] => ([], [])
    | r :: t => if is_space E r then ([], rs)
                else let wr := scan_word t in (r :: fst wr, snd wr)
    end.
  (** The end-of-line check after the last argument: spaces up to a newline or the end of input; another
      character is consumed and is an error. *)
  Fixpoint scan_end (fin : rend) (rs : list rune) : rerr * list rune :=
    match rs with
    | [] => (match fin with REof => ENone | RFail => EOther end, [])
    | r :: t => if Z.eqb r 10 then (ENone, t) else if is_space E r then scan_end fin t else (EOther, t)
    end.
  (** Scan [k] more fields, [n] already scanned. *)
  Fixpoint scan_fields (fin : rend) (k n : nat) (rs : list rune) : list bytes * rerr * list rune :=
    match k with
    | O => let e := scan_end fin rs in ([], fst e, snd e)
    | S k' =>
      match skip_sp rs with
      | (true, t) => ([], EOther, t)
      | (false, []) =>
        ([], match fin with
             | RFail => EOther
             | REof => if (n =? 0) || q_eof E then EEof else EOther
             end, [])
      | (false, t) => let wr := scan_word t in
                      let r := scan_fields fin k' (S n) (snd wr) in
                      (string_of_runes (fst wr) :: fst (fst r), snd (fst r), snd r)
      end
    end.

  (** dict_util.go:317-383 Reader with DictSep = "". The variables text, freqText, pos keep their values
      when Fscanln scans fewer fields. [fuel] bounds the number of lines. *)
  Fixpoint reader_ln (fuel : nat) (c : cfg) (l : lcfg) (fin : rend) (text freqText pos : bytes)
           (rs : list rune) (od : option (dict E)) : res (option (dict E)) :=
    match fuel with
    | O => Hang
    | S f =>
      let r := scan_fields fin 3 0 rs in
      let fs := fst (fst r) in
      let size := length fs in
      let text := nth 0 fs text in
      let freqText := nth 1 fs freqText in
      let pos := nth 2 fs pos in
      match snd (fst r) with
      | EEof => Ok od
      | _ =>
        let freq := size_freq l size text freqText in
        if eqb64 E freq (lit64 E 0 0) then reader_ln f c l fin text freqText pos (snd r) od
        else
          let pos := if size =? 2 then [] else pos in
          do od' <- add_entry c od text freq pos ;
          reader_ln f c l fin text freqText pos (snd r) od'
      end
    end.

  (** bufio.Reader.ReadString('\n'): data up to and including the newline. *)
  Fixpoint read_line (s : bytes) : bytes * bool * bytes :=
    match s with
    | [] => ([], false, [])
    | b :: t => if Byte.eqb b x0a then ([b], true, t)
                else let r := read_line t in (b :: fst (fst r), snd (fst r), snd r)
    end.

  (** dict_util.go:297-314 ReadN on a line, dict_util.go:317-383 Reader with DictSep <> "". *)
  Fixpoint reader_sep (fuel : nat) (c : cfg) (l : lcfg) (fin : rend) (s : bytes) (od : option (dict E)) : res (option (dict E)) :=
    match fuel with
    | O => Hang
    | S f =>
      let r := read_line s in
      let parts := split_str (fst (fst r)) (l_sep l ++ str " ") in
      let size := length parts in
      let text := nth 0 parts [] in
      let freqText := if 1 <? size then trim_space E (nth 1 parts []) else [] in
      let pos := if 2 <? size then trim_space E (trim_nl (nth 2 parts [])) else [] in
      if negb (snd (fst r)) && match fin with REof => true | RFail => false end && match text with [] => true | _ => false end
      then Ok od
      else
        let freq := size_freq l size text freqText in
        let pos := if size =? 2 then [] else pos in
        do od' <- add_entry c od text freq pos ;
        reader_sep f c l fin (snd r) od'
    end.

  (** Enough fuel for every input that ends in io.EOF (proved in P_Load). *)
  Definition reader (c : cfg) (l : lcfg) (data : bytes) (fin : rend) (od : option (dict E)) : res (option (dict E)) :=
    match l_sep l with
    | [] => reader_ln (length data + 2) c l fin [] [] [] (runes_of data) od
    | _ => reader_sep (length data + 2) c l fin data od
    end.

  (** ** File names *)

  (** A path: one of the bundled dictionaries below [dictDir], or a user path. *)
  Inductive dpath : Type := PZhS | PZhT | PJp | PUser (f : bytes).

  Definition in_list (s : bytes) (l : list bytes) : bool := existsb (beqb s) l.

  (** dict_util.go:400-435, one iteration of DictPaths: new dictPath and appended files. *)
  Definition path_step (dictPath : dpath) (name : bytes) : dpath * list dpath :=
    let p := if beqb name (str "ja") || beqb name (str "jp") then PJp else dictPath in
    let p1 := if beqb name (str "zh") then PZhS else p in
    let f1 := if beqb name (str "zh") then [PZhT] else [] in
    let p2 := if beqb name (str "zh_s") then PZhS else p1 in
    let p3 := if beqb name (str "zh_t") then PZhT else p2 in
    let p4 := if in_list name (map str ["en"; "zh"; "zh_s"; "zh_t"; "ja"; "jp"; "ko"; "ti"]) then p3 else PUser name in
    (p4, f1 ++ match p4 with
               | PUser f => if beqb f [] || beqb f (str " ") then [] else [p4]
               | _ => [p4]
               end).
  Fixpoint path_loop (dictPath : dpath) (names : list bytes) : list dpath :=
    match names with
    | [] => []
    | n :: t => let r := path_step dictPath n in snd r ++ path_loop (fst r) t
    end.

  (** dict_util.go:386-439 DictPaths *)
  Definition dict_paths (filePath : bytes) : list dpath :=
    if beqb filePath (str "en") then []
    else path_loop (PUser [])
           (if contains filePath (str ", ") then split_str filePath (str ", ") else split_str filePath (str ",")).

  (** dict_util.go:242-256 Read over a file system: [None] is an os.Open error. Result: new Dict, error? *)
  Definition fsys := dpath -> option (bytes * rend).
  Definition read_file (s : seg) (fs : fsys) (p : dpath) : res (seg * bool) :=
    match fs p with
    | None => Ok (s, true)
    | Some (data, fin) => do od <- reader (s_cfg s) (s_lc s) data fin (s_dict s) ; Ok (set_dict s od, false)
    end.
  Fixpoint read_files (s : seg) (fs : fsys) (ps : list dpath) : res (seg * bool) :=
    match ps with
    | [] => Ok (s, false)
    | p :: t => do r <- read_file s fs p ;
                if (snd r : bool) then Ok r else read_files (fst r) fs t
    end.

  (** dict_util.go:150-217 LoadDict: no argument ([None]) or the first argument. *)
  Definition load_dict (s : seg) (fs : fsys) (arg : option bytes) : res (seg * bool) :=
    let s := if s_load s then s
             else {| s_cfg := s_cfg s; s_dict := Some (new_dict E); s_load := true; s_lc := init_lc (s_lc s) |} in
    do r <- read_files s fs (match arg with None => [PZhS; PZhT] | Some f => dict_paths f end) ;
    if (snd r : bool) then Ok r
    else do od <- calc_opt (s_dict (fst r)) ; Ok (set_dict (fst r) od, false).

  (** dict_util.go:107-110 Empty *)
  Definition empty (s : seg) : seg := set_dict s None.

  (** ** Embedded dictionaries: dict_1.16.go:30-88; [zhS], [zhT], [ja] are the embedded texts. *)
  Record embedded : Type := { e_zhs : bytes; e_zht : bytes; e_ja : bytes }.
  Fixpoint load_strs (s : seg) (l : list bytes) : res seg :=
    match l with [] => Ok s | x :: t => do s' <- load_str s x ; load_strs s' t end.

  (** dict_1.16.go:34-51 loadZhST: new state and begin index. *)
  Definition load_zh_st (e : embedded) (s : seg) (d : bytes) : res (seg * nat) :=
    let a := contains d (str "zh,") in
    let b := contains d (str "zh_s,") in
    let t := contains d (str "zh_t,") in
    do s1 <- (if a then load_str s (e_zhs e ++ e_zht e) else Ok s) ;
    do s2 <- (if b then load_str s1 (e_zhs e) else Ok s1) ;
    do s3 <- (if t then load_str s2 (e_zht e) else Ok s2) ;
    Ok (s3, if a || b || t then 1 else 0).

  (** dict_1.16.go:54-88 LoadDictEmbed *)
  Definition load_embed (e : embedded) (s : seg) (arg : option bytes) : res seg :=
    match arg with
    | None => load_str s (e_zhs e ++ e_zht e)
    | Some d =>
      if beqb d (str "ja") then load_str s (e_ja e)
      else if beqb d (str "zh") then load_str s (e_zhs e ++ e_zht e)
      else if beqb d (str "zh_s") then load_str s (e_zhs e)
      else if beqb d (str "zh_t") then load_str s (e_zht e)
      else if contains d (str ", ") && negb (beqb (l_sep (s_lc s)) (str ",")) then
        do r <- load_zh_st e s d ;
        load_strs (fst r) (skipn (snd r) (split_str d (str ", ")))
      else load_str s d
    end.
End Load.
