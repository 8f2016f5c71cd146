(** Specification of dictionary texts, independent of the loaders. *)
From Verif Require Export M_Load S_Dict S_Utf8.
Set Implicit Arguments. Unset Strict Implicit.
Local Open Scope lit_scope.

(** [sep] occurs in [s] at offset [i]. *)
Definition occurs_at (sep s : bytes) (i : nat) : Prop := exists a b, s = a ++ sep ++ b /\ length a = i.

(** [fs] are the fields of [s] separated by [sep], cut at each leftmost occurrence. *)
Inductive fields (sep : bytes) : bytes -> list bytes -> Prop :=
| fields_last : forall s, (forall i, ~ occurs_at sep s i) -> fields sep s [s]
| fields_cons : forall f rest fs, (forall i, i < length f -> ~ occurs_at sep (f ++ sep ++ rest) i) ->
    fields sep rest fs -> fields sep (f ++ sep ++ rest) (f :: fs).

(** [t] is [s] without leading and trailing white space. *)
Definition trimmed (E : env) (s t : bytes) : Prop :=
  let sp u := is_space E (fst u) = true in
  let nsp u := is_space E (fst u) = false in
  exists a m b, units s = a ++ m ++ b /\ Forall sp a /\ Forall sp b /\ t = concat (map snd m) /\
    (m = [] \/ exists x m1 m2 y, m = x :: m1 /\ nsp x /\ m = m2 ++ [y] /\ nsp y).

Section Spec.
  Variable E : env.

  Definition entry : Type := (bytes * f64 E * bytes)%type.
  Definition op_of (e : entry) : dop E := OpAdd (fst (fst e)) (snd (fst e)) (snd e).

  (** The frequency a word gets from the frequency text [src], if it is accepted: the number must not be
      0; it must not be below the minimum unless it is out of the range of float64 (then it is an infinity);
      words of at most one rune get frequency 2. *)
  Definition accepts (l : lcfg E) (text src : bytes) (freq : f64 E) : Prop :=
    eqb64 E freq (lit64 E 0 0) = false /\
    (parse_float E src = (freq, true) \/
     exists v, parse_float E src = (v, false) /\ ltb64 E v (l_min l) = false /\
       ((length (runes_of text) <= 1 /\ freq = lit64 E 2 0) \/ (2 <= length (runes_of text) /\ freq = v))).

  (** The frequency text of a line with the given fields: the second field, or the default if there is only
      one and LoadNoFreq is set. *)
  Definition freq_source (l : lcfg E) (fs : list bytes) (src : bytes) : Prop :=
    match fs with
    | [] => False
    | [_] => l_nofreq l = true /\ src = l_textfreq l
    | _ :: f :: _ => trimmed E f src
    end.

  (** What a line of LoadDictStr contributes: at most one entry. *)
  Definition line_is (l : lcfg E) (line : bytes) (e : entry) : Prop :=
    exists fs src, fields (l_sep l ++ str " ") line fs /\ trimmed E (nth 0 fs []) (fst (fst e)) /\
      freq_source l fs src /\ accepts l (fst (fst e)) src (snd (fst e)) /\
      match nth_error fs 2 with Some p => trimmed E p (snd e) | None => snd e = [] end.
  Definition line_entries (l : lcfg E) (line : bytes) (es : list entry) : Prop :=
    (exists e, line_is l line e /\ es = [e]) \/ ((forall e, ~ line_is l line e) /\ es = []).
  Definition text_entries (l : lcfg E) (txt : bytes) (es : list entry) : Prop :=
    exists lines ess, fields [x0a] txt lines /\ Forall2 (line_entries l) lines ess /\ es = concat ess.

  (** What a line of Reader with a separator contributes: the same, but the first field is not trimmed, and the line includes its newline. *)
  Definition sep_line_is (l : lcfg E) (line : bytes) (e : entry) : Prop :=
    exists fs src, fields (l_sep l ++ str " ") line fs /\ nth 0 fs [] = fst (fst e) /\
      freq_source l fs src /\ accepts l (fst (fst e)) src (snd (fst e)) /\
      match nth_error fs 2 with Some p => trimmed E p (snd e) | None => snd e = [] end.
  Definition sep_line_entries (l : lcfg E) (line : bytes) (es : list entry) : Prop :=
    (exists e, sep_line_is l line e /\ es = [e]) \/ ((forall e, ~ sep_line_is l line e) /\ es = []).
  (** The lines of a text with their newlines; the last has none. *)
  Inductive raw_lines : bytes -> list bytes -> bytes -> Prop :=
  | raw_last : forall s, ~ In x0a s -> raw_lines s [] s
  | raw_cons : forall x rest ls last, ~ In x0a x -> raw_lines rest ls last -> raw_lines (x ++ [x0a] ++ rest) ((x ++ [x0a]) :: ls) last.
  (** The last line is skipped if its first field is empty. *)
  Definition sep_text_entries (l : lcfg E) (txt : bytes) (es : list entry) : Prop :=
    exists ls last ess es1, raw_lines txt ls last /\ Forall2 (sep_line_entries l) ls ess /\ es = concat ess ++ es1 /\
      exists fs, fields (l_sep l ++ str " ") last fs /\ ((nth 0 fs [] = [] /\ es1 = []) \/ (nth 0 fs [] <> [] /\ sep_line_entries l last es1)).

  (** What a map contributes in LoadDictMap: with at least two keys the frequency is the value of "freq". *)
  Definition map_is (l : lcfg E) (m : smap) (e : entry) : Prop :=
    exists src, fst (fst e) = m_get m (str "text") /\ snd e = m_get m (str "pos") /\
      ((2 <= length m /\ src = m_get m (str "freq")) \/ (length m = 1 /\ l_nofreq l = true /\ src = l_textfreq l)) /\
      accepts l (fst (fst e)) src (snd (fst e)).
  Definition map_entries_of (l : lcfg E) (m : smap) (es : list entry) : Prop :=
    (exists e, map_is l m e /\ es = [e]) \/ ((forall e, ~ map_is l m e) /\ es = []).

  (** Loading calls. *)
  Inductive lop : Type :=
  | LStr (txt : bytes)
  | LMap (ms : list smap)
  | LAdd (text : bytes) (freq : f64 E) (pos : bytes)
  | LForce (text : bytes) (freq : f64 E) (pos : bytes)
  | LReader (data : bytes)
  | LDict (fs : fsys) (arg : option bytes).

  Definition run_lop (s : seg E) (o : lop) : res (seg E) :=
    match o with
    | LStr txt => load_str s txt
    | LMap ms => load_map s ms
    | LAdd text freq pos =>
      match s_dict s with None => Panic | Some d => do d' <- seg_add_token (s_cfg s) d text freq pos ; Ok (set_dict s (Some d')) end
    | LForce text freq pos =>
      match s_dict s with None => Panic | Some d => do d' <- seg_add_force (s_cfg s) d text freq pos ; Ok (set_dict s (Some d')) end
    | LReader data => do od <- reader (s_cfg s) (s_lc s) data REof (s_dict s) ; Ok (set_dict s od)
    | LDict fs arg => do r <- load_dict s fs arg ; Ok (fst r)
    end.
  Fixpoint run_lops (s : seg E) (os : list lop) : res (seg E) :=
    match os with [] => Ok s | o :: os' => do s' <- run_lop s o ; run_lops s' os' end.

  Definition is_ldict (o : lop) : Prop := match o with LDict _ _ => True | _ => False end.

  (** Entries contributed by the calls covered by C20's first part. *)
  Definition lop_entries (l : lcfg E) (o : lop) (es : list entry) : Prop :=
    match o with
    | LStr txt => text_entries l txt es
    | LMap ms => exists ess, Forall2 (map_entries_of l) ms ess /\ es = concat ess
    | LAdd text freq pos | LForce text freq pos => es = [(text, freq, pos)]
    | _ => False
    end.

  (** The first entry for the word [w]. *)
  Definition first_entry (c : cfg) (es : list entry) (w : bytes) : option (f64 E * bytes) :=
    match find (fun e => beqb (norm E c (fst (fst e))) w) es with
    | Some e => Some (snd (fst e), snd e)
    | None => None
    end.

  (** A field of a well-formed dictionary line: valid UTF-8, not empty, no white space. *)
  Definition wf_field (x : bytes) : Prop := x <> [] /\ valid x /\ Forall (fun r => is_space E r = false) (runes_of x).
  Definition wf_line (e : bytes * bytes * bytes) : Prop := wf_field (fst (fst e)) /\ wf_field (snd (fst e)) /\ wf_field (snd e).
  Definition line_text (e : bytes * bytes * bytes) : bytes := fst (fst e) ++ [x20] ++ snd (fst e) ++ [x20] ++ snd e.
  Definition file_text (es : list (bytes * bytes * bytes)) : bytes := concat (map (fun e => line_text e ++ [x0a]) es).
  (** The same with another separator. *)
  Definition sep_line_text (sep : bytes) (e : bytes * bytes * bytes) : bytes := fst (fst e) ++ (sep ++ [x20]) ++ snd (fst e) ++ (sep ++ [x20]) ++ snd e.
  Definition sep_file_text (sep : bytes) (es : list (bytes * bytes * bytes)) : bytes := concat (map (fun e => sep_line_text sep e ++ [x0a]) es).

  (** The options after the first load. *)
  Definition defaults (l l' : lcfg E) : Prop :=
    l_sep l' = l_sep l /\ l_nofreq l' = l_nofreq l /\
    (eqb64 E (l_min l) (lit64 E 0 0) = true -> l_min l' = lit64 E 2 0) /\ (eqb64 E (l_min l) (lit64 E 0 0) = false -> l_min l' = l_min l) /\
    (l_textfreq l = [] -> l_textfreq l' = str "2.0") /\ (l_textfreq l <> [] -> l_textfreq l' = l_textfreq l).
  (** *** Reader with the default separator on lines of at most three fields separated by one space *)
  Fixpoint joined (fs : list bytes) : bytes := match fs with [] => [] | [x] => x | x :: t => x ++ [x20] ++ joined t end.
  Definition lines_text (ls : list (list bytes)) : bytes := concat (map (fun fs => joined fs ++ [x0a]) ls).
  (** The frequency of the line, if it is accepted. *)
  Definition line_freq (l : lcfg E) (fs : list bytes) (freq : f64 E) : Prop :=
    match fs with
    | [] => False
    | [w] => l_nofreq l = true /\ accepts l w (l_textfreq l) freq
    | w :: src :: _ => accepts l w src freq
    end.
  (** The entries of the lines. [p] is the part of speech left over from the lines before. *)
  Inductive ln_entries (l : lcfg E) : bytes -> list (list bytes) -> list entry -> Prop :=
  | ln_nil : forall p, ln_entries l p [] []
  | ln_skip : forall p fs ls es, (forall f, ~ line_freq l fs f) -> ln_entries l (nth 2 fs p) ls es -> ln_entries l p (fs :: ls) es
  | ln_three : forall p w src q f ls es, line_freq l [w; src; q] f -> ln_entries l q ls es -> ln_entries l p ([w; src; q] :: ls) ((w, f, q) :: es)
  | ln_two : forall p w src f ls es, line_freq l [w; src] f -> ln_entries l [] ls es -> ln_entries l p ([w; src] :: ls) ((w, f, []) :: es)
  | ln_one : forall p w f ls es, line_freq l [w] f -> ln_entries l p ls es -> ln_entries l p ([w] :: ls) ((w, f, p) :: es).

  (** The embedded dictionaries a list argument of LoadDictEmbed mentions: text [txt] is loaded if [name] occurs anywhere in it. *)
  Definition part (arg name txt : bytes) (l : list bytes) : Prop :=
    ((exists i, occurs_at name arg i) /\ l = [txt]) \/ ((forall i, ~ occurs_at name arg i) /\ l = []).
  Definition named (e : embedded) (arg : bytes) (l : list bytes) : Prop :=
    exists a b c, l = a ++ b ++ c /\ part arg (str "zh,") (e_zhs e ++ e_zht e) a /\ part arg (str "zh_s,") (e_zhs e) b /\ part arg (str "zh_t,") (e_zht e) c.
End Spec.
Arguments LStr {E} txt.
Arguments LMap {E} ms.
Arguments LReader {E} data.
Arguments LDict {E} fs arg.

(** What a name in the list asks for. *)
Definition requested (name : bytes) : list dpath :=
  if beqb name (str "zh") then [PZhT; PZhS]
  else if beqb name (str "zh_s") then [PZhS]
  else if beqb name (str "zh_t") then [PZhT]
  else if beqb name (str "ja") || beqb name (str "jp") then [PJp]
  else if in_list name (map str ["en"; "ko"; "ti"; ""; " "]) then []
  else [PUser name].

(** Language names without a dictionary. *)
Definition bare_tag (name : bytes) : bool := in_list name (map str ["en"; "ko"; "ti"]).

(** The separator of a list of names. *)
Definition list_sep (arg : bytes) (sep : bytes) : Prop :=
  (sep = str ", " /\ exists i, occurs_at (str ", ") arg i) \/ (sep = str "," /\ forall i, ~ occurs_at (str ", ") arg i).

(** [sublist a b]: [a] can be got from [b] by deleting elements. *)
Inductive sublist {A} : list A -> list A -> Prop :=
| sub_nil : forall l, sublist [] l
| sub_take : forall x a b, sublist a b -> sublist (x :: a) (x :: b)
| sub_skip : forall x a b, sublist a b -> sublist a (x :: b).

