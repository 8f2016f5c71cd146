(** The HMM word cutter: package hmm (hmm/viterbi.go, hmm/hmm_seg.go, hmm/prob_trans.go), and its use by gse.go. *)
From Verif Require Export M_Str.
Set Implicit Arguments. Unset Strict Implicit.

(** A state byte: 'B', 'M', 'E', 'S'. *)
Inductive hst : Set := HB | HM | HE | HS.
Definition hst_eqb (a b : hst) : bool :=
  match a, b with HB, HB | HM, HM | HE, HE | HS, HS => true | _, _ => false end.
(** Order of the bytes: 'B' < 'E' < 'M' < 'S'. *)
Definition hst_ord (a : hst) : nat := match a with HB => 0 | HE => 1 | HM => 2 | HS => 3 end.
Definition all_states : list hst := [HB; HM; HE; HS].

(** hmm/viterbi.go:30-33 prevStatus *)
Definition prev_status (y : hst) : list hst :=
  match y with HB => [HE; HS] | HM => [HM; HB] | HS => [HS; HE] | HE => [HB; HM] end.

Section Hmm.
  Variable E : env.

  (** hmm/viterbi.go:22 minFloat = -3.14e100, as the nearest float64 m * 2^e (so are the constants below). *)
  Definition min_float : f64 E := lit64 E (-8081665415464805) 281.
  (** hmm/viterbi.go:35-38 probStart *)
  Definition prob_start (y : hst) : f64 E :=
    match y with
    | HB => lit64 E (-4732141241282413) (-54)   (* -0.26268660809250016 *)
    | HE | HM => lit64 E (-8081665415464805) 281
    | HS => lit64 E (-6598959431365077) (-52)   (* -1.4652633398537678 *)
    end.
  (** hmm/prob_trans.go:6-20 probTrans *)
  Definition prob_trans (y0 y : hst) : option (f64 E) :=
    match y0, y with
    | HB, HE => Some (lit64 E (-4601108177687627) (-53))
    | HB, HM => Some (lit64 E (-8253213197262967) (-53))
    | HE, HB => Some (lit64 E (-5311680271489201) (-53))
    | HE, HS => Some (lit64 E (-7282546204984131) (-53))
    | HM, HE => Some (lit64 E (-6006875388520555) (-54))
    | HM, HM => Some (lit64 E (-5676167554047789) (-52))
    | HS, HB => Some (lit64 E (-3247980583497991) (-52))
    | HS, HS => Some (lit64 E (-5997562022321019) (-53))
    | _, _ => None
    end.

  (** probEmit (hmm/prob_emit.go:5), the global emission table. *)
  Definition emits := hst -> rune -> option (f64 E).

  (** hmm/viterbi.go:74-78, 115-119: a missing entry counts as minFloat. *)
  Definition emit_or_min (em : emits) (y : hst) (o : rune) : f64 E :=
    match em y o with Some v => v | None => min_float end.
  Definition trans_or_min (y0 y : hst) : f64 E :=
    match prob_trans y0 y with Some v => v | None => min_float end.

  (** Maps with a byte key: reading an absent key gives the zero value. *)
  Definition vmap := hst -> f64 E.
  Definition pmap := hst -> list hst.
  Definition mset {A} (m : hst -> A) (y : hst) (a : A) : hst -> A := fun z => if hst_eqb z y then a else m z.
  Definition v_empty : vmap := fun _ => lit64 E 0 0.
  Definition p_empty : pmap := fun _ => [].

  (** hmm/viterbi.go:41-61 probState, Less *)
  Definition pstate := (f64 E * hst)%type.
  Definition p_less (a b : pstate) : bool :=
    if eqb64 E (fst a) (fst b) then hst_ord (snd a) <? hst_ord (snd b) else ltb64 E (fst a) (fst b).

  (** sort.Sort(sort.Reverse(ps)); ps[0] for the two-element slices of hmm/viterbi.go:91-92 and 106-108: insertion
      sort swaps iff Reverse.Less(1,0), that is Less(0,1). *)
  Definition pick (a b : pstate) : pstate := if p_less a b then b else a.

  (** hmm/viterbi.go:112-134 probs *)
  Definition probs (em : emits) (v : vmap) (y : hst) (o : rune) : list pstate :=
    map (fun y0 => (add64 E (add64 E (v y0) (trans_or_min y0 y)) (emit_or_min em y o), y0)) (prev_status y).

  (** hmm/viterbi.go:73-81 *)
  Fixpoint vit_init (em : emits) (o : rune) (states : list hst) (v : vmap) (p : pmap) : vmap * pmap :=
    match states with
    | [] => (v, p)
    | y :: ys => vit_init em o ys (mset v y (add64 E (emit_or_min em y o) (prob_start y))) (mset p y [y])
    end.

  (** hmm/viterbi.go:88-97: one column; [v], [p] are vtb[t-1] and path, [v'], [p'] the maps under construction. *)
  Fixpoint vit_col (em : emits) (o : rune) (v : vmap) (p : pmap) (states : list hst) (v' : vmap) (p' : pmap) : res (vmap * pmap) :=
    match states with
    | [] => Ok (v', p')
    | y :: ys =>
      match probs em v y o with
      | a :: b :: [] => let x := pick a b in
                        vit_col em o v p ys (mset v' y (fst x)) (mset p' y (p (snd x) ++ [y]))
      | _ => Panic
      end
    end.

  (** hmm/viterbi.go:83-100 *)
  Fixpoint vit_loop (em : emits) (states : list hst) (obs : list rune) (v : vmap) (p : pmap) : res (vmap * pmap) :=
    match obs with
    | [] => Ok (v, p)
    | o :: os => do r <- vit_col em o v p states v_empty p_empty ;
                 vit_loop em states os (fst r) (snd r)
    end.

  (** hmm/viterbi.go:68-110 Viterbi. States other than the four panic in the program (empty probs) and are not
      modelled; obs of length 0 panics at vtb[0]. *)
  Definition viterbi (em : emits) (obs : list rune) (states : list hst) : res (f64 E * list hst) :=
    match obs with
    | [] => Panic
    | o :: os =>
      let i := vit_init em o states v_empty p_empty in
      do r <- vit_loop em states os (fst i) (snd i) ;
      let x := pick (fst r HE, HE) (fst r HS, HS) in
      Ok (fst x, snd r (snd x))
    end.

  (** hmm/hmm_seg.go:54-66, the loop of internalCut. *)
  Fixpoint icut_loop (runes : list rune) (i : nat) (rest : list rune) (pos : list hst) (begin next : nat) (out : list bytes) :
    res (nat * list bytes) :=
    match rest with
    | [] => Ok (next, out)
    | ch :: rest' =>
      do p <- get pos i ;
      match p with
      | HB => icut_loop runes (S i) rest' pos i next out
      | HE => icut_loop runes (S i) rest' pos begin (S i) (out ++ [string_of_runes (slice runes begin (S i))])
      | HS => icut_loop runes (S i) rest' pos begin (S i) (out ++ [string_of_rune ch])
      | HM => icut_loop runes (S i) rest' pos begin next out
      end
    end.
  (** hmm/hmm_seg.go:47-73 internalCut *)
  Definition internal_cut (em : emits) (text : bytes) : res (list bytes) :=
    let runes := runes_of text in
    do vp <- viterbi em runes all_states ;
    do r <- icut_loop runes 0 runes (snd vp) 0 0 [] ;
    Ok (if fst r <? length runes then snd r ++ [string_of_runes (skipn (fst r) runes)] else snd r).

  (** A compiled regular expression, as its FindStringIndex. *)
  Definition matcher := bytes -> option (nat * nat).

  Fixpoint take_while {A} (p : A -> bool) (l : list A) : list A :=
    match l with [] => [] | a :: t => if p a then a :: take_while p t else [] end.

  (** hmm/hmm_seg.go:25 regHan `\p{Han}+`: the first maximal run of Han runes. *)
  Definition reg_han : matcher := fun s =>
    let us := units s in
    let pre := take_while (fun u => negb (is_han E (fst u))) us in
    let run := take_while (fun u => is_han E (fst u)) (skipn (length pre) us) in
    match run with
    | [] => None
    | _ => let a := length (concat (map snd pre)) in Some (a, a + length (concat (map snd run)))
    end.

  Definition is_alnum_b (b : byte) : bool := ascii_alnum (bz b).
  Definition is_digit_b (b : byte) : bool := ascii_digit (bz b).

  (** hmm/hmm_seg.go:26 regSkip `(\d+\.\d+|[a-zA-Z0-9]+)`: leftmost, the first alternative preferred. Bytes below 0x80 are
      always runes of their own. *)
  Definition skip_len (s : bytes) : nat :=
    let d := length (take_while is_digit_b s) in
    match skipn d s with
    | dot :: s' => if (0 <? d) && Byte.eqb dot x2e && (0 <? length (take_while is_digit_b s'))
                   then d + 1 + length (take_while is_digit_b s')
                   else length (take_while is_alnum_b s)
    | [] => length (take_while is_alnum_b s)
    end.
  Definition reg_skip : matcher := fun s =>
    let a := length (take_while (fun b => negb (is_alnum_b b)) s) in
    if a <? length s then Some (a, a + skip_len (skipn a s)) else None.

  (** hmm/hmm_seg.go:135-149 locJudge *)
  Definition loc_judge (cutLoc nonCutLoc : option (nat * nat)) : option (nat * nat) :=
    match cutLoc, nonCutLoc with
    | None, None => None
    | None, Some _ => nonCutLoc
    | Some _, None => cutLoc
    | Some c, Some n => if fst c <? fst n then cutLoc else nonCutLoc
    end.

  (** hmm/hmm_seg.go:85-130, the loop of Cut; [han] and [skip] are the expressions in use. *)
  Fixpoint hcut_loop (fuel : nat) (em : emits) (han skip : matcher) (text : bytes) (result : list bytes) : res (list bytes) :=
    match fuel with
    | O => Hang
    | S f =>
      let cutLoc := han text in
      let len0 := match text with [] => true | _ => false end in
      let after_cut :=
        let nonCutLoc := skip text in
        let judge (text : bytes) :=
          match loc_judge cutLoc nonCutLoc with
          | None => Ok (result ++ [text])
          | Some loc => hcut_loop f em han skip (skipn (fst loc) text) (result ++ [firstn (fst loc) text])
          end in
        match nonCutLoc with
        | None => if len0 then Ok result else judge text
        | Some (0, b) => let nonCuts := slice text 0 b in
                         let text' := skipn b text in
                         match nonCuts with
                         | [] => judge text'
                         | _ => hcut_loop f em han skip text' (result ++ [nonCuts])
                         end
        | Some (S _, _) => judge text
        end in
      match cutLoc with
      | None => if len0 then Ok result else after_cut
      | Some (0, b) => do ws <- internal_cut em (slice text 0 b) ;
                       hcut_loop f em han skip (skipn b text) (result ++ ws)
      | Some (S _, _) => after_cut
      end
    end.

  (** hmm/hmm_seg.go:76-133 Cut(text, reg...): reg[0] replaces regSkip, reg[1] replaces regHan. *)
  Definition pick_skip (reg : list matcher) : matcher := match reg with s :: _ => s | [] => reg_skip end.
  Definition pick_han (reg : list matcher) : matcher := match reg with _ :: h :: _ => h | _ => reg_han end.
  Definition hmm_cut (em : emits) (text : bytes) (reg : list matcher) : res (list bytes) :=
    hcut_loop (length text + 2) em (pick_han reg) (pick_skip reg) text [].

  (** hmm/hmm_seg.go:34-45 LoadModel: the table after the call; [def] is the table of loadDefEmit (hmm/prob_emit.go:7-). *)
  Definition load_model (def : emits) (prob : list (rune -> option (f64 E))) : emits :=
    match prob with
    | b :: e :: m :: s :: _ => fun y => match y with HB => b | HE => e | HM => m | HS => s end
    | _ => def
    end.
  (** hmm/prob_emit.go:5: the table before any LoadModel. *)
  Definition no_model : emits := fun _ _ => None.

  (** Calls that read or write the table, on any segmenter [id]: gse.go:129-131 LoadModel, 134-137 HMMCut, 140-143
      HMMCutMod; dict_util.go:42-55 Init with the NotLoadHMM option. *)
  Inductive hop : Type :=
  | HLoad (id : nat) (prob : list (rune -> option (f64 E)))
  | HInit (id : nat) (notLoad : bool)
  | HCut (id : nat) (s : bytes) (reg : list matcher)
  | HCutMod (id : nat) (s : bytes) (prob : list (rune -> option (f64 E))).
  Definition run_hop (def : emits) (g : emits) (o : hop) : emits * option (res (list bytes)) :=
    match o with
    | HLoad _ prob => (load_model def prob, None)
    | HInit _ notLoad => (if notLoad then g else load_model def [], None)
    | HCut _ s reg => (g, Some (hmm_cut g s reg))
    | HCutMod _ s prob => (load_model def prob, Some (hmm_cut (load_model def prob) s []))
    end.
  Fixpoint run_hops (def : emits) (g : emits) (os : list hop) : emits * list (res (list bytes)) :=
    match os with
    | [] => (g, [])
    | o :: os' => let r := run_hop def g o in
                  let r' := run_hops def (fst r) os' in
                  (fst r', match snd r with Some x => x :: snd r' | None => snd r' end)
    end.
End Hmm.
Arguments HLoad {E}. Arguments HInit {E}. Arguments HCut {E}. Arguments HCutMod {E}.
