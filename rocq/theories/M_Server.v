(** The demonstration server of tools/server/server.go: its two handlers and the JSON they write.

    Simplifications: a request is given by its decoded parameters in order; an HTTP body that cannot be parsed has none. One request after the other
    (the handlers run concurrently in net/http; see M_Conc for the calls they make). Status line, headers and the static file handler are left out. *)
From Verif Require Export M_Dag.
Set Implicit Arguments. Unset Strict Implicit.
Local Open Scope lit_scope.

(** encoding/json (Go standard library), strings. [bf]: the library writes \b and \f for these two characters (since Go 1.22) instead of \u0008 and \u000c. *)
Definition hex_digit (z : Z) : byte := nth (Z.to_nat z) (str "0123456789abcdef") x30.
Definition json_unit (bf : bool) (u : rune * bytes) : bytes :=
  let r := fst u in
  (if r =? 34 then [x5c; x22]
   else if r =? 92 then [x5c; x5c]
   else if (r =? 8) && bf then [x5c; x62]
   else if (r =? 12) && bf then [x5c; x66]
   else if r =? 10 then [x5c; x6e]
   else if r =? 13 then [x5c; x72]
   else if r =? 9 then [x5c; x74]
   else if (r <? 32) || (r =? 60) || (r =? 62) || (r =? 38) then [x5c; x75; x30; x30; hex_digit (r / 16); hex_digit (r mod 16)]
   else if (r =? RuneError) && (Nat.eqb (length (snd u)) 1) then [x5c; x75; x66; x66; x66; x64]
   else if (r =? 8232) || (r =? 8233) then [x5c; x75; x32; x30; x32] ++ [hex_digit (r mod 16)]
   else snd u)%Z.
Definition json_string (bf : bool) (s : bytes) : bytes := [x22] ++ concat (map (json_unit bf) (units s)) ++ [x22].
(** encoding/json, arrays: elements separated by commas. *)
Fixpoint json_commas (l : list bytes) : bytes :=
  match l with
  | [] => []
  | [a] => a
  | a :: l' => a ++ [x2c] ++ json_commas l'
  end.
Definition json_array (l : list bytes) : bytes := [x5b] ++ json_commas l ++ [x5d].

(** url.Values.Get: the first value of the key, or the empty string. *)
Definition form_get (l : list (bytes * bytes)) (k : bytes) : bytes := match find (fun p => beqb (fst p) k) l with Some p => snd p | None => [] end.

Section Server.
  Variable E : env.
  Variable bf : bool.

  (** tools/server/server.go:61-64 Segment *)
  Definition json_segment (p : bytes * bytes) : bytes := str "{""text"":" ++ json_string bf (fst p) ++ str ",""pos"":" ++ json_string bf (snd p) ++ str "}".
  (** tools/server/server.go:55-58, 104 JsonResponse: Err is the nil interface *)
  Definition json_response (l : list (bytes * bytes)) : bytes := str "{""segments"":" ++ json_array (map json_segment l) ++ str ",""err"":null}".
  (** tools/server/server.go:67-69, 87 JsonResp: no tag, so the key is the field name; Cut returns a slice that is not nil *)
  Definition json_resp (l : list bytes) : bytes := str "{""Seg"":" ++ json_array (map (json_string bf) l) ++ str "}".
  (** tools/server/server.go:72-75, 116 Resp *)
  Definition json_ok : bytes := str "{""code"":200,""text"":" ++ json_string bf (str "ok") ++ str "}".

  (** tools/server/server.go:78-108 JsonRpcServer; [hmm] is the flag of line 49. *)
  Definition serve_json (c : cfg) (em : emits E) (hmm : bool) (d : dict E) (query post : list (bytes * bytes)) : res bytes :=
    let text := match form_get query (str "text") with [] => form_get post (str "text") | t => t end in
    if hmm then do segs <- cut d c em text (Some true) ; Ok (json_resp segs)
    else do segs <- internal_segment c (Some d) text false ;
         do ss <- seg_loop (fun t => Ok [(join (t_text t), t_pos t)]) d segs [] ;
         Ok (json_response ss).

  (** tools/server/server.go:110-119 addToken: the errors of ParseFloat and AddTokenForce are dropped *)
  Definition serve_add (c : cfg) (d : dict E) (query : list (bytes * bytes)) : res (dict E * bytes) :=
    let text := form_get query (str "text") in
    let freq := fst (parse_float E (form_get query (str "freq"))) in
    let pos := form_get query (str "pos") in
    do d' <- seg_add_force c d text freq pos ; Ok (d', json_ok).

  Inductive request : Type :=
  | ReqJson (query post : list (bytes * bytes))
  | ReqAdd (query : list (bytes * bytes)).
  (** tools/server/server.go:130-131: the two routes *)
  Definition serve (c : cfg) (em : emits E) (hmm : bool) (d : dict E) (r : request) : res (dict E * bytes) :=
    match r with
    | ReqJson query post => do b <- serve_json c em hmm d query post ; Ok (d, b)
    | ReqAdd query => serve_add c d query
    end.
  (** Requests in turn. *)
  Fixpoint serve_all (c : cfg) (em : emits E) (hmm : bool) (d : dict E) (rs : list request) : res (dict E * list bytes) :=
    match rs with
    | [] => Ok (d, [])
    | r :: rs' => do x <- serve c em hmm d r ; do y <- serve_all c em hmm (fst x) rs' ; Ok (fst y, snd x :: snd y)
    end.
End Server.
