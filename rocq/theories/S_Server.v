(** What a client of the server sends and may expect. *)
From Verif Require Export S_Json S_Chars.
Set Implicit Arguments. Unset Strict Implicit.

(** Keys of JSON objects. *)
Definition key (l : lit) : list Z := map bz (str l).

(** [v] is the value of the parameter [k]: the first one given, empty if there is none. *)
Definition value_of (k : bytes) (params : list (bytes * bytes)) (v : bytes) : Prop :=
  (exists before after, params = before ++ (k, v) :: after /\ forall w, ~ In (k, w) before) \/ ((forall w, ~ In (k, w) params) /\ v = []).
(** The text of a request: from the query, or if that is empty from the body. *)
Definition text_of_request (query post : list (bytes * bytes)) (text : bytes) : Prop :=
  (text <> [] /\ value_of (str "text") query text) \/ (value_of (str "text") query [] /\ value_of (str "text") post text).

(** Small letters for the 26 capitals. *)
Definition low (r : Z) : Z := match find (fun p => bz (fst p) =? r)%Z (combine capitals smalls) with Some p => bz (snd p) | None => r end.
Definition low_if (b : bool) (r : Z) : Z := if b then low r else r.
(** [q] is the small letter of [r] by the Unicode table; what is no character becomes U+FFFD. *)
Definition lowers (E : env) (r q : Z) : Prop :=
  ((r < 128)%Z /\ q = low r) \/ (r = 65533%Z /\ q = r) \/
  ((128 <= r)%Z /\ r <> 65533%Z /\ ((q = u_lower E r /\ exists p, utf8 q p) \/ (q = 65533%Z /\ forall p, ~ utf8 (u_lower E r) p))).
