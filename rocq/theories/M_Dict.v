(** The dictionary: dictionary.go, and the token-level methods of dict_util.go. *)
From Verif Require Export M_Split.
Set Implicit Arguments. Unset Strict Implicit.

(** ** cedar (external double-array trie, not in /repo), idealised
    A trie is a finite map from byte strings to integers; a node id is the path from the root, the root
    (id 0) is the empty path. Simplifications: keys contain no NUL byte (cedar uses label 0 for values),
    fewer than 2^31 tokens (so Insert never returns ErrInvalidValue). *)
Definition trie := list (bytes * nat).

Fixpoint t_get (t : trie) (k : bytes) : option nat :=
  match t with
  | [] => None
  | (k', v) :: t' => if beqb k' k then Some v else t_get t' k
  end.

(** A path exists if it is the root or a prefix of some key. *)
Definition t_path (t : trie) (p : bytes) : bool :=
  match p with [] => true | _ => existsb (fun kv => is_prefix p (fst kv)) t end.

(** Jump(path, from): None is ErrNoPath. (cedar returns id 0 for an empty path.) *)
Definition t_jump (t : trie) (w : bytes) (from : bytes) : option bytes :=
  match w with
  | [] => Some []
  | _ => if t_path t (from ++ w) then Some (from ++ w) else None
  end.

(** Value(id): None is ErrNoValue. *)
Definition t_value (t : trie) (id : bytes) : option nat := t_get t id.

(** Insert *)
Definition t_insert (t : trie) (k : bytes) (v : nat) : trie :=
  filter (fun kv => negb (beqb (fst kv) k)) t ++ [(k, v)].

(** Delete: None is ErrNoPath. If the path exists but is not a key, cedar reports success; whether the
    keys below it disappear is left open ([q_drop]). *)
Definition t_delete (drop : bool) (t : trie) (k : bytes) : option trie :=
  if t_path t k then
    match t_get t k with
    | Some _ => Some (filter (fun kv => negb (beqb (fst kv) k)) t)
    | None => Some (if drop then filter (fun kv => negb (is_prefix k (fst kv))) t else t)
    end
  else None.

Section Dict.
  Variable E : env.

  (** A [*Token] held by a Segment: an entry of Dict.Tokens, or the fallback token created at
      segmenter.go:150-151 for one word. *)
  Inductive tref : Type :=
  | InDict (i : nat)
  | Fallback (w : bytes).

  (** token.go:35-46 Segment; the exported field Position is never written by gse and omitted. *)
  Record segment : Type := { sg_start : nat; sg_end : nat; sg_tok : tref }.

  (** token.go:70-90 Token *)
  Record token : Type := {
    t_text : list bytes;
    t_freq : f64 E;
    t_pos : bytes;
    t_dist : f32 E;
    t_segs : list segment
  }.

  (** dictionary.go:21-27 Dictionary *)
  Record dict : Type := {
    d_trie : trie;
    d_max : nat;
    d_tokens : list token;
    d_total : f64 E
  }.

  (** dictionary.go:30-32 NewDict *)
  Definition new_dict : dict :=
    {| d_trie := []; d_max := 0; d_tokens := []; d_total := lit64 E 0 0 |}.

  (** seg_utils.go:182-189 textSliceToBytes (a bytes.Buffer written word by word) *)
  Definition text_bytes (text : list bytes) : bytes := concat text.

  (** dictionary.go:50-71 Dictionary.AddToken; never returns an error in the idealised trie.
      (`err == nil || val > 0`: on an error cedar returns value 0.) *)
  Definition add_token (d : dict) (t : token) : dict :=
    let key := text_bytes (t_text t) in
    match t_get (d_trie d) key with
    | Some _ => d
    | None =>
      {| d_trie := t_insert (d_trie d) key (length (d_tokens d));
         d_tokens := d_tokens d ++ [t];
         d_total := add64 E (d_total d) (t_freq t);
         d_max := if d_max d <? length (t_text t) then length (t_text t) else d_max d |}
    end.

  (** dictionary.go:74-78 Dictionary.RemoveToken; [None] is the error. *)
  Definition remove_token (d : dict) (text : list bytes) : option dict :=
    match t_delete (q_drop E) (d_trie d) (text_bytes text) with
    | None => None
    | Some t => Some {| d_trie := t; d_max := d_max d; d_tokens := d_tokens d; d_total := d_total d |}
    end.

  (** dictionary.go:82-104 Dictionary.LookupTokens: indices of the tokens written to the buffer of
      length [cap]. *)
  Fixpoint lookup (d : dict) (cap : nat) (words : list bytes) (id : bytes) (acc : list nat) : res (list nat) :=
    match words with
    | [] => Ok acc
    | w :: ws =>
      match t_jump (d_trie d) w id with
      | None => Ok acc
      | Some id' =>
        match t_value (d_trie d) id' with
        | None => lookup d cap ws id' acc
        | Some v =>
          if (length acc <? cap) && (v <? length (d_tokens d))
          then lookup d cap ws id' (acc ++ [v])
          else Panic
        end
      end
    end.
  Definition lookup_tokens (d : dict) (cap : nat) (words : list bytes) : res (list nat) :=
    lookup d cap words [] [].

  (** dictionary.go:107-132 Dictionary.Find *)
  Definition dict_find (d : dict) (word : bytes) : res (f64 E * bytes * bool) :=
    match t_jump (d_trie d) word [] with
    | None => Ok (lit64 E 0 0, [], false)
    | Some id =>
      match t_value (d_trie d) id with
      | None => match id with
                | [] => Ok (lit64 E 0 0, [], false)
                | _ => Ok (lit64 E 0 0, [], true)
                end
      | Some v => do t <- get (d_tokens d) v ; Ok (t_freq t, t_pos t, true)
      end
    end.

  (** dictionary.go:135-143 Dictionary.Value: index of the word in Tokens, or an error ([None]). *)
  Definition dict_value (d : dict) (word : bytes) : option nat :=
    match t_jump (d_trie d) word [] with
    | None => None
    | Some id => t_value (d_trie d) id
    end.

  (** dict_util.go:63-72 Segmenter.ToToken (pos defaults to the empty string) *)
  Definition to_token (c : cfg) (text : bytes) (freq : f64 E) (pos : bytes) : res token :=
    do ws <- split_words E c text ;
    Ok {| t_text := ws; t_freq := freq; t_pos := pos; t_dist := lit32 E 0 0; t_segs := [] |}.

  (** dict_util.go:75-78 Segmenter.AddToken; a nil Dict is handled by the callers in M_Load. *)
  Definition seg_add_token (c : cfg) (d : dict) (text : bytes) (freq : f64 E) (pos : bytes) : res dict :=
    do t <- to_token c text freq pos ; Ok (add_token d t).

  (** dict_util.go:99-104 Segmenter.RemoveToken: new dictionary and error flag. *)
  Definition seg_remove_token (c : cfg) (d : dict) (text : bytes) : res (dict * bool) :=
    do ws <- split_words E c text ;
    match remove_token d ws with
    | None => Ok (d, true)
    | Some d' => Ok (d', false)
    end.

  (** dict_util.go:89-96 Segmenter.ReAddToken *)
  Definition seg_readd_token (c : cfg) (d : dict) (text : bytes) (freq : f64 E) (pos : bytes) : res (dict * bool) :=
    do t <- to_token c text freq pos ;
    match remove_token d (t_text t) with
    | None => Ok (d, true)
    | Some d' => Ok (add_token d' t, false)
    end.
End Dict.
Arguments Fallback _ : clear implicits.
