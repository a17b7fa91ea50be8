(** Model of the token containers: /repo/tivars/trie.py ([TITokens]) and
    /repo/tivars/token.py.  The classes of the submodule tivars/tokens are not
    in the repository; a [Tokens] object is taken as its two dictionaries. *)
From Verif Require Import PyBase M_Tok.

Section Sheet.
  Variable OS : Type.
  Notation trie := (trie OS).
  (** A token of the sheet: its bytes, its first OS, and per language the form
      displayed and the names.  token.py:17-20 keeps these. *)
  Record stoken := STok { st_bits : bytes; st_since : OS; st_langs : list (str * (str * list str)) }.
  (** Lookup in a dictionary with keys of any kind; KeyError if absent
      (trie.py:110, 113). *)
  Definition look {K A} (eqb : K -> K -> bool) (k : K) (d : list (K * A)) : option A :=
    option_map snd (find (fun p => eqb (fst p) k) d).
  Definition or_key {A} (o : option A) : result A := match o with Some x => Ok x | None => Err KeyError end.
  (** [TIToken.__init__]: KeyError without English.  token.py:17-20. *)
  Definition ti_token (k : stoken) : result stoken :=
    match look leqb (s2l "en") (st_langs k) with Some _ => Ok k | None => Err KeyError end.
  (** The token with its names in one language (English for an empty one), shown
      in English.  trie.py:27-30; token.py:39-44, 54-59. *)
  Definition token_in (lang : str) (k : stoken) : result (token OS) :=
    try en := or_key (look leqb (s2l "en") (st_langs k)) in
    match lang with
    | [] => Ok (Tok (st_bits k) (st_since k) (snd en) (fst en))
    | _ :: _ =>
        match look leqb lang (st_langs k) with
        | Some t => Ok (Tok (st_bits k) (st_since k) (snd t) (fst en))
        | None => Err ValueError
        end
    end.
  (** [TITokens]: the byte map, the names of all languages in order (for equal
      names the last counts), and the tries.  trie.py:94-103. *)
  Record container := Container {
    c_bytes : list (bytes * stoken);
    c_langs : list (str * list (str * stoken));
    c_names : list (str * stoken);
    c_tries : list (str * trie)
  }.
  (** [TITokens.__init__].  trie.py:94-106; [TITokenTrie.from_tokens],
      trie.py:40-56. *)
  Definition build (b : list (bytes * stoken)) (langs : list (str * list (str * bytes))) : result container :=
    try bm := rmapM (fun p => try k := ti_token (snd p) in Ok (fst p, k)) b in
    try lm := rmapM (fun l => try ns := rmapM (fun p => try k := or_key (look leqb (snd p) bm) in Ok (fst p, k)) (snd l)
                             in Ok (fst l, ns)) langs in
    let names := concat (map snd lm) in
    try tries := rmapM (fun l => try ks := rmapM (fun p => token_in (fst l) (snd p)) bm in Ok (fst l, from_tokens ks)) lm in
    match look leqb (s2l "en") lm with Some _ => Ok (Container bm lm names tries) | None => Err KeyError end.
  (** [TITokens.__getitem__] for bytes and for names: the last of equal names.
      trie.py:108-113. *)
  Definition of_bytes (c : container) (d : bytes) : result stoken := or_key (look leqb d (c_bytes c)).
  Definition of_name (c : container) (n : str) : result stoken := or_key (look leqb n (rev (c_names c))).
End Sheet.

Arguments STok {OS}. Arguments st_bits {OS}. Arguments st_since {OS}. Arguments st_langs {OS}. Arguments ti_token {OS}.
Arguments token_in {OS}. Arguments Container {OS}. Arguments c_bytes {OS}. Arguments c_langs {OS}. Arguments c_names {OS}.
Arguments c_tries {OS}. Arguments build {OS}. Arguments of_bytes {OS}. Arguments of_name {OS}.
