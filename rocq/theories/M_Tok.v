(** Model of /repo/tivars/token.py, trie.py, tokenizer/decoder.py,
    tokenizer/encoder.py, tokenizer/state.py, tokenizer/__init__.py and the
    token-specific parts of types/tokenized.py.

    The token sheets live in the submodule /repo/tivars/tokens, which is not in
    this checkout: the sheet (a dictionary from bytes to tokens), the type of OS
    versions, its comparisons and the version every [IllegalToken] gets are
    parameters of the section, so that every statement ranges over all sheets
    and orderings. *)
From Verif Require Import PyBase M_Data M_Flags M_Models M_Class M_Var.

(** Python's comparison of [bytes] objects: lexicographic. *)
Fixpoint lex_le (a b : bytes) : bool :=
  match a, b with
  | [], _ => true
  | _ :: _, [] => false
  | x :: a', y :: b' => if x <? y then true else if y <? x then false else lex_le a' b'
  end.

(** Dictionaries with integer keys: read and write. *)
Fixpoint dict_get {A} (k : Z) (d : list (Z * A)) : option A :=
  match d with [] => None | (k', a) :: r => if k =? k' then Some a else dict_get k r end.
Fixpoint dict_set {A} (k : Z) (v : A) (d : list (Z * A)) : list (Z * A) :=
  match d with
  | [] => [(k, v)]
  | (k', a) :: r => if k =? k' then (k', v) :: r else (k', a) :: dict_set k v r
  end.

Section Tokens.
  (** [OsVersion] with its [>] and [>=], [OsVersions.INITIAL], and the [since]
      of [Token(bits, langs, attrs)].  All from the missing submodule. *)
  Variable OS : Type.
  Variable os_gt os_ge : OS -> OS -> bool.
  Variable INITIAL illegal_since : OS.

  (** [TIToken], with the names and the display form of one language (English
      unless stated).  token.py:9-60. *)
  Record token := Tok { t_bits : bytes; t_since : OS; t_names : list str; t_display : str }.

  (** [escape]: [\x] or [\u] and the hexadecimal digits.  token.py:44-50. *)
  Definition hex_digit (d : Z) : Z := if d <? 10 then 48 + d else 87 + d.
  Definition hex_str (b : bytes) : str := flat_map (fun x => [hex_digit (x / 16); hex_digit (x mod 16)]) b.
  Definition escape (b : bytes) : str := [92; if Nat.eqb (length b) 1 then 120 else 117] ++ hex_str b.
  (** [IllegalToken].  token.py:60-69. *)
  Definition illegal (b : bytes) : token := Tok b illegal_since [escape b] (escape b).

  (** [max(a, b)]: [b] only if it is greater. *)
  Definition py_max (a b : OS) : OS := if os_gt b a then b else a.

  (** ** The decoder *)
  Section Decode.
    (** [tokens.bytes]. *)
    Variable sheet : bytes -> option token.

    (** The body of the [while] loop of [decode], from state ([index],
        [curr_bytes], [out], [since]); [out] is kept in reverse.  [None]: the
        fuel ran out (proved impossible).  decoder.py:35-66.  In the null-byte
        branch [curr_bytes] is a run of nulls followed by the nonzero byte just
        read, so the inner loop (lines 54-57) emits its first [len - 1] bytes. *)
    Fixpoint decode_loop (fuel : nat) (stream : bytes) (index : nat) (curr : bytes)
        (acc : list token) (since : OS) : option (out (list token * OS)) :=
      match fuel with
      | O => None
      | S fuel =>
          match nth_error stream index with
          | None => Some (oret (rev acc, since))
          | Some b =>
              let curr := curr ++ [b] in
              if negb (hd 0 curr =? 0) then
                match sheet curr with
                | Some t => decode_loop fuel stream (S index) [] (t :: acc) (py_max (t_since t) since)
                | None =>
                    if (2 <=? zlen curr) then
                      match decode_loop fuel stream (S index) [] (illegal curr :: acc) since with
                      | Some r => Some (do _ := owarn WDecode in r)
                      | None => None
                      end
                    else decode_loop fuel stream (S index) curr acc since
                end
              else if negb (last curr 0 =? 0) then
                let nulls := map (fun _ => illegal [0]) (removelast curr) in
                match decode_loop fuel stream index [] (nulls ++ acc) since with
                | Some r => Some (do _ := owarn WDecode in r)
                | None => None
                end
              else decode_loop fuel stream (S index) curr acc since
          end
      end.
    (** [decode].  decoder.py:13-68. *)
    Definition decode (stream : bytes) : out (list token * OS) :=
      match decode_loop (2 * length stream + 1) stream 0 [] [] INITIAL with
      | Some r => r
      | None => oerr StopIteration
      end.
  End Decode.

  (** ** The trie *)
  Inductive trie := Node (tok : option token) (children : list (Z * trie)).
  Definition tr_tok (t : trie) : option token := match t with Node k _ => k end.
  Definition tr_children (t : trie) : list (Z * trie) := match t with Node _ c => c end.
  (** [TITokenTrie()].  trie.py:15-17. *)
  Definition empty_trie : trie := Node None [].
  (** One round of the loop of [insert]: one name.  trie.py:30-38. *)
  Fixpoint insert_name (t : trie) (name : str) (k : token) : trie :=
    match name with
    | [] => Node (Some k) (tr_children t)
    | c :: r =>
        let child := match dict_get c (tr_children t) with Some x => x | None => empty_trie end in
        Node (tr_tok t) (dict_set c (insert_name child r k) (tr_children t))
    end.
  (** [insert] (the language is a parameter of the record).  trie.py:19-38. *)
  Definition insert (t : trie) (k : token) : trie :=
    fold_left (fun t name => insert_name t name k) (t_names k) t.
  (** [from_tokens].  trie.py:40-56. *)
  Definition from_tokens (ks : list token) : trie := fold_left insert ks empty_trie.
  (** [match].  trie.py:58-76.  Tokens are truthy objects. *)
  Fixpoint trie_match (t : trie) (s : str) : list (token * str) :=
    match s with
    | [] => []
    | c :: r => match dict_get c (tr_children t) with Some x => trie_match x r | None => [] end
    end ++ match tr_tok t with Some k => [(k, s)] | None => [] end.

  (** ** Encoder states.  state.py:12-213. *)
  Inductive kind := MaxMode | MinMode | SmartMode | KListName | KProgramName | KStringState
                  | InterpolatedString | InterpolationStart.
  (** A state: its class and [length]. *)
  Definition state := (kind * Z)%type.
  (** [mode]: maximal (true) or minimal.  state.py:19, 88, 96, 118, 150, 166,
      177, 192. *)
  Definition munches_max (k : kind) : bool :=
    match k with MaxMode | SmartMode | InterpolatedString | InterpolationStart => true | _ => false end.
  (** [max_length].  state.py:24, 134, 142. *)
  Definition max_length (k : kind) : option Z :=
    match k with KListName => Some 5 | KProgramName => Some 8 | _ => None end.
  (** [Line.next].  state.py:104-110. *)
  Definition line_next (s : state) (b : bytes) : list state :=
    if leqb b [4] || leqb b [63] then [] else [(fst s, snd s + 1)].
  (** [next], by class.  state.py:65-80, 104-110, 120-126, 152-158, 179-184,
      194-213. *)
  Definition next (s : state) (b : bytes) : list state :=
    match fst s with
    | MaxMode | MinMode => [(fst s, snd s + 1)]
    | SmartMode =>
        if leqb b [42] then [s; (KStringState, 0)]
        else if leqb b [95] then [s; (KProgramName, 0)]
        else if leqb b [231] then [s; (InterpolationStart, 0)]
        else if leqb b [235] then [s; (KListName, 0)]
        else [(fst s, snd s + 1)]
    | KListName | KProgramName =>
        if (lex_le [48] b && lex_le b [57]) || (lex_le [65] b && lex_le b [91]) then line_next s b else []
    | KStringState | InterpolatedString => if leqb b [42] then [] else line_next s b
    | InterpolationStart => if leqb b [42] then [(InterpolatedString, 0)] else []
    end.

  (** [string.punctuation]. *)
  Definition is_punct (c : Z) : bool :=
    ((33 <=? c) && (c <=? 47)) || ((58 <=? c) && (c <=? 64)) || ((91 <=? c) && (c <=? 96)) || ((123 <=? c) && (c <=? 126)).
  (** [bytes.fromhex] on a string: ASCII whitespace between bytes is skipped. *)
  Definition is_ws (c : Z) : bool := ((9 <=? c) && (c <=? 13)) || (c =? 32).
  Definition hex_val (c : Z) : option Z :=
    if (48 <=? c) && (c <=? 57) then Some (c - 48)
    else if (65 <=? c) && (c <=? 70) then Some (c - 55)
    else if (97 <=? c) && (c <=? 102) then Some (c - 87) else None.
  Fixpoint fromhex (l : str) : result bytes :=
    match l with
    | [] => Ok []
    | a :: r =>
        if is_ws a then fromhex r
        else match r with
             | [] => Err ValueError
             | b :: r' =>
                 match hex_val a, hex_val b with
                 | Some x, Some y => try z := fromhex r' in Ok (x * 16 + y :: z)
                 | _, _ => Err ValueError
                 end
             end
    end.
  (** [s.lstrip(r"\ux")]. *)
  Fixpoint lstrip_ux (l : str) : str :=
    match l with
    | [] => []
    | c :: r => if (c =? 92) || (c =? 117) || (c =? 120) then lstrip_ux r else l
    end.
  (** The byte-literal test: [\x] takes four characters, [\u] six.
      state.py:42-43. *)
  Definition literal_len (s : str) : option nat :=
    if starts_with [92; 120] s then Some 4%nat
    else if starts_with [92; 117] s then Some 6%nat else None.
  (** [EncoderState.munch] on a nonempty string.  state.py:32-63. *)
  Definition munch (st : state) (t : trie) (s : str) : result (token * str * list state) :=
    match literal_len s with
    | Some n =>
        try b := fromhex (lstrip_ux (firstn n s)) in
        let k := illegal b in Ok (k, skipn n s, next st (t_bits k))
    | None =>
        let found := trie_match t s in
        match found with
        | [] => Err ValueError
        | _ :: _ =>
            let found := if is_punct (hd 0 s) && (1 <? zlen found) then removelast found else found in
            match (if munches_max (fst st) then hd_error found else nth_error (rev found) 0) with
            | None => Err IndexError
            | Some (k, r) =>
                if match max_length (fst st) with Some n => snd st =? n | None => false end
                then Ok (k, r, [])
                else Ok (k, r, next st (t_bits k))
            end
        end
    end.

  (** How the loop of [encode] ends: with tokens and OS version, or at the rest
      of the text where no token was found, or where the stack was empty (both
      raise ValueError, with different messages). *)
  Inductive enc_result := EOk (ks : list token) (since : OS) | ECannot (rest : str) | EStack (rest : str).
  (** The loop of [encode]: the stack has its top first here.  [None]: the fuel
      ran out.  The tokens are collected instead of their bytes.
      encoder.py:62-81. *)
  Fixpoint encode_loop (fuel : nat) (t : trie) (stack : list state) (s : str)
      (acc : list token) (since : OS) : option enc_result :=
    match s with
    | [] => Some (EOk (rev acc) since)
    | _ :: _ =>
        match fuel with
        | O => None
        | S fuel =>
            match stack with
            | [] => Some (EStack s)
            | st :: stack =>
                match munch st t s with
                | Err IndexError => Some (EStack s)
                | Err _ => Some (ECannot s)
                | Ok (k, r, ctx) =>
                    encode_loop fuel t (rev ctx ++ stack) r (k :: acc) (py_max (t_since k) since)
                end
            end
        end
    end.
  (** The [mode] argument.  encoder.py:48-60. *)
  Definition start_state (mode : str) : option state :=
    if leqb mode (s2l "max") then Some (MaxMode, 0)
    else if leqb mode (s2l "smart") then Some (SmartMode, 0)
    else if leqb mode (s2l "string") || leqb mode (s2l "min") then Some (MinMode, 0) else None.
  (** [normalize]; NFC normalisation is a parameter.  encoder.py:86-94. *)
  Variable nfc : str -> str.
  Definition normalize (s : str) : str :=
    map (fun c => if (c =? 920) || (c =? 1012) || (c =? 7615) then 952 else c) (nfc s).
  (** [encode] with normalisation: the tokens chosen and the OS version; the
      data are the tokens' bytes.  [StopIteration] stands for an endless loop
      (excluded for tries without an empty name).  encoder.py:14-83. *)
  Definition encode_tokens (t : trie) (mode : str) (s : str) : result (list token * OS) :=
    let s := normalize s in
    match start_state mode with
    | None => Err ValueError
    | Some st =>
        match encode_loop (length s) t [st] s [] INITIAL with
        | Some (EOk ks since) => Ok (ks, since)
        | Some (ECannot _) | Some (EStack _) => Err ValueError
        | None => Err StopIteration
        end
    end.
  Definition encode (t : trie) (mode : str) (s : str) : result (bytes * OS) :=
    try r := encode_tokens t mode s in Ok (concat (map t_bits (fst r)), snd r).

  (** ** Tokenized entries *)
  Section Tokenized.
    (** The TI-84+CE sheet, its English trie, and [model.OS(version)]. *)
    Variable sheet : bytes -> option token.
    Variable the_trie : trie.
    Variable os_of : model -> str -> OS.

    (** [TokenizedString.get], also [Name.get].  tokenizer/__init__.py:25-27. *)
    Definition name_get (d : bytes) : out str :=
      do r := decode sheet (ljust 8 d) in oret (concat (map t_display (fst r))).
    (** [Name.set].  tokenizer/__init__.py:43-54. *)
    Definition Name_set (c : cls) (s : str) : out bytes :=
      let mode := match leading_name_byte c with [] => s2l "string" | _ => s2l "max" end in
      do r := olift (encode the_trie mode s) in
      let d := rstrip0 (fst r) in
      do _ := owarn_if (negb (starts_with (leading_name_byte c) d)) WName in
      oret d.

    (** [TokenizedEntry.decode] with the defaults: the display forms joined.
        tokenized.py:67-86. *)
    Definition decode_str (d : bytes) : out str :=
      do r := decode sheet d in oret (concat (map t_display (fst r))).
    (** [TokenizedEntry.get_min_os]; [TIAsmProgram.get_min_os]: the first
        maximal element.  tokenized.py:109-110, 453-455. *)
    Definition or_data (e : entry) (arg : option bytes) : bytes :=
      match arg with Some ((_ :: _) as d) => d | _ => data e end.
    Definition asm_tokens_os : list (bytes * OS) :=
      [([187; 109], os_of TI_83P []); ([239; 105], os_of TI_84PCSE []); ([239; 123], os_of TI_84PCE [])].
    Definition get_min_os (e : entry) (arg : option bytes) : out OS :=
      let d := or_data e arg in
      if is_tokenized (e_cls e) then do r := decode sheet d in oret (snd r)
      else
        match map snd (filter (fun p => infix (fst p) d) asm_tokens_os) with
        | [] => oret INITIAL
        | x :: r => oret (fold_left (fun m y => if os_gt y m then y else m) r x)
        end.
    (** The [match] of [get_version].  tokenized.py:113-144. *)
    Definition thresholds : list (OS * Z) :=
      [(os_of TI_84PCE (s2l "5.3"), 12); (os_of TI_84PCE (s2l "5.2"), 11); (os_of TI_84PCSE (s2l "4.0"), 10);
       (os_of TI_84P (s2l "2.55"), 7); (os_of TI_84P (s2l "2.53"), 6); (os_of TI_84P (s2l "2.30"), 5);
       (os_of TI_84P (s2l "2.21"), 4); (os_of TI_83P (s2l "1.16"), 3); (os_of TI_83P (s2l "1.15"), 2);
       (os_of TI_83P (s2l "1.00"), 1)].
    Definition os_version (os : OS) : Z :=
      match find (fun p => os_ge os (fst p)) thresholds with Some (_, v) => v | None => 0 end.
    (** [clock_tokens].  tokenized.py:34-38. *)
    Definition clock_tokens : list bytes :=
      map (fun x => [239; x]) [0; 1; 2; 3; 4; 7; 8; 9; 10; 11; 12; 13; 14; 15; 16].
    (** [TokenizedEntry.get_version].  tokenized.py:112-150. *)
    Definition tok_version (e : entry) (arg : option bytes) : out Z :=
      do os := get_min_os e arg in
      let v := os_version os in
      oret (if existsb (fun t => infix t (or_data e arg)) clock_tokens then v + 32 else v).

    (** [load_tokens], [tokens].  tokenized.py:180-195. *)
    Definition load_tokens (e : entry) (ks : list token) : out entry :=
      set_data tok_version e (concat (map t_bits ks)).
    Definition tokens (e : entry) : out (list token) :=
      do r := decode sheet (data e) in oret (fst r).
    (** [load_string] with the default mode; [TIString] strips the quotes,
        [TIProgram] warns for assembly programs.  tokenized.py:165-178, 326-327,
        396-402. *)
    Fixpoint lstrip_c (c : Z) (l : str) : str :=
      match l with [] => [] | x :: r => if x =? c then lstrip_c c r else l end.
    Definition strip_c (c : Z) (l : str) : str := rev (lstrip_c c (rev (lstrip_c c l))).
    Definition load_string (e : entry) (s : str) : out entry :=
      do _ := owarn_if (issubclass (e_cls e) KProgram && negb (is_tokenized (e_cls e))) WAsm in
      let s := if issubclass (e_cls e) KString then strip_c 34 s else s in
      do r := olift (encode the_trie (s2l "smart") s) in
      set_data tok_version e (fst r).

    (** The scan of [TIProgram.coerce]: [string().endswith(...)], [None] when
        decoding warns.  tokenized.py:416-426. *)
    Definition ends_with (suffix s : str) : bool := starts_with (rev suffix) (rev s).
    Definition prog_scan_of (d : bytes) : option bool :=
      match decode_str d with
      | ([], Ok s) => Some (ends_with (s2l "End" ++ [10] ++ s2l "0000" ++ [10] ++ s2l "End") s)
      | _ => None
      end.

    (** [protect], [unprotect].  tokenized.py:366-380. *)
    Definition protect (e : entry) : out entry :=
      do e := set_type_id e 6 in coerce prog_scan_of e.
    Definition unprotect (e : entry) : out entry :=
      do e := set_type_id e 5 in coerce prog_scan_of e.
  End Tokenized.

  (** [lines]: the loop over the tokens; [cur] is the last line in reverse and
      [acc] the lines before it in reverse.  tokenized.py:197-233. *)
  Fixpoint lines_loop (ks : list token) (in_string : bool) (cur : list token) (acc : list (list token))
    : list (list token) :=
    match ks with
    | [] => rev (rev cur :: acc)
    | k :: r =>
        if leqb (t_bits k) [4] then lines_loop r false cur acc
        else if leqb (t_bits k) [42] then lines_loop r (negb in_string) cur acc
        else if leqb (t_bits k) [62] && negb in_string then lines_loop r in_string [] (rev cur :: acc)
        else if leqb (t_bits k) [63] then lines_loop r false [] (rev cur :: acc)
        else lines_loop r in_string (k :: cur) acc
    end.
  Definition lines_of (ks : list token) : list (list token) := lines_loop ks false [] [].
End Tokens.

Arguments Tok {OS}. Arguments t_bits {OS}. Arguments t_since {OS}. Arguments t_names {OS}. Arguments t_display {OS}.
Arguments Node {OS}. Arguments tr_tok {OS}. Arguments tr_children {OS}. Arguments empty_trie {OS}.
Arguments insert_name {OS}. Arguments insert {OS}. Arguments from_tokens {OS}. Arguments trie_match {OS}.
Arguments lines_loop {OS}. Arguments lines_of {OS}.
Arguments EOk {OS}. Arguments ECannot {OS}. Arguments EStack {OS}.
