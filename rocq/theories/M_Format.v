(** Formatting of entries: hexadecimal dumps, and how tokenized entries and real
    numbers treat the same format strings.  tivars/var.py,
    tivars/types/tokenized.py, tivars/types/real.py. *)
From Verif Require Import PyBase M_Data M_Numeric M_Class M_Var M_Real M_Text M_CText M_TText.

Section Format.
  (** The decimal digits and the word characters outside ASCII. *)
  Variable uni_digit : Z -> option Z.
  Variable uni_word : Z -> bool.

  (** A character of [\d], with its value. *)
  Definition digit_of (c : Z) : option Z :=
    if (48 <=? c) && (c <=? 57) then Some (c - 48) else if c <? 128 then None else uni_digit c.
  Fixpoint take_digits (s : str) : list Z * str :=
    match s with
    | c :: r => match digit_of c with
                | Some d => let '(ds, t) := take_digits r in (d :: ds, t)
                | None => ([], s)
                end
    | [] => ([], [])
    end.
  (** [(?P<case>[xX])(?P<sep>\D)?], up to the end of the string.  var.py:437. *)
  Definition case_sep (s : str) : option (bool * option Z) :=
    match s with
    | c :: r =>
        if (c =? 120) || (c =? 88) then
          match r with
          | [] => Some (c =? 120, None)
          | [d] => match digit_of d with Some _ => None | None => Some (c =? 120, Some d) end
          | _ => None
          end
        else None
    | [] => None
    end.
  (** The format string of a dump: sign and digits of the width, lower case,
      separator.  The width takes all digits, since none of them can be the letter
      after it; a sign alone is no width.  var.py:437. *)
  Definition hex_spec (s : str) : option (option (bool * list Z) * bool * option Z) :=
    let '(neg, r) := match s with c :: r => if c =? 45 then (true, r) else if c =? 43 then (false, r) else (false, s) | [] => (false, s) end in
    match take_digits r with
    | ([], _) => match case_sep s with Some (l, p) => Some (None, l, p) | None => None end
    | (ds, t) => match case_sep t with Some (l, p) => Some (Some (neg, ds), l, p) | None => None end
    end.
  (** [int(width)]: more than 4300 digits are refused (CPython's default limit). *)
  Definition width_value (neg : bool) (ds : list Z) : result Z :=
    if 4300 <? zlen ds then Err ValueError
    else let n := fold_left (fun a d => 10 * a + d) ds 0 in Ok (if neg then - n else n).

  (** [bytes.hex(sep, n)]: [n] must fit a C int and [sep] must be ASCII; groups of
      [n] bytes counted from the right, of [-n] from the left; a group as long as
      the data leaves no separator.  The lower-case digits. *)
  Definition hex_char (d : Z) : Z := if d <? 10 then 48 + d else 87 + d.
  Definition hex_byte (b : Z) : str := [hex_char (b / 16); hex_char (b mod 16)].
  Definition hex_plain (d : bytes) : str := concat (map hex_byte d).
  Fixpoint groups_of (fuel k : nat) (d : bytes) : list bytes :=
    match d, fuel with
    | _ :: _, S fuel => firstn k d :: groups_of fuel k (skipn k d)
    | _, _ => []
    end.
  Definition hex_groups (n : Z) (d : bytes) : list bytes :=
    if (n =? 0) || (zlen d <=? Z.abs n) then [d]
    else if n <? 0 then groups_of (length d) (Z.to_nat (- n)) d
    else rev (map (@rev Z) (groups_of (length d) (Z.to_nat n) (rev d))).
  Definition bytes_hex (sep n : Z) (d : bytes) : result str :=
    if (n <? - 2 ^ 31) || (2 ^ 31 <=? n) then Err OverflowError
    else if 127 <? sep then Err ValueError
    else Ok (joined [sep] (map hex_plain (hex_groups n d))).

  (** [str.lower] and [str.upper] on ASCII. *)
  Definition lower (c : Z) : Z := if (65 <=? c) && (c <=? 90) then c + 32 else c.
  Definition upper (c : Z) : Z := if (97 <=? c) && (c <=? 122) then c - 32 else c.
  Definition cased (l : bool) (s : str) : str := map (if l then lower else upper) s.
  (** [TIEntry.__format__]: [default] is the text for the empty format string (the
      inherited [__str__]); [d] is [calc_data].  var.py:429-457. *)
  Definition entry_format (default : str) (spec : str) (d : bytes) : result str :=
    match hex_spec spec with
    | Some (w, l, p) =>
        try s := match p, w with
                 | None, None => Ok (hex_plain d)
                 | Some p, None => bytes_hex p 1 d
                 | None, Some (neg, ds) => try n := width_value neg ds in bytes_hex 32 n d
                 | Some p, Some (neg, ds) => try n := width_value neg ds in bytes_hex p n d
                 end in
        Ok (cased l s)
    | None => match spec with [] => Ok default | _ => Err TypeError end
    end.

  (** ** Tokenized entries *)

  (** A character of [\w]. *)
  Definition word (c : Z) : bool :=
    if c <? 128 then ((48 <=? c) && (c <=? 57)) || ((65 <=? c) && (c <=? 90)) || ((97 <=? c) && (c <=? 122)) || (c =? 95)
    else uni_word c.
  (** The end [$]: at the end or before a last newline. *)
  Definition at_end (s : str) : bool := match s with [] => true | [c] => c =? 10 | _ => false end.
  Fixpoint take_word (s : str) : str * str :=
    match s with
    | c :: r => if word c then let '(w, t) := take_word r in (c :: w, t) else ([], s)
    | [] => ([], [])
    end.
  (** [(\.\w+)?$]: the language, without its dot, if any.  Taking fewer word
      characters would not lead to the end. *)
  Definition lang_match (s : str) : option (option str) :=
    if at_end s then Some None
    else match s with
         | 46 :: r => match take_word r with
                      | ([], _) => None
                      | (w, t) => if at_end t then Some (Some w) else None
                      end
         | _ => None
         end.
  (** [(\w?)(\.\w+)?$]: a word character is taken if there is one; the rest cannot
      start with one. *)
  Definition tail_match (s : str) : option (str * option str) :=
    match s with
    | c :: r => if word c then match lang_match r with Some g => Some ([c], g) | None => None end
                else match lang_match s with Some g => Some ([], g) | None => None end
    | [] => Some ([], None)
    end.
  (** [(\W+)(\w?)(\.\w+)?$]: as many other characters as possible, fewer if need
      be. *)
  Fixpoint sep_match (s : str) : option (str * (str * option str)) :=
    match s with
    | c :: r =>
        if word c then None
        else match sep_match r with
             | Some (p, g) => Some (c :: p, g)
             | None => match tail_match r with Some g => Some ([c], g) | None => None end
             end
    | [] => None
    end.
  (** [(.*?[a-z%#])(\W+)(\w?)(\.\w+)?$]: the first end of the number format that
      works; [.] is not a newline.  [pre] is read already. *)
  Definition ends_format (c : Z) : bool := ((97 <=? c) && (c <=? 122)) || (c =? 37) || (c =? 35).
  Fixpoint lines_match (pre s : str) : option (str * str * (str * option str)) :=
    match s with
    | c :: r =>
        let later := if c =? 10 then None else lines_match (pre ++ [c]) r in
        if ends_format c then
          match sep_match r with Some (p, g) => Some (pre ++ [c], p, g) | None => later end
        else later
    | [] => None
    end.
  (** The whole expression: the number format and the separator of line numbers,
      if any, the kind of text, the language.  tokenized.py:47. *)
  Definition tok_spec (s : str) : option (option (str * str) * str * option str) :=
    match lines_match [] s with
    | Some (l, p, (k, g)) => Some (Some (l, p), k, g)
    | None => match tail_match s with Some (k, g) => Some (None, k, g) | None => None end
    end.

  (** [TokenizedEntry.decode] of the data with a language, in the accessible form
      or not; and the [format] of an integer. *)
  Variable decode : bool -> str -> result str.
  Variable int_format : Z -> str -> result str.
  (** The exceptions that lead to the dump.  tokenized.py:66. *)
  Definition caught (x : exn) : bool :=
    match x with AttributeError | KeyError | TypeError | ValueError => true | _ => false end.
  (** Numbered lines.  tokenized.py:61. *)
  Fixpoint number_lines (fmt sep : str) (i : Z) (ls : list str) : result (list str) :=
    match ls with
    | [] => Ok []
    | l :: r => try x := int_format i fmt in try t := number_lines fmt sep (i + 1) r in Ok ((x ++ sep ++ l) :: t)
    end.
  Definition numbered (fmt sep : str) (s : str) : result str :=
    try ls := number_lines fmt sep 0 (split_on 10 s) in Ok (joined [10] ls).
  (** The body of the [try].  tokenized.py:46-64. *)
  Definition tok_body (s : str) : result str :=
    match tok_spec s with
    | None => Err AttributeError
    | Some (n, k, g) =>
        let lang := match g with Some w => w | None => s2l "en" end in
        try t := (if leqb k [] || leqb k (s2l "d") then decode false lang
                  else if leqb k (s2l "a") || leqb k (s2l "t") then decode true lang
                  else Err KeyError) in
        match n with Some (f, p) => numbered f p t | None => Ok t end
    end.
  (** [TokenizedEntry.__format__].  tokenized.py:45-67. *)
  Definition tok_format (default : str) (s : str) (d : bytes) : result str :=
    match tok_body s with
    | Err x => if caught x then entry_format default s d else Err x
    | Ok t => Ok t
    end.

  (** ** Real numbers *)

  (** [format(self.decimal(), spec)]. *)
  Variable decimal_format : str -> result str.
  (** [RealEntry.__format__] on a format string other than the empty one and "t"
      (for which see M_Text.v and M_TText.v); a last letter "t" is replaced by "f".
      real.py:64-84. *)
  Definition real_plain (default : str) (s : str) (d : bytes) : result str :=
    match decimal_format s with
    | Err TypeError | Err ValueError => entry_format default s d
    | r => r
    end.
  Definition real_format (default : str) (s : str) (d : bytes) : result str :=
    match rev s with
    | 116 :: _ :: _ => try t := real_plain default (removelast s ++ s2l "f") d in Ok (accessible t)
    | _ => real_plain default s d
    end.
End Format.
