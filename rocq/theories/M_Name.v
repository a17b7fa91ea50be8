(** Model of the name handling of lists, equations and strings: the conversions
    applied to a name before it is tokenised, and the list name converter. *)
From Verif Require Import PyBase M_Numeric M_Class.

Section Names.
  (** [upper]: the upper case of one character (possibly several characters).
      [digit]: the characters matched by the regular expression [\d].
      [name_set]: [Name.set] called without an instance; [name_get]: [Name.get]
      (both in M_Tok). *)
  Variable upper : Z -> str.
  Variable digit : Z -> bool.
  Variable name_set : str -> out bytes.
  Variable name_get : bytes -> out str.

  (** The text that [ListName.set] tokenises.  list.py:57-58. *)
  Definition list_varname (value : str) : str := str_replace (s2l "]") (s2l "|L") (concat (map upper value)).
  (** [ListName.set]: the inherited [set] is called without the instance.
      list.py:48-68. *)
  Definition list_name_set (value : str) : out bytes :=
    let v := list_varname value in
    if infix (s2l "IDList") v then oret [93; 64]
    else
      do _ := owarn_if ((if starts_with (s2l "|L") v then 7 else 5) <? zlen v) WListName in
      name_set v.
  (** [ListName.get].  list.py:28-45. *)
  Definition list_name_get (data : bytes) : out str :=
    match data with
    | [] => oerr IndexError
    | a :: r =>
        if a =? 93 then
          match r with
          | [] => oerr IndexError
          | b :: _ =>
              if b <? 6 then name_get data
              else if b =? 64 then oret (s2l "IDList")
              else name_get r
          end
        else name_get data
    end.

  (** [\{?([XYr]\dT?)}?] against the whole text: an optional character is taken
      off the front when it is there; no backtracking is needed because the next
      part of the pattern cannot begin with it.  tokenized.py:274-275. *)
  Definition strip_head (c : Z) (s : str) : str :=
    match s with x :: r => if x =? c then r else s | [] => [] end.
  Definition equation_match (s : str) : option str :=
    match strip_head 123 s with
    | a :: d :: r =>
        if memb a [88; 89; 114] && digit d then
          let q := strip_head 84 r in
          match strip_head 125 q with
          | [] => Some (a :: d :: firstn (length r - length q) r)
          | _ => None
          end
        else None
    | _ => None
    end.
  (** The conversion of the [name] section of [TIEquation].  tokenized.py:261-277. *)
  Definition equation_name (s : str) : str :=
    if leqb s (s2l "u") || leqb s (s2l "v") || leqb s (s2l "w") then s2l "|" ++ s
    else match equation_match s with
         | Some m => s2l "{" ++ m ++ s2l "}"
         | None => s
         end.
  (** The conversion of the [name] section of [TIString]: [str.capitalize], for
      characters below 128 (others are left alone, a simplification).
      tokenized.py:315-323. *)
  Definition up1 (c : Z) : Z := if (97 <=? c) && (c <=? 122) then c - 32 else c.
  Definition low1 (c : Z) : Z := if (65 <=? c) && (c <=? 90) then c + 32 else c.
  Definition string_name (s : str) : str :=
    match s with [] => [] | c :: r => up1 c :: map low1 r end.
End Names.
