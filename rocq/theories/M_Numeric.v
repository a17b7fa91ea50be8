(** Model of /repo/tivars/numeric.py. *)
From Verif Require Import PyBase.

(** [replacer] with one replacement: [string.replace(sub, rep)], leftmost
    non-overlapping, [sub] non-empty.  numeric.py:24-25.  [skip] counts the
    characters of the match still to be dropped. *)
Fixpoint str_replace_aux (sub rep : str) (skip : nat) (s : str) : str :=
  match s with
  | [] => []
  | c :: r =>
      match skip with
      | S k => str_replace_aux sub rep k r
      | O => if starts_with sub s
             then rep ++ str_replace_aux sub rep (pred (length sub)) r
             else c :: str_replace_aux sub rep O r
      end
  end.
Definition str_replace (sub rep s : str) : str := str_replace_aux sub rep 0 s.
(** [replacer].  numeric.py:15-27. *)
Definition replacer (s : str) (reps : list (str * str)) : str :=
  fold_left (fun acc p => str_replace (fst p) (snd p) acc) reps s.

(** [sign].  numeric.py:30-38. *)
Definition py_sign (x : Z) : Z :=
  (if 0 <? x then 1 else 0) - (if x <? 0 then 1 else 0).

(** White space as removed by [str.split()]: Python's [str.isspace]. *)
Definition is_space (c : Z) : bool :=
  ((9 <=? c) && (c <=? 13)) || ((28 <=? c) && (c <=? 32)) || (c =? 133) || (c =? 160) ||
  (c =? 5760) || ((8192 <=? c) && (c <=? 8202)) || (c =? 8232) || (c =? 8233) || (c =? 8239) ||
  (c =? 8287) || (c =? 12288).
(** [squash].  numeric.py:41-49. *)
Definition squash (s : str) : str := filter (fun c => negb (is_space c)) s.

(** One byte as two decimal digits: divmod(byte, 16).  numeric.py:73-74. *)
Definition bcd_byte (b : Z) : Z := 10 * (b / 16) + b mod 16.
(** [BCD.get].  numeric.py:61-76. *)
Definition bcd_get (d : bytes) : Z := fold_left (fun v b => v * 100 + bcd_byte b) d 0.
(** [BCD.set].  numeric.py:78-88. *)
Definition bcd_set (v : Z) (length : option nat) : result bytes :=
  try h := parse_int 16 (str_of_int v) in
  to_bytes_be h (match length with Some n => n | None => 7%nat end).

(** [LeftNibbleBCD.get].  numeric.py:101-116. *)
Definition left_get (d : bytes) : result Z :=
  match d with
  | [] => Err IndexError
  | b :: r => Ok (fold_left (fun v b => v * 100 + bcd_byte b) r (b mod 16))
  end.
(** [LeftNibbleBCD.set]; the in-place addition raises ValueError when the byte
    exceeds 255.  numeric.py:118-131. *)
Definition left_set (v : Z) (cur : bytes) : result bytes :=
  try h := parse_int 16 (str_of_int v) in
  try d := to_bytes_be h 2 in
  match d, cur with
  | b0 :: r, c0 :: _ =>
      let s := b0 + Z.land c0 240 in
      if is_byteb s then Ok (s :: r) else Err ValueError
  | _, [] => Err IndexError
  | [], _ => Err IndexError
  end.

(** [RightNibbleBCD.get].  numeric.py:144-159. *)
Definition right_get (d : bytes) : result Z :=
  match rev d with
  | [] => Err IndexError
  | l :: r => Ok (10 * fold_left (fun v b => v * 100 + bcd_byte b) (rev r) 0 + l / 16)
  end.
(** [RightNibbleBCD.set].  numeric.py:161-174. *)
Definition right_set (v : Z) (cur : bytes) : result bytes :=
  try h := parse_int 16 (str_of_int (10 * v)) in
  try d := to_bytes_be h 2 in
  match d, cur with
  | [b0; b1], _ :: c1 :: _ =>
      let s := b1 + c1 mod 16 in
      if is_byteb s then Ok [b0; s] else Err ValueError
  | _, _ => Err IndexError
  end.
