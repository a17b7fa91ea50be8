(** Specifications for formatting, without the functions of M_Format. *)
From Verif Require Import PyBase.

(** The digits of a dump. *)
Definition hex_table (low : bool) : str := if low then s2l "0123456789abcdef" else s2l "0123456789ABCDEF".
Definition two_digits (low : bool) (b : Z) : str :=
  [nth (Z.to_nat (b / 16)) (hex_table low) 0; nth (Z.to_nat (b mod 16)) (hex_table low) 0].
(** The separator in the case of the dump. *)
Definition case_of (low : bool) (c : Z) : Z :=
  if low then (if (65 <=? c) && (c <=? 90) then c + 32 else c)
  else (if (97 <=? c) && (c <=? 122) then c - 32 else c).
(** Whether a separator stands before the byte number [i] of [len]: the number of
    bytes from it to the end is a multiple of a positive width, the number of bytes
    before it a multiple of a negative one. *)
Definition separated (n len i : Z) : bool :=
  (0 <? i) && (if n =? 0 then false else if 0 <? n then (len - i) mod n =? 0 else i mod (- n) =? 0).
(** The dump from byte number [i] on. *)
Fixpoint dump_from (low : bool) (sep n len i : Z) (d : bytes) : str :=
  match d with
  | [] => []
  | b :: r => (if separated n len i then [case_of low sep] else []) ++ two_digits low b ++ dump_from low sep n len (i + 1) r
  end.
Definition dump (low : bool) (sep n : Z) (d : bytes) : str := dump_from low sep n (zlen d) 0 d.

(** A width that fits a C int. *)
Definition c_int (n : Z) : Prop := - 2 ^ 31 <= n < 2 ^ 31.
(** The letter of the case. *)
Definition letter (low : bool) : Z := if low then 120 else 88.

(** A digit with its value; [uni] gives the digits outside ASCII. *)
Definition digit_char (uni : Z -> option Z) (c d : Z) : Prop :=
  if c <? 128 then 48 <= c <= 57 /\ d = c - 48 else uni c = Some d.
(** The value of digits. *)
Fixpoint places (ds : list Z) : Z :=
  match ds with [] => 0 | d :: r => d * 10 ^ zlen r + places r end.
(** Format strings of dumps: a sign [sg] only before digits, digits, the letter, and
    at most one further character which is no digit. *)
Definition hex_shape (uni : Z -> option Z) (s sg : str) (ds : list Z) (l : bool) (sep : option Z) : Prop :=
  exists cs, s = sg ++ cs ++ letter l :: match sep with Some c => [c] | None => [] end /\
    Forall2 (digit_char uni) cs ds /\
    (sg = [] \/ ((sg = s2l "+" \/ sg = s2l "-") /\ ds <> [])) /\
    (forall c d, sep = Some c -> ~ digit_char uni c d).
(** The width and the separator that such a format string asks for. *)
Definition asked_width (sg : str) (ds : list Z) (sep : option Z) : Z :=
  match ds with
  | [] => match sep with None => 0 | Some _ => 1 end
  | _ => match sg with 45 :: _ => - places ds | _ => places ds end
  end.
Definition asked_sep (sep : option Z) : Z := match sep with Some c => c | None => 32 end.

(** A text of lines, with a label before each. *)
Fixpoint lines (ls : list str) : str :=
  match ls with [] => [] | [l] => l | l :: r => l ++ 10 :: lines r end.
Fixpoint labelled (label : Z -> str) (sep : str) (i : Z) (ls : list str) : list str :=
  match ls with [] => [] | l :: r => (label i ++ sep ++ l) :: labelled label sep (i + 1) r end.

(** Word characters; [uni] gives those outside ASCII. *)
Definition word_char (uni : Z -> bool) (c : Z) : Prop :=
  if c <? 128 then 48 <= c <= 57 \/ 65 <= c <= 90 \/ 97 <= c <= 122 \/ c = 95 else uni c = true.
(** The last character of a number format: a small letter, a percent sign or a hash. *)
Definition format_end (c : Z) : Prop := 97 <= c <= 122 \/ c = 37 \/ c = 35.
(** The language at the end of a format string. *)
Definition lang_part (lang : option str) : str := match lang with Some w => 46 :: w | None => [] end.
(** The kinds of texts: for display or accessible. *)
Definition text_kind (k : str) (acc : bool) : Prop :=
  (acc = false /\ (k = [] \/ k = s2l "d")) \/ (acc = true /\ (k = s2l "a" \/ k = s2l "t")).
