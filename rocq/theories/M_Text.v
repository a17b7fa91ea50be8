(** Model of the texts of exact numbers, lists and matrices: [__format__] with an
    empty format and the loaders that read such texts. *)
From Verif Require Import PyBase M_Data M_Numeric M_Class M_Var M_Real M_Complex M_List.

(** * Radicals *)

(** The inner function [reduce]: patterns over single characters, so the one with
    "-1" never matches.  real.py:396-414. *)
Definition ends_with (p s : str) : bool := starts_with (rev p) (rev s).
Definition radical_reduce (p : str) : str :=
  if starts_with [48; ROOT] p then []
  else if ends_with [ROOT; 48] p then []
  else if ends_with [ROOT; 49] p then firstn (length p - 2) p
  else if starts_with [49; ROOT] p then skipn 1 p
  else p.
Definition radical_term (a b : Z) : str := str_of_int a ++ [ROOT] ++ str_of_int b.
(** The text of given components.  real.py:418-440. *)
Definition radical_show (ls lr rs rr e : Z) : str :=
  let left := radical_reduce (radical_term ls lr) in
  let right := radical_reduce (radical_term rs rr) in
  let den := s2l "/" ++ str_of_int e in
  str_replace (s2l "+-") (s2l "-")
    match left, right with
    | [], [] => s2l "0"
    | [], _ => if e =? 1 then right else right ++ den
    | _, [] => if e =? 1 then left else left ++ den
    | _, _ => s2l "(" ++ left ++ s2l "+" ++ right ++ s2l ")" ++ den
    end.
(** [__format__] with the formats "" and "#".  real.py:416-446. *)
Definition radical_comps (b : buffer) : result (Z * Z * Z * Z * Z) :=
  try ls := signed_left_scalar b in try lr := get_left_radicand b in
  try rs := signed_right_scalar b in try rr := get_right_radicand b in
  try e := get_denominator b in Ok (ls, lr, rs, rr, e).
Definition radical_string (b : buffer) : result str :=
  try (ls, lr, rs, rr, e) := radical_comps b in Ok (radical_show ls lr rs rr e).
(** real.py:442-446. *)
Definition radical_long_show (ls lr rs rr e : Z) : str :=
  str_replace (s2l "+-") (s2l "-") (s2l "(" ++ radical_term ls lr ++ s2l "+" ++ radical_term rs rr ++ s2l ")/" ++ str_of_int e).
Definition radical_long (b : buffer) : result str :=
  try (ls, lr, rs, rr, e) := radical_comps b in Ok (radical_long_show ls lr rs rr e).

(** * Fractions *)

(** [str(Fraction)] = [format(Fraction, "")]. *)
Definition fraction_show (x : Z * Z) : str :=
  str_of_int (fst x) ++ if snd x =? 1 then [] else s2l "/" ++ str_of_int (snd x).
(** [TIRealFraction.__format__] with an empty format.  real.py:345-348. *)
Definition fraction_string (b : buffer) : result str :=
  try x := real_fraction b in Ok (fraction_show x).

(** * Fractional multiples of pi *)

(** Rounding to a precision of [p] digits (decimal module, context rounding
    ROUND_HALF_EVEN). *)
Definition dec_round (p : Z) (d : dec) : dec :=
  let k := ndigits (d_coef d) - p in
  if k <=? 0 then d
  else
    let c := half_even (d_coef d) (10 ^ k) in
    if c <? 10 ^ p then Dec (d_neg d) c (d_exp d + k)
    else Dec (d_neg d) (c / 10) (d_exp d + k + 1).
(** Product and quotient of decimals at a precision, for a divisor other than 0
    (decimal module, __mul__ and __truediv__).  Only the values matter here, so
    a zero gets any exponent. *)
Definition dec_times (p : Z) (x y : dec) : dec :=
  dec_round p (Dec (xorb (d_neg x) (d_neg y)) (d_coef x * d_coef y) (d_exp x + d_exp y)).
Definition dec_over (p : Z) (x y : dec) : dec :=
  let neg := xorb (d_neg x) (d_neg y) in
  let e := d_exp x - d_exp y in
  if d_coef x =? 0 then Dec neg 0 e
  else
    let shift := ndigits (d_coef y) - ndigits (d_coef x) + p + 1 in
    let num := if 0 <=? shift then d_coef x * 10 ^ shift else d_coef x in
    let den := if 0 <=? shift then d_coef y else d_coef y * 10 ^ (- shift) in
    let q := num / den in
    if num mod den =? 0 then
      let '(c, j) := strip_zeros (Z.to_nat shift) q (- shift) in dec_round p (Dec neg c (e + j))
    else dec_round p (Dec neg (if q mod 5 =? 0 then q + 1 else q) (e - shift)).
(** [pi].  numeric.py:11. *)
Definition dec_pi : dec := Dec false 31415926535898 (-13).
(** [TIRealPi.decimal].  real.py:639-643. *)
Definition pi_decimal (b : buffer) : result dec := try x := real_decimal b in Ok (dec_times 14 x dec_pi).
(** [TIRealPiFraction.fraction]; the division is done at the default precision.
    real.py:678-679. *)
Definition pi_fraction (b : buffer) : result (Z * Z) :=
  try x := pi_decimal b in Ok (limit_denominator 10000 (dec_ratio (dec_over 28 x dec_pi))).
(** [TIRealPiFraction.__format__] with an empty format.  real.py:670-676. *)
Definition pi_fraction_string (b : buffer) : result str :=
  try x := pi_fraction b in Ok (str_replace (s2l "/") ([960] ++ s2l "/") (fraction_show x)).

(** [__format__] of the real classes with an empty format: the pure base class
    has no [decimal].  real.py:65-83, 156-171, 345-351, 395-446, 623-633, 670-676. *)
Definition real_text (c : cls) (b : buffer) : result str :=
  match c with
  | KReal | KUndefReal => real_string b
  | KRealFraction => fraction_string b
  | KRealRadical => radical_string b
  | KRealPi => real_pi_string b
  | KRealPiFraction => pi_fraction_string b
  | _ => Err NotImplementedError
  end.

(** * Lists and matrices of real numbers *)

(** [sep.join(ts)]. *)
Fixpoint joined (sep : str) (ts : list str) : str :=
  match ts with
  | [] => []
  | t :: r => match r with [] => t | _ => t ++ sep ++ joined sep r end
  end.
(** [s.split(sep)] for a separator of any length: leftmost occurrences, [k]
    characters of an occurrence being still to skip. *)
Fixpoint split_sub_aux (sep : str) (k : nat) (s : str) : list str :=
  match s with
  | [] => [[]]
  | c :: r =>
      match k with
      | S k' => split_sub_aux sep k' r
      | O => if starts_with sep s then [] :: split_sub_aux sep (pred (length sep)) r
             else match split_sub_aux sep 0 r with p :: ps => (c :: p) :: ps | [] => [[c]] end
      end
  end.
Definition split_sub (sep s : str) : list str := split_sub_aux sep 0 s.
(** Texts of elements, in order; the first error stops. *)
Fixpoint texts_of (xs : list entry) : result (list str) :=
  match xs with
  | [] => Ok []
  | x :: r => try t := real_text (e_cls x) (e_data x) in try ts := texts_of r in Ok (t :: ts)
  end.
Fixpoint rows_of (rows : list (list entry)) : result (list (list str)) :=
  match rows with
  | [] => Ok []
  | x :: r => try t := texts_of x in try ts := rows_of r in Ok (t :: ts)
  end.
(** [TIList.__format__], [TIMatrix.__format__] with an empty format.
    list.py:92-97; matrix.py:46-54. *)
Definition list_show (ts : list str) : str := s2l "[" ++ joined (s2l ", ") ts ++ s2l "]".
Definition matrix_show (rows : list (list str)) : str := list_show (map list_show rows).
(** The pieces of a text.  list.py:184; matrix.py:179-180.  [string[1:-1]]. *)
Definition list_pieces (s : str) : list str := split_on 44 (strip (s2l "[]{}") s).
Definition inner (s : str) : str := removelast (skipn 1 s).
Definition matrix_pieces (s : str) : list (list str) :=
  map (fun row => split_on 44 (replacer row [(s2l "[", []); (s2l "]", [])]))
    (split_sub (s2l "][") (str_replace (s2l "],[") (s2l "][") (inner (squash s)))).

Section ListText.
  Variable name_set : cls -> str -> out bytes.
  Variable prog_scan : bytes -> option bool.
  Variable fraction_of : str -> result (Z * Z).

  (** [TIEntry.load_string] on a [RealEntry]: the first registered real class
      that accepts the text.  Warnings are silenced and every exception is
      caught.  var.py:869-891. *)
  Fixpoint try_reals (types : list (Z * cls)) (s : str) : result real :=
    match types with
    | [] => Err ValueError
    | (_, c) :: r =>
        if issubclass c KRealEntry then
          match snd (real_new fraction_of c s) with Ok x => Ok x | Err _ => try_reals r s end
        else try_reals r s
    end.
  Definition real_of_text (s : str) : result real := try_reals registry s.
  (** [RealEntry(text)].  Simplified: the entry found is taken over by its data,
      as when it is read back from its bytes.  real.py:55-60, var.py:382-387, 884. *)
  Definition text_elem (s : str) : out entry :=
    do x := olift (real_of_text s) in elem_new name_set prog_scan KRealEntry true (b_data (r_buf x)).

  (** [str(list)], [TIRealList.load_string].  list.py:92-97, 182-184. *)
  Definition list_text (e : entry) : out str :=
    do xs := list_elems name_set prog_scan e in
    do ts := olift (texts_of xs) in oret (list_show ts).
  Definition list_load_string (s : str) (e : entry) : out entry :=
    do xs := omapM text_elem (list_pieces s) in load_list e xs.
  (** [str(matrix)], [TIMatrix.load_string].  matrix.py:46-54, 177-180. *)
  Definition matrix_text (e : entry) : out str :=
    do m := matrix_rows name_set prog_scan e in
    do ts := olift (rows_of m) in oret (matrix_show ts).
  Definition matrix_load_string (s : str) (e : entry) : out entry :=
    do m := omapM (omapM text_elem) (matrix_pieces s) in load_matrix e m.
End ListText.
