(** Model of the format "t" (texts for typing on the calculator) of numbers, lists and
    matrices: the branches for "t" of the [__format__] methods. *)
From Verif Require Import PyBase M_Data M_Numeric M_Class M_Var M_Real M_Complex M_List M_Text M_CText.

(** [re.sub] putting each root sign with its digits as a call of sqrt: [opened] is true inside the digits after a root
    sign.  Simplified: only the digits 0 to 9 count as digits.  real.py:77. *)
Fixpoint sqrt_calls (opened : bool) (s : str) : str :=
  match s with
  | [] => if opened then s2l ")" else []
  | c :: r =>
      if opened && (48 <=? c) && (c <=? 57) then c :: sqrt_calls true r
      else (if opened then s2l ")" else []) ++
           (if c =? ROOT then s2l "sqrt(" ++ sqrt_calls true r else c :: sqrt_calls false r)
  end.
(** What the format "t" makes of the text with the empty format.  real.py:75-77. *)
Definition accessible (s : str) : str :=
  squash (sqrt_calls false (replacer s [(s2l "-", s2l "~"); (s2l "/", s2l "n/d")])).
(** [format(x, "t")] of the real classes; every override passes the format on.
    real.py:74-77, 350-351, 448-449, 632-633, 675-676. *)
Definition real_t (c : cls) (b : buffer) : result str := try s := real_text c b in Ok (accessible s).
(** [format(x, "t")] of complex numbers.  complex.py:161-163. *)
Definition complex_accessible (s : str) : str := squash (replacer s [(s2l "i", s2l "[i]"); (s2l "-", s2l "~")]).
Definition complex_t (e : entry) : out str := do s := complex_text e in oret (complex_accessible s).

(** Formats of the elements, in order. *)
Fixpoint ts_of (xs : list entry) : result (list str) :=
  match xs with
  | [] => Ok []
  | x :: r => try t := real_t (e_cls x) (e_data x) in try ts := ts_of r in Ok (t :: ts)
  end.
Fixpoint t_rows_of (rows : list (list entry)) : result (list (list str)) :=
  match rows with
  | [] => Ok []
  | x :: r => try t := ts_of x in try ts := t_rows_of r in Ok (t :: ts)
  end.
(** The texts of lists and matrices.  list.py:93-94; matrix.py:47-48, 53-54. *)
Definition list_t_show (ts : list str) : str := s2l "{" ++ joined (s2l ",") ts ++ s2l "}".
Definition row_t_show (ts : list str) : str := s2l "[" ++ joined (s2l ",") ts ++ s2l "]".
Definition matrix_t_show (rows : list (list str)) : str := s2l "[" ++ joined [] (map row_t_show rows) ++ s2l "]".
Section Elements.
  Variable name_set : cls -> str -> out bytes.
  Variable prog_scan : bytes -> option bool.
  (** [format(list, "t")], [format(matrix, "t")].  list.py:92-94; matrix.py:46-54. *)
  Definition list_t (e : entry) : out str :=
    do xs := list_elems name_set prog_scan e in
    do ts := olift (ts_of xs) in oret (list_t_show ts).
  Definition matrix_t (e : entry) : out str :=
    do m := matrix_rows name_set prog_scan e in
    do ts := olift (t_rows_of m) in oret (matrix_t_show ts).
End Elements.
