(** Model of the text of complex numbers with parts of any kind: [__format__] of
    /repo/tivars/types/complex.py with an empty format. *)
From Verif Require Import PyBase M_Data M_Numeric M_Class M_Var M_Real M_Complex M_Text.

(** The inner function [make_imag] on the text of the imaginary part: a part read
    from the entry has its class's type ID.  complex.py:134-143 with var.py:363. *)
Definition make_imag (c : cls) (t : str) : str :=
  match c with
  | KRealFraction | KRealPiFraction => str_replace (s2l "/") (s2l "i/") t
  | KRealRadical => t ++ s2l " * i"
  | _ => t ++ s2l "i"
  end.
(** The text of given texts of the parts.  complex.py:145-157. *)
Definition complex_show (a : str) (c : cls) (b : str) : str :=
  if leqb b (s2l "0") then a
  else if leqb a (s2l "0") then make_imag c b
  else replacer (a ++ s2l " + " ++ make_imag c b) [(s2l "+ -", s2l "- "); (s2l " 1i", s2l " i")].
(** [str(e)].  complex.py:133-157. *)
Definition complex_text (e : entry) : out str :=
  do x := get_real e in
  do a := olift (real_text (r_cls x) (r_buf x)) in
  do y := get_imag e in
  do b := olift (real_text (r_cls y) (r_buf y)) in
  oret (complex_show a (r_cls y) b).
