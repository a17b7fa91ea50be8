(** Model of the text of lists of complex numbers: [__format__] with an empty
    format and [load_string] of /repo/tivars/types/list.py on a [TIComplexList]. *)
From Verif Require Import PyBase M_Data M_Numeric M_Class M_Var M_Real M_Complex M_List M_Text M_CText.

Section CList.
  (** Python's [Fraction(text)], the name encoding and the program scan. *)
  Variable name_set : cls -> str -> out bytes.
  Variable prog_scan : bytes -> option bool.
  Variable fraction_of : str -> result (Z * Z).

  (** [ComplexEntry(text)]: a cleared entry, then [load_string], then the version
      of what was loaded.  Simplified: the cleared entry is given its version
      too, which is then replaced.  complex.py:122-127; var.py:360-390. *)
  Definition ctext_elem (s : str) : out entry :=
    do e := elem_new name_set prog_scan KComplexEntry true [] in
    do e := complex_load fraction_of s e in
    do v := elem_version e None in set_version e v.
  (** [str(list)].  list.py:92-97, 174-180. *)
  Definition clist_text (e : entry) : out str :=
    do xs := list_elems name_set prog_scan e in
    do ts := omapM complex_text xs in oret (list_show ts).
  (** [TIComplexList.load_string].  list.py:182-184, 163-172, 228. *)
  Definition clist_load_string (s : str) (e : entry) : out entry :=
    do xs := omapM ctext_elem (list_pieces s) in load_list e xs.
End CList.
