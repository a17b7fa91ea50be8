(** Model of the values in the dictionaries of settings (/repo/tivars/types/settings.py). *)
From Verif Require Import PyBase M_Data M_Numeric M_Class M_Var M_Real M_Complex M_Gdb M_GdbDict M_Float M_Json.

(** The settings shown by [int()]; all others are shown by [json_number()].
    settings.py:268-293, 511-536, 604-608. *)
Definition settings_whole : list str :=
  map s2l ["PlotStart"; "nMax"; "nMin"; "PlotStep"; "Xres"; "TblMin"; "DeltaTbl"]%string.
(** The value under the name [n] for the nine bytes [b].  Simplified: decimal numbers
    and fractions only (as [json_number]).  settings.py:268-293, 511-536, 604-608;
    real.py:85-86, 182-200. *)
Definition settings_value (n : str) (b : bytes) : result jv :=
  if existsb (leqb n) settings_whole then json_whole (Buf true b) else json_number (Buf true b).
(** [dict()] of window settings, recalled windows and table settings; the order of the
    keys is that of the fields.  settings.py:268-293, 511-536, 604-608. *)
Definition settings_values (e : entry) : result (list (str * jv)) :=
  rmapM (fun '(n, v) => try j := settings_value n (get_field e v) in Ok (n, j)) (fields (e_cls e)).
