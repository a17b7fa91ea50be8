(** Model of [GraphRealEntry] (types/real.py) as the converter of the parameters of
    GDBs and settings. *)
From Verif Require Import PyBase M_Data M_Flags M_Models M_Class M_Var M_Complex M_List M_Gdb.

(** The classes that a graph parameter takes without a warning.  real.py:220. *)
Definition graph_kinds : list cls := [KReal; KUndefReal; KRealFraction].
(** [GraphRealEntry.set(value)]: the test is on the exact class; the bytes are those of
    [TIEntry.set].  real.py:218-224; var.py:581-590. *)
Definition graph_set (x : real) : out bytes :=
  do _ := owarn_if (negb (existsb (cls_eqb (r_cls x)) graph_kinds)) WGraphReal in oret (b_data (r_buf x)).
(** [e.Xmin = x].  The tests of the parameters that must be whole come before and are
    not repeated here (M_Json).  data.py:409-421, 489-490; gdb.py:462-497; settings.py:90-308. *)
Definition set_parameter (e : entry) (v : view) (x : real) : out entry :=
  do b := view_set (calc_length (e_cls e)) v (graph_set x) (e_data e) in oret (with_data e b).
(** [e.Xmin] = [GraphRealEntry(data=...)], whose default name is "A".  var.py:570-579;
    real.py:55-60, 202-206. *)
Definition get_parameter (ns : cls -> str -> out bytes) (ps : bytes -> option bool) (e : entry) (v : view) : out entry :=
  elem_new ns ps KGraphReal true (get_field e v).
