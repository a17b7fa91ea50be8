(** Model of copies of whole vars: [__bool__], [is_empty], [clear] and [__copy__] of
    [TIVar], /repo/tivars/var.py. *)
From Verif Require Import PyBase M_Data M_Models M_Class M_Var M_File.

(** A var with its name.  var.py:1000-1004. *)
Definition named_var : Type := str * var.
(** [TIVar.is_empty], [TIVar.__bool__], [TIVar.clear].  var.py:1133-1139, 1013-1018,
    1166-1171. *)
Definition var_is_empty (v : var) : bool := Z.of_nat (length (v_entries v)) =? 0.
Definition var_bool (v : var) : bool := negb (var_is_empty v).
Definition var_clear (v : var) : var := Var (v_header v) [] (v_model v).
Section Copy.
  Variable name_set : cls -> str -> out bytes.
  Variable get_version : entry -> option bytes -> out Z.
  Variable prog_scan : bytes -> option bool.
  Variable order : model -> Z.
  Variable set_order : list model -> list model.
  (** [TIVar.__copy__]: a var without a name and a model, into which the bytes are
      loaded.  var.py:1027-1034, 990. *)
  Definition var_copy (v : named_var) : out named_var :=
    do new := var_new None None in
    do b := olift (var_bytes (snd v)) in
    do new := var_load name_set get_version prog_scan order set_order new b in
    oret (s2l "UNNAMED", new).
  (** The name under which [save()] writes.  var.py:1113-1123, 1281-1282. *)
  Definition var_filename (v : named_var) : out str := save_name None (fst v) (extension order (snd v)).
End Copy.
