(** Model of how the text of an equation is loaded into a GDB: [TIEquation(text)] in
    [TIGraphedEquation.load_dict], /repo/tivars/types/gdb.py. *)
From Verif Require Import PyBase M_Data M_Models M_Class M_Var M_Gdb M_GdbDict M_Tok M_Os.

Section GdbText.
  (** OS versions, the token sheet, its trie, NFC normalisation and names, as in
      M_Tok. *)
  Variable OS : Type.
  Variable os_gt os_ge : OS -> OS -> bool.
  Variable INITIAL illegal_since : OS.
  Variable nfc : str -> str.
  Variable sheet : bytes -> option (token OS).
  Variable the_trie : trie OS.
  Variable os_of : model -> str -> OS.
  Variable name_set : cls -> str -> out bytes.
  Variable prog_scan : bytes -> option bool.
  Notation get_version := (tok_version OS os_gt os_ge INITIAL illegal_since sheet os_of).

  (** [TIEquation()] before anything is loaded: the version byte is 0.
      tokenized.py:254-259; var.py:362-377. *)
  Definition blank_equation : out entry := entry_new name_set get_version prog_scan KEquation true (s2l "Y1") (Some 0) None [].
  (** [TIEquation(text)]: a text has no [bytes], so it is loaded by [load_string];
      then the version is set again.  tokenized.py:165-178, 254-259; var.py:382-390. *)
  Definition equation_of_text (s : str) : out entry :=
    do e := blank_equation in
    do e := load_string OS os_gt os_ge INITIAL illegal_since nfc sheet the_trie os_of e s in
    do v := get_version e None in
    set_version e v.
  (** [TIEquation(dct["expr"]).calc_data]: a missing [init] loads nothing.  Simplified:
      everything else raises TypeError, although a list is first tried as a list of
      tokens.  gdb.py:303, 332-340; var.py:382-390; data.py:523-532. *)
  Definition expr_bytes (j : jv) : out bytes :=
    match j with
    | JNull =>
        do e := blank_equation in
        do v := get_version e None in
        do e := set_version e v in oret (calc_data e)
    | JStr s => do e := equation_of_text s in oret (calc_data e)
    | _ => oerr TypeError
    end.
End GdbText.
