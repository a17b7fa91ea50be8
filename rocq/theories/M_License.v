(** Model of licenses and of saving flash headers: /repo/tivars/types/flash.py
    and /repo/tivars/flash.py. *)
From Verif Require Import PyBase M_Data M_Numeric M_Flags M_Models M_Class M_Var M_List M_Flash.

(** [TILicense.license], read: a view of the whole data.  types/flash.py:84-88;
    data.py:227-236, 498-499. *)
Definition license_get (h : fheader) : str := string_get (view_get (View None None) (Buf false (h_data h))).
(** [license = s]: the slot holds an immutable [bytes] object, set by the section
    of types/flash.py:78-82 (data.py:89-98) or by flash.py:716.  The assignment is
    data.py:489-490. *)
Definition license_assign (h : fheader) (s : str) : out fheader :=
  do b := view_set None (View None None) (olift (string_set s)) (Buf false (h_data h)) in
  oret (FH (h_cls h) (h_magic h) (h_revision h) (h_flag h) (h_object h) (h_date h) (h_name h)
           (h_devices h) (h_product h) (b_data b) (h_check h)).
(** [TIFlashHeader.save]: the name and the contents of the file, and whether an
    exception follows; the file is opened, and so emptied, before the bytes are
    made.  flash.py:783-792. *)
Section Save.
  Variable order : model -> Z.
  Definition flash_save (h : fheader) (filename : option str) (m : model) : out (str * bytes * result unit) :=
    do n := match filename with
            | None | Some [] => flash_filename order h m
            | Some f => oret f
            end in
    oret (match h_bytes h with Ok b => (n, b, Ok tt) | Err e => (n, [], Err e) end).
End Save.
