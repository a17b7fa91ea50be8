(** Property C153: licenses, and flash headers through files. *)
From Verif Require Import PyBase M_Data M_Numeric M_Flags M_Models M_Class M_Var M_List M_Flash M_License L_Base S_Data L_Data L_Flags S_Var L_Models L_Var S_Flash L_Flash P_Flash.

Lemma whole_slice (l : bytes) : view_get (View None None) (Buf false l) = l.
Proof. apply py_slice_all. Qed.
(** The text is the data in latin-1, up to NULs at the end. *)
Theorem C153_read : forall h s n, h_data h = s ++ zeros n -> last s 1 <> 0 -> license_get h = s.
Proof.
  intros h s n E L. unfold license_get, string_get. rewrite whole_slice, E, rstrip0_app_zeros. now apply rstrip0_id.
Qed.
(** So the license of a file is the text stored in it. *)
Theorem C153_open : forall i l s n, Forall (fun i => image_ok i /\ i_magic i = tifl) (i :: l) -> i_data i = s ++ zeros n -> last s 1 <> 0 ->
  exists w h, h_open FLicense true (flash_file (i :: l)) = (w, Ok h) /\ h_cls h = FLicense /\ license_get h = s.
Proof.
  intros i l s n F E L. eexists _, _. split; [apply (C87_open FLicense true i l F)|]. split; [reflexivity|].
  now apply (C153_read _ s n).
Qed.
(** Assigning one fails for every header and every text. *)
Theorem C153_assign_refuted : forall h s,
  (wf_bytes s -> license_assign h s = ([], Err TypeError)) /\ (~ wf_bytes s -> license_assign h s = ([], Err UnicodeEncodeError)).
Proof.
  intros h s. unfold license_assign, view_set, section_set_raw, string_set. split; intros W.
  - rewrite latin1_ok by exact W. reflexivity.
  - rewrite latin1_err by exact W. reflexivity.
Qed.
(** Saving: the name given, or else that of the header with the extension for
    the model; the bytes of the header. *)
Theorem C153_save : forall order h f m b, f <> [] -> h_bytes h = Ok b ->
  flash_save order h (Some f) m = ([], Ok (f, b, Ok tt)) /\
  flash_save order h None m = obind (flash_filename order h m) (fun n => oret (n, b, Ok tt)) /\
  flash_save order h (Some []) m = flash_save order h None m.
Proof.
  intros order h f m b NE B. unfold flash_save. rewrite B. split; [|split; reflexivity]. destruct f; [now destruct NE|reflexivity].
Qed.
(** If its bytes cannot be made the exception comes after the file was emptied. *)
Theorem C153_save_fails : forall order h f m x, f <> [] -> h_bytes h = Err x -> flash_save order h (Some f) m = ([], Ok (f, [], Err x)).
Proof. intros order h f m x NE B. unfold flash_save. rewrite B. destruct f; [now destruct NE|reflexivity]. Qed.
(** A header of the shape that survives (C63) is read back from the file saved. *)
Theorem C153_reopen : forall order h f m d0 d1 fl o p, f <> [] ->
  h_magic h = tifl -> length (h_revision h) = 2%nat -> h_flag h = [fl] -> h_object h = [o] ->
  length (h_date h) = 4%nat -> length (h_name h) = 8%nat -> trimmed (h_name h) ->
  h_devices h = [d0; d1] -> is_byte d0 -> is_byte d1 -> h_product h = [p] -> zlen (h_data h) < 2 ^ 32 ->
  h_cls h <> FHeader \/ class_of_type d1 = None ->
  exists b w, flash_save order h (Some f) m = ([], Ok (f, b, Ok tt)) /\ h_open (h_cls h) true b = (w, Ok h).
Proof.
  intros order h f m d0 d1 fl o p NE. destruct h as [c mg r fg ob d n dv pr data ck].
  cbn [h_cls h_magic h_revision h_flag h_object h_date h_name h_devices h_product h_data].
  intros -> Lr -> -> Ld Ln Tn -> B0 B1 -> Lz Hc.
  set (i := Image tifl r fl o d 8 n [d0; d1] p data (if ck then data_sum data else [])).
  assert (OK : image_ok i).
  { unfold image_ok, i. cbn [i_magic i_revision i_date i_name i_devices i_data i_tail length skipn].
    repeat match goal with |- _ /\ _ => split end; auto; try lia; [now left| |destruct ck; auto].
    constructor; [assumption|now apply wf_one]. }
  assert (Eh : image_header c true i = FH c tifl r [fl] [o] d n [d0; d1] [p] data ck).
  { unfold image_header, i. cbn [i_magic i_revision i_flag i_object i_date i_name i_devices i_product i_data i_tail nth].
    f_equal; [|destruct ck; reflexivity]. destruct c; try reflexivity. destruct Hc as [Hc|Hc]; [congruence|]. now rewrite Hc. }
  assert (B : h_bytes (FH c tifl r [fl] [o] d n [d0; d1] [p] data ck) = Ok (image_bytes i)).
  { rewrite <- Eh. apply round_trip_iff; [assumption|]. repeat split; auto. unfold i. cbn [i_tail i_data]. destruct ck; auto. }
  exists (image_bytes i). eexists. split.
  - now apply C153_save.
  - rewrite <- Eh. replace (image_bytes i) with (flash_file [i]) by (unfold flash_file; cbn [map concat]; apply app_nil_r).
    apply (C87_open c true i []). constructor; [now split|constructor].
Qed.
Print Assumptions C153_read.
Print Assumptions C153_open.
Print Assumptions C153_assign_refuted.
Print Assumptions C153_save.
Print Assumptions C153_save_fails.
Print Assumptions C153_reopen.
Definition license8 : fheader := FH FLicense tifl [5; 8] [0] [136] [1; 2; 32; 35] (s2l "LicenseX") [115; 62] [15] (s2l "All rights" ++ [0]) true.
Example C153_example : license_get license8 = s2l "All rights" /\ license_assign license8 (s2l "x") = ([], Err TypeError) /\
  exists b w, flash_save (fun _ => 0) license8 (Some (s2l "a.8eu")) TI_84PCE = ([], Ok (s2l "a.8eu", b, Ok tt)) /\ h_open FLicense true b = (w, Ok license8).
Proof.
  split; [reflexivity|]. split; [reflexivity|]. do 2 eexists. split; [vm_compute; reflexivity|]. vm_compute. reflexivity.
Qed.
(** A name of 256 bytes has no length byte. *)
Example C153_save_fails_example :
  flash_save (fun _ => 0) (FH FLicense tifl [5; 8] [0] [136] [1; 2; 32; 35] (repeat 65 256) [115; 62] [15] (s2l "x") true) (Some (s2l "a.8eu")) TI_84PCE
    = ([], Ok (s2l "a.8eu", [], Err ValueError)).
Proof. apply C153_save_fails; [discriminate|]. vm_compute. reflexivity. Qed.
