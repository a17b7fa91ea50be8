(** Specifications for headers, entries and var files, written without the
    model's functions (only its records and the class tables). *)
From Verif Require Import PyBase M_Models M_Class M_Data M_Var.

(** A 16-bit little-endian word. *)
Definition le16 (n : Z) : bytes := [n mod 256; n / 256].

(** A header whose sections have their declared widths. *)
Definition header_wf (h : header) : Prop :=
  length (h_magic h) = 8%nat /\ length (h_extra h) = 2%nat /\
  (exists p, h_product h = [p] /\ is_byte p) /\ length (h_comment h) = 42%nat.

(** The model table as printed in the documentation of the file format: magic
    text and product IDs of each model. *)
Definition magic_of (m : model) : string :=
  match m with
  | TI_82 => "**TI82**"
  | TI_83 | TI_82ST | TI_82ST_fr | TI_76_fr => "**TI83**"
  | _ => "**TI83F*"
  end.
(** [m] is addressed by a header with magic bytes [magic] and product byte [p]:
    the magic is [m]'s, and the product byte is [m]'s unless it is zero or
    belongs to no model with that magic. *)
Definition addressed (magic : bytes) (p : Z) (m : model) : Prop :=
  let same_magic x := magic = s2l (magic_of x) in
  same_magic m /\
  (p = 0 \/ model_product_id m = p \/ ~ exists x, same_magic x /\ model_product_id x = p).

(** The bytes of one entry in a file. *)
Definition entry_image (meta ty : Z) (name flash payload : bytes) : bytes :=
  le16 meta ++ le16 (zlen payload) ++ [ty] ++ name ++ flash ++ le16 (zlen payload) ++ payload.

(** An entry state that a file can hold: widths, byte ranges, meta length 11 or
    13 (11: no flash bytes, they read as zero), and fewer than 65536 data bytes. *)
Record storable (e : entry) : Prop := {
  st_meta : e_meta e = le16 11 \/ e_meta e = le16 13;
  st_type : exists t, e_type e = [t] /\ is_byte t;
  st_name : length (e_name e) = 8%nat;
  st_vers : exists v, e_version e = [v] /\ is_byte v;
  st_arch : exists a, e_archived e = [a] /\ is_byte a;
  st_noflash : e_meta e = le16 11 -> e_version e = [0] /\ e_archived e = [0];
  st_data : zlen (b_data (e_data e)) < 65536;
  st_mut : b_mut (e_data e) = true }.

(** The version and archive bytes, read as a word, are the data length. *)
Definition ambiguous (e : entry) : Prop :=
  e_meta e = le16 13 /\ e_version e ++ e_archived e = le16 (zlen (b_data (e_data e))).

(** The same raw contents, possibly seen through another class. *)
Definition same_raw (a b : entry) : Prop :=
  e_meta a = e_meta b /\ e_type a = e_type b /\ e_name a = e_name b /\
  e_version a = e_version b /\ e_archived a = e_archived b /\ e_data a = e_data b.

(** Type byte and payload agree, so that finding the class of the entry neither
    fails nor rewrites it: lists have an element byte, the imaginary part of a
    complex number carries the type, and the type is not the override 0x23. *)
Definition complex_type (t : Z) : Prop := In t [12; 27; 29; 30; 31].
Definition list_type (t : Z) : Prop := In t [1; 13].
Definition consistent (t : Z) (payload : bytes) : Prop :=
  t <> 35 /\
  (list_type t -> 3 <= zlen payload) /\
  (complex_type t -> exists b, nth_error payload 9 = Some b /\ b mod 64 = t).
(** The same for loading through a given class: complex classes take the type
    from the imaginary part, the two untyped real classes from the number's
    first byte, list classes look at the first element, the equation class of
    graph databases replaces type 0x23, and the classes for assembly programs
    cannot load at all. *)
Definition consistent_for (c : cls) (t : Z) (payload : bytes) : Prop :=
  match c with
  | KEntry | KSized | KTokenized | KSettings => consistent t payload
  | KRealEntry | KGraphReal =>
      consistent t payload /\ exists b, nth_error payload 0 = Some b /\ b mod 64 = t
  | KComplexEntry | KComplex | KComplexFraction | KComplexRadical | KComplexPi | KComplexPiFraction =>
      exists b, nth_error payload 9 = Some b /\ b mod 64 = t
  | KList | KRealList | KComplexList => 3 <= zlen payload
  | KGraphedEquation => t <> 35
  | KAsmProgram | KProtectedAsmProgram => False
  | _ => True
  end.
Definition loadable_as (c : cls) (e : entry) : Prop :=
  exists t, e_type e = [t] /\ consistent_for c t (b_data (e_data e)).
Definition self_describing (e : entry) : Prop :=
  exists t, e_type e = [t] /\ consistent t (b_data (e_data e)).

(** Warnings about the file structure. *)
Definition structural (w : warning) : bool :=
  match w with
  | WMetaLength | WTypeMismatch | WDataLengthTwo | WNoFlash
  | WDataLength | WEntriesLength | WChecksum => true
  | _ => false
  end.

(** A var file: header, total length, entries, and the sum of all entry bytes. *)
Definition file_image (hdr : bytes) (entries : list bytes) : bytes :=
  hdr ++ le16 (zlen (concat entries)) ++ concat entries
      ++ le16 (fold_right Z.add 0 (concat entries) mod 65536).

(** The bytes of an entry in a file. *)
Definition image_of (e : entry) : bytes :=
  match e_type e with
  | [t] => entry_image (if leqb (e_meta e) [13; 0] then 13 else 11) t (e_name e)
             (if leqb (e_meta e) [13; 0] then e_version e ++ e_archived e else [])
             (b_data (e_data e))
  | _ => []
  end.

(** A well-formed entry byte string: meta length 11 or 13, both length words
    equal to the number of data bytes, version and archive bytes not spelling
    the data length, type and payload in agreement. *)
Inductive wf_entry : bytes -> Prop :=
| wf_entry_flash t name v a p :
    is_byte t -> length name = 8%nat -> is_byte v -> is_byte a -> zlen p < 65536 ->
    [v; a] <> le16 (zlen p) -> consistent t p -> wf_entry (entry_image 13 t name [v; a] p)
| wf_entry_flashless t name p :
    is_byte t -> length name = 8%nat -> zlen p < 65536 ->
    consistent t p -> wf_entry (entry_image 11 t name [] p).

(** An entry that a file restores: storable, not ambiguous, self-describing. *)
Definition restorable (e : entry) : Prop := storable e /\ ~ ambiguous e /\ self_describing e.

(** No warning about the structure of the file. *)
Definition no_structural (w : list warning) : Prop := forall x, In x w -> structural x = false.
