(** Specifications for flash files: header and block layouts written out byte by byte,
    without the functions of M_Flash. *)
From Verif Require Import PyBase M_Flash S_Data S_Var.

(** A 32-bit little-endian word. *)
Definition le32 (n : Z) : bytes := [n mod 256; n / 256 mod 256; n / 65536 mod 256; n / 16777216 mod 256].
(** A field padded with NULs on the right. *)
Definition nul_padded (n : nat) (l : bytes) : bytes := l ++ repeat 0 (n - length l).
(** Text without NULs at the end. *)
Definition trimmed (l : bytes) : Prop := l = [] \/ exists r x, l = r ++ [x] /\ x <> 0.

(** A flash header as it stands in a file: 8 bytes of signature, 2 of revision, flag, object
    type, 4 of date, the length of the name, the name in 31 bytes, the devices in
    25 bytes, product ID, size of the data, data, and what follows (a checksum or
    nothing). *)
Record image := Image {
  i_magic : bytes; i_revision : bytes; i_flag : Z; i_object : Z; i_date : bytes; i_name_length : Z;
  i_name : bytes; i_devices : bytes; i_product : Z; i_data : bytes; i_tail : bytes }.
Definition image_head (i : image) : bytes :=
  i_magic i ++ i_revision i ++ [i_flag i; i_object i] ++ i_date i ++ [i_name_length i] ++
  nul_padded 31 (i_name i) ++ nul_padded 25 (i_devices i) ++ [i_product i].
Definition image_bytes (i : image) : bytes :=
  image_head i ++ le32 (zlen (i_data i)) ++ i_data i ++ i_tail i.
Definition image_ok (i : image) : Prop :=
  length (i_magic i) = 8%nat /\ length (i_revision i) = 2%nat /\ length (i_date i) = 4%nat /\
  (length (i_name i) <= 31)%nat /\ trimmed (i_name i) /\
  (2 <= length (i_devices i) <= 25)%nat /\ trimmed (skipn 2 (i_devices i)) /\ wf_bytes (i_devices i) /\
  zlen (i_data i) < 2 ^ 32 /\ (length (i_tail i) = 0 \/ length (i_tail i) = 2)%nat.
(** The sum of the data modulo 65536, as two bytes. *)
Fixpoint total (l : bytes) : Z := match l with [] => 0 | b :: r => b + total r end.
Definition data_sum (l : bytes) : bytes := [total l mod 256; total l / 256 mod 256].

(** The class a header of type [t] is meant to have. *)
Definition class_of_type (t : Z) : option fcls :=
  match t with 35 => Some FOperatingSystem | 36 => Some FApp | 37 => Some FCertificate | 62 => Some FLicense | _ => None end.

(** What a reader of class [c] has to complain about in an image, in order. *)
Definition image_warnings (c : fcls) (i : image) : list warning :=
  let dev := nth 0 (i_devices i) 0 in let ty := nth 1 (i_devices i) 0 in
  (if leqb (i_magic i) (s2l "**TIFL**") then [] else [WFlashMagic]) ++
  (if i_name_length i =? zlen (i_name i) then [] else [WFlashName]) ++
  (if (dev =? 115) || (dev =? 116) || (dev =? 136) || (dev =? 152) then [] else [WFlashDevice]) ++
  match c with
  | FHeader => []
  | _ => match class_of_type ty with
         | Some c' => if match c, c' with
                         | FOperatingSystem, FOperatingSystem | FApp, FApp | FCertificate, FCertificate
                         | FLicense, FLicense => true
                         | _, _ => false
                         end then [] else [WFlashType]
         | None => [WFlashType]
         end
  end ++
  (if leqb (i_tail i) [] || leqb (i_tail i) (data_sum (i_data i)) then [] else [WChecksum]) ++
  match c with
  | FHeader => match class_of_type ty with
               | Some _ => [] | None => if ty =? 255 then [WTypeFF] else [WTypeUnknown]
               end
  | _ => []
  end.
(** The header object an image stands for. *)
Definition image_header (c : fcls) (has : bool) (i : image) : fheader :=
  FH (match c with
      | FHeader => match class_of_type (nth 1 (i_devices i) 0) with Some c' => c' | None => FHeader end
      | _ => c
      end)
     (i_magic i) (i_revision i) [i_flag i] [i_object i] (i_date i) (i_name i) (i_devices i) [i_product i] (i_data i)
     (match i_tail i with [] => false | _ => has end).

(** Upper-case hexadecimal text. *)
Definition hex_char (d : Z) : Z := nth (Z.to_nat d) (s2l "0123456789ABCDEF") 0.
Definition hex_text (l : bytes) : bytes := flat_map (fun b => [hex_char (b / 16); hex_char (b mod 16)]) l.
(** A record of an Intel HEX file: colon, length, address, type, payload, and last
    the given check byte. *)
Definition intel_line (address type : Z) (payload : bytes) (check : Z) : bytes :=
  58 :: hex_text (zlen payload :: address / 256 :: address mod 256 :: type :: payload ++ [check]).
(** The check byte that makes the sum of the record vanish modulo 256. *)
Definition intel_check (address type : Z) (payload : bytes) : Z :=
  (- (zlen payload + address / 256 + address mod 256 + type + total payload)) mod 256.
Definition intel_ok (address type : Z) (payload : bytes) : Prop :=
  0 <= address < 65536 /\ is_byte type /\ wf_bytes payload /\ zlen payload < 256.
(** The block meant by such a record. *)
Definition intel_block (address type : Z) (payload : bytes) : block :=
  Block (hex_text [address / 256; address mod 256]) (hex_text [type]) (Some (hex_text payload)).

(** A binary-coded decimal byte. *)
Definition bcd1 (n : Z) : Z := 16 * (n / 10) + n mod 10.
(** Plain decimal text of a number below 100. *)
Definition dec2 (n : Z) : str := if n <? 10 then [48 + n] else [48 + n / 10; 48 + n mod 10].

(** A file: header images one after another. *)
Definition flash_file (l : list image) : bytes := concat (map image_bytes l).
Definition tifl : bytes := s2l "**TIFL**".
