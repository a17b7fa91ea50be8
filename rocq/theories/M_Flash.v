(** Model of /repo/tivars/flash.py and types/flash.py. *)
From Verif Require Import PyBase M_Data M_Numeric M_Flags M_Models M_Class M_Var M_List.

(** * Converters *)

(** [DeviceType._all].  flash.py:25-36. *)
Definition device_types : list Z := [115; 116; 136; 152].

(** [BCDDate.get].  flash.py:48-57. *)
Definition date_get (d : bytes) : Z * Z * Z :=
  (bcd_get (py_slice d (Some 0) (Some 1)), bcd_get (py_slice d (Some 1) (Some 2)), bcd_get (py_slice d (Some 2) (Some 4))).
(** [BCDDate.set].  flash.py:59-68. *)
Definition date_set (v : Z * Z * Z) (length : option nat) : result bytes :=
  let '(d, m, y) := v in bcd_set (d * 100 ^ 3 + m * 100 ^ 2 + y) length.

(** [s.split(".")]. *)
Fixpoint split_dot (s cur : str) : list str :=
  match s with
  | [] => [rev cur]
  | c :: r => if c =? 46 then rev cur :: split_dot r [] else split_dot r (c :: cur)
  end.
(** [BCDRevision.get].  flash.py:80-89. *)
Definition revision_get (d : bytes) : str :=
  str_of_int (bcd_get (py_slice d (Some 0) (Some 1))) ++ [46] ++ str_of_int (bcd_get (py_slice d (Some 1) (Some 2))).
(** [BCDRevision.set]; unpacking anything but two pieces is a ValueError.
    flash.py:91-101.  Simplification: [int] of text with white space around
    the digits, or with digits outside ASCII, counts as an error here. *)
Definition revision_set (s : str) (length : option nat) : result bytes :=
  match split_dot s [] with
  | [major; minor] =>
      try a := parse_int 10 major in
      try b := parse_int 10 minor in
      bcd_set (100 * a + b) length
  | _ => Err ValueError
  end.

(** [FlashDevices.get]: pairs; an odd byte at the end is dropped.
    flash.py:115-124. *)
Fixpoint devices_get (d : bytes) : list (Z * Z) :=
  match d with a :: b :: r => (a, b) :: devices_get r | _ => [] end.
(** [FlashDevices.set].  flash.py:126-135. *)
Definition devices_set (v : list (Z * Z)) : result bytes :=
  bytes_of (flat_map (fun p => [fst p; snd p]) v).

(** * Intel blocks *)

(** ASCII white space as skipped by [int] and [bytes.fromhex]. *)
Definition ascii_space (c : Z) : bool := ((9 <=? c) && (c <=? 13)) || (c =? 32).
(** Value of a hexadecimal digit. *)
Definition hex_val (c : Z) : option Z :=
  match digit_val c with Some d => if d <? 16 then Some d else None | None => None end.
(** [int(b.decode(), 16)] for at most two bytes, as [read(2)] returns: two digits, or one
    with white space beside it or a sign before it, or one digit of the Arabic,
    extended Arabic and NKo blocks, whose UTF-8 encoding takes two bytes.
    flash.py:264. *)
Definition int16 (l : bytes) : result Z :=
  match l with
  | [a] =>
      if 128 <=? a then Err UnicodeDecodeError
      else match hex_val a with Some x => Ok x | None => Err ValueError end
  | [a; b] =>
      if (128 <=? a) || (128 <=? b) then
        if (a =? 217) && (160 <=? b) && (b <=? 169) then Ok (b - 160)
        else if (a =? 219) && (176 <=? b) && (b <=? 185) then Ok (b - 176)
        else if (a =? 223) && (128 <=? b) && (b <=? 137) then Ok (b - 128)
        else if (194 <=? a) && (a <=? 223) && (128 <=? b) && (b <=? 191) then Err ValueError
        else Err UnicodeDecodeError
      else
        match hex_val a, hex_val b with
        | Some x, Some y => Ok (16 * x + y)
        | Some x, None => if ascii_space b then Ok x else Err ValueError
        | None, Some y =>
            if ascii_space a || (a =? 43) then Ok y else if a =? 45 then Ok (- y) else Err ValueError
        | None, None => Err ValueError
        end
  | _ => Err ValueError
  end.
(** [bytes.fromhex(b.decode())]: white space between bytes is skipped.  A failed
    [decode] (UnicodeDecodeError, a kind of ValueError) is shown as ValueError. *)
Fixpoint fromhex (l : bytes) : result bytes :=
  match l with
  | [] => Ok []
  | a :: r =>
      if ascii_space a then fromhex r
      else match r with
           | [] => Err ValueError
           | b :: r' =>
               match hex_val a, hex_val b with
               | Some x, Some y => try t := fromhex r' in Ok (16 * x + y :: t)
               | _, _ => Err ValueError
               end
           end
  end.
(** [f"{n:02X}".encode()] for a non-negative integer. *)
Fixpoint hex_fuel (fuel : nat) (n : Z) (acc : bytes) : bytes :=
  match fuel with
  | O => acc
  | S f => if n <? 16 then hex_digit n :: acc else hex_fuel f (n / 16) (hex_digit (n mod 16) :: acc)
  end.
Definition hex_fmt (n : Z) : bytes :=
  if n <? 256 then hex_byte n else hex_fuel (S (Z.to_nat (Z.log2 n))) n [].

(** [TIFlashBlock]: the [data] slot is not set ([None]) when a block is made without
    data.  flash.py:138-210. *)
Record block := Block { k_address : bytes; k_type : bytes; k_data : option bytes }.
(** [TIFlashBlock(address=..., block_type=..., data=...)].  flash.py:185-210,
    220-236. *)
Definition block_new (address ty data : bytes) : out block :=
  do a := section_set_raw (Some 4%nat) (oret address) in
  do t := section_set_raw (Some 2%nat) (oret ty) in
  oret (Block a t (match data with [] => None | _ => Some data end)).
(** [Raw.size].  flash.py:170-176. *)
Definition block_size (k : block) : result bytes :=
  match k_data k with Some d => Ok (hex_fmt (zlen d / 2)) | None => Err AttributeError end.
(** The reading of the [data] slot. *)
Definition block_data (k : block) : result bytes :=
  match k_data k with Some d => Ok d | None => Err AttributeError end.
(** [Raw.checksum].  flash.py:159-168. *)
Definition block_checksum (k : block) : result bytes :=
  try n := block_size k in
  try d := block_data k in
  try l := fromhex (n ++ k_address k ++ k_type k ++ d) in
  Ok (hex_byte (Z.land (- zsum l) 255)).
(** [Raw.bytes].  flash.py:178-183, 286-291. *)
Definition block_bytes (k : block) : result bytes :=
  try n := block_size k in
  try d := block_data k in
  try c := block_checksum k in
  Ok ([58] ++ n ++ k_address k ++ k_type k ++ d ++ c).
(** [TIFlashBlock.load_bytes].  flash.py:249-284.  [read] of a negative number of bytes
    reads the rest. *)
Definition block_load (input : bytes) : out block :=
  let l := skipn 1 input in
  let '(n, l) := rd 2 l in
  do n := olift (int16 n) in
  let size := 2 * n in
  let '(a, l) := rd 4 l in
  let '(t, l) := rd 2 l in
  do _ := owarn_if (negb (existsb (leqb t) [[48; 48]; [48; 49]; [48; 50]])) WFlashBlockType in
  let '(d, l) := if size <? 0 then (l, []) else rd (Z.to_nat size) l in
  do _ := owarn_if (negb (zlen d =? size)) WDataLength in
  let '(c, _) := rd 2 l in
  let k := Block a t (Some d) in
  do c' := olift (block_checksum k) in
  do _ := owarn_if (negb (leqb c c')) WChecksum in
  oret k.

(** [data.split(b"\r\n")].  flash.py:315. *)
Fixpoint split_lines (s cur : bytes) : list bytes :=
  match s with
  | [] => [rev cur]
  | a :: r =>
      match r with
      | b :: r' => if (a =? 13) && (b =? 10) then rev cur :: split_lines r' [] else split_lines r (a :: cur)
      | [] => split_lines r (a :: cur)
      end
  end.
(** [b"\r\n".join(...)].  flash.py:331. *)
Fixpoint join_lines (l : list bytes) : bytes :=
  match l with [] => [] | [x] => x | x :: r => x ++ [13; 10] ++ join_lines r end.

(** * Flash headers *)

(** The header classes with their type IDs, and the registry.  flash.py:349-350,
    446-450, 566-575, 605-614; types/flash.py:11, 25, 28, 40, 43, 57, 60, 76. *)
Inductive fcls := FHeader | FOperatingSystem | FApp | FCertificate | FLicense.
Definition flash_type_id (c : fcls) : option Z :=
  match c with
  | FHeader => None | FOperatingSystem => Some 35 | FApp => Some 36
  | FCertificate => Some 37 | FLicense => Some 62
  end.
Definition flash_get_type (t : Z) : option fcls :=
  if t =? 35 then Some FOperatingSystem else if t =? 36 then Some FApp
  else if t =? 37 then Some FCertificate else if t =? 62 then Some FLicense else None.

(** [TIFlashHeader]: class, raw slots, [_has_checksum].  flash.py:337-444. *)
Record fheader := FH {
  h_cls : fcls; h_magic : bytes; h_revision : bytes; h_flag : bytes; h_object : bytes;
  h_date : bytes; h_name : bytes; h_devices : bytes; h_product : bytes; h_data : bytes;
  h_check : bool }.

(** [name_length], [calc_data_size], [checksum].  flash.py:366-390. *)
Definition h_name_length (h : fheader) : Z := zlen (rstrip0 (h_name h)).
Definition h_checksum (h : fheader) : result bytes := to_bytes_le (Z.land (zsum (h_data h)) 65535) 2.
(** [Raw.bytes].  flash.py:392-399. *)
Definition h_raw_bytes (h : fheader) : result bytes :=
  try n := byte_of (h_name_length h) in
  try s := to_bytes_le (zlen (h_data h)) 4 in
  try c := h_checksum h in
  Ok (h_magic h ++ h_revision h ++ h_flag h ++ h_object h ++ h_date h ++ n ++ h_name h ++ zeros 23 ++
      h_devices h ++ zeros 23 ++ h_product h ++ s ++ h_data h ++ c).
(** [bytes()].  flash.py:735-740. *)
Definition h_bytes (h : fheader) : result bytes :=
  try b := h_raw_bytes h in
  Ok (if h_check h then b else py_slice b None (Some (-2))).
(** [__len__].  flash.py:452-457.  (For 2^32 bytes of data and more the size property
    raises; not shown here.) *)
Definition h_len (h : fheader) : Z := 78 + zlen (h_data h) + 2 * (if h_check h then 1 else 0).
(** [device_type], [type_id].  flash.py:512-522. *)
Definition h_device_type (h : fheader) : result Z :=
  section_get (enum_get (view_get (View (Some 0) (Some 1)) (Buf false (h_devices h)))).
Definition h_type_id (h : fheader) : result Z :=
  section_get (bits_get 0 8 (view_get (View (Some 1) (Some 2)) (Buf false (h_devices h)))).
(** [binary_flag].  flash.py:471-475. *)
Definition h_binary_flag (h : fheader) : result Z := section_get (bits_get 0 8 (h_flag h)).

(** The constructor without [init] (or with one that is ignored because [data] is
    not empty, as by default).  flash.py:401-444; sections 459-531. *)
Definition h_new (c : fcls) (magic revision : str) (binary_format : bool) (object_type : Z)
    (date : Z * Z * Z) (name : str) (device_type product_id : Z) (data : bytes) : out fheader :=
  do m := section_set_raw (Some 8%nat) (olift (string_set magic)) in
  do r := section_set_raw (Some 2%nat) (olift (revision_set revision (Some 2%nat))) in
  do f := section_set_raw (Some 1%nat) (bits_set 0 8 (if binary_format then 0 else 1) None) in
  do o := section_set_raw (Some 1%nat) (bits_set 0 8 object_type None) in
  do d := section_set_raw (Some 4%nat) (olift (date_set date (Some 4%nat))) in
  do n := section_set_raw (Some 31%nat) (olift (string_set name)) in
  do v := section_set_raw None (olift (devices_set [(device_type, match flash_type_id c with Some t => t | None => 255 end)])) in
  do p := section_set_raw (Some 1%nat) (bits_set 0 8 product_id None) in
  oret (FH c m r f o d n v p data true).

(** [coerce].  flash.py:794-812. *)
Definition h_coerce (h : fheader) : out fheader :=
  match flash_type_id (h_cls h) with
  | Some _ => oret h
  | None =>
      do t := olift (h_type_id h) in
      match flash_get_type t with
      | Some c => oret (FH c (h_magic h) (h_revision h) (h_flag h) (h_object h) (h_date h) (h_name h)
                           (h_devices h) (h_product h) (h_data h) (h_check h))
      | None => do _ := owarn (if t =? 255 then WTypeFF else WTypeUnknown) in oret h
      end
  end.

(** [load_bytes] into a header of class [c] whose [_has_checksum] is [has]: it
    overwrites every raw slot.  flash.py:654-733. *)
Definition h_load (c : fcls) (has : bool) (input : bytes) : out fheader :=
  let '(magic, l) := rd 8 input in
  do _ := owarn_if (negb (leqb (string_get magic) (s2l "**TIFL**"))) WFlashMagic in
  let '(revision, l) := rd 2 l in
  let '(flag, l) := rd 1 l in
  let '(object, l) := rd 1 l in
  let '(date, l) := rd 4 l in
  let '(nl, l) := rd 1 l in
  do nl := olift (py_index nl 0) in
  let '(name, l) := rd 31 l in
  let name := rstrip0 name in
  do _ := owarn_if (negb (nl =? zlen (rstrip0 name))) WFlashName in
  let '(d0, l) := rd 1 l in
  do dt := olift (h_device_type (FH c magic revision flag object date name d0 [] [] has)) in
  do _ := owarn_if (negb (memb dt device_types)) WFlashDevice in
  let '(d1, l) := rd 1 l in
  do _ := match flash_type_id c with
          | None => oret tt
          | Some own =>
              do t := olift (h_type_id (FH c magic revision flag object date name (d0 ++ d1) [] [] has)) in
              owarn_if (negb (t =? own)) WFlashType
          end in
  let '(dr, l) := rd 23 l in
  let devices := d0 ++ d1 ++ rstrip0 dr in
  let '(product, l) := rd 1 l in
  let '(sz, l) := rd 4 l in
  let '(data, l) := rd (Z.to_nat (le_int sz)) l in
  do _ := owarn_if (negb (zlen data =? le_int sz)) WFlashSize in
  let '(ck, _) := rd 2 l in
  let h := FH c magic revision flag object date name devices product data has in
  match ck with
  | [] => h_coerce (FH c magic revision flag object date name devices product data false)
  | _ =>
      do c' := olift (h_checksum h) in
      do _ := owarn_if (negb (leqb ck c')) WChecksum in
      h_coerce h
  end.
(** [TIFlashHeader(init, data=b'', ...)]: construction, loading, and then
    [_has_checksum] is set again.  flash.py:434-444.  Without an [init] and with empty
    data the [calc_data] slot stays unset; that case is not modelled. *)
Definition h_init (c : fcls) (input : bytes) : out fheader :=
  do h := h_load c true input in
  oret (FH (h_cls h) (h_magic h) (h_revision h) (h_flag h) (h_object h) (h_date h) (h_name h)
           (h_devices h) (h_product h) (h_data h) true).

(** [data]: blocks when the binary flag is 1, bytes otherwise.  flash.py:294-334,
    547-554. *)
Inductive fdata := DBlocks (l : list block) | DRaw (b : bytes).
Definition fdata_get (h : fheader) : out fdata :=
  do f := olift (h_binary_flag h) in
  if f =? 1 then do l := omapM block_load (split_lines (h_data h) []) in oret (DBlocks l)
  else oret (DRaw (h_data h)).
Definition fdata_set (h : fheader) (v : fdata) : result bytes :=
  try f := h_binary_flag h in
  match v with
  | DBlocks l => if f =? 1 then try bs := rmapM block_bytes l in Ok (join_lines bs) else Err TypeError
  | DRaw b => if (f =? 1) && negb (leqb b []) then Err AttributeError else Ok b
  end.
(** [header.data = v]: the view writes into the [calc_data] slot, which always holds
    an immutable [bytes] object (data.py:89-98; flash.py:434-435, 541, 716).  [block.bytes()]
    fails on raw bytes, and a list is no [bytes]. *)
Definition fdata_assign (h : fheader) (v : fdata) : out fheader :=
  do b := view_set None (View None None) (olift (fdata_set h v)) (Buf false (h_data h)) in
  oret (FH (h_cls h) (h_magic h) (h_revision h) (h_flag h) (h_object h) (h_date h) (h_name h)
           (h_devices h) (h_product h) (b_data b) (h_check h)).

(** [next_header_length] on a BytesIO: the length, and the stream afterwards.
    flash.py:577-603. *)
Definition next_header_length (s : stream) : Z * stream :=
  let s := st_seek 74 s in
  let '(b, s) := st_read 4 s in
  let size := le_int b in
  let s := st_seek size s in
  let '(r, s) := st_read 8 s in
  let '(n, s) := match r with
                 | [] => (78 + size, s)
                 | _ => if leqb r (s2l "**TIFL**") then (78 + size, st_seek (-8) s)
                        else (78 + size + 2, st_seek (- zlen r) s)
                 end in
  (n, st_seek (-78 - size) s).
(** [load_from_file]: the bytes handed to [load_bytes].  flash.py:742-756. *)
Fixpoint select_header (offset : nat) (s : stream) : bytes :=
  let '(n, s) := next_header_length s in
  match offset with
  | O => fst (st_read (Z.to_nat n) s)
  | S k => select_header k (st_seek n s)
  end.

(** [open], given the contents of the file: the header, with a warning about
    data behind it.  flash.py:758-781.  The file is a buffered reader, not a BytesIO: the
    last [seek] of [next_header_length] would go below zero, which is an OSError, when
    the file ends before the size word does. *)
Definition h_open (c : fcls) (has : bool) (file : bytes) : out fheader :=
  do _ := (if zlen file <? 78 then oerr OSError else oret tt) in
  let '(n, s) := next_header_length (Stream file 0) in
  let '(b, s) := st_read (Z.to_nat n) s in
  do h := h_load c has b in
  do _ := match st_rest s with
          | [] => oret tt
          | r => owarn (if starts_with (s2l "**TIFL**") r then WMultiple else WDataLength)
          end in
  oret h.

(** [extensions].  flash.py:344; types/flash.py:16-23, 33-38, 50-55, 67-74. *)
Definition flash_extensions (c : fcls) : list (option model * str) :=
  match c with
  | FHeader => [(None, s2l "8ek")]
  | FOperatingSystem | FLicense =>
      [(None, s2l "8eu"); (Some TI_82A, s2l "82u"); (Some TI_84PCSE, s2l "8cu"); (Some TI_84PCE, s2l "8eu");
       (Some TI_83PCE, s2l "8pu"); (Some TI_82AEP, s2l "8yu")]
  | FApp =>
      [(None, s2l "8ek"); (Some TI_83P, s2l "8xk"); (Some TI_84PCSE, s2l "8ck"); (Some TI_84PCE, s2l "8ek")]
  | FCertificate =>
      [(None, s2l "8eq"); (Some TI_83P, s2l "8xq"); (Some TI_84PCSE, s2l "8cq"); (Some TI_84PCE, s2l "8eq")]
  end.
Section Ext.
  (** The position of a model in the order of the token sheets (not in the pinned
      tree). *)
  Variable order : model -> Z.
  (** [extension].  flash.py:616-640.  The loop tests whether [model] itself is a
      key. *)
  Definition flash_extension (c : fcls) (m : model) : out str :=
    let exts := flash_extensions c in
    do f := olift (has m Flash) in
    do _ := owarn_if (negb f) WModel in
    do x := (if existsb (fun k => match ext_get exts (Some m) with Some _ => model_le order k m | None => false end) (rev MODELS)
             then olift (lookup_ext exts (Some m)) else oret []) in
    match x with
    | [] => do _ := owarn WExtension in olift (lookup_ext exts None)
    | _ => oret x
    end.
  (** [filename].  flash.py:642-652. *)
  Definition flash_filename (h : fheader) (m : model) : out str :=
    do x := flash_extension (h_cls h) m in oret (string_get (h_name h) ++ [46] ++ x).
End Ext.
