(** Model of /repo/tivars/var.py: headers, entries, var files, and the
    [coerce] methods of the entry classes. *)
From Verif Require Import PyBase M_Data M_Flags M_Models M_Class.

(** [stream.read(n)] on the rest of a stream. *)
Definition rd (n : nat) (l : bytes) : bytes * bytes := (firstn n l, skipn n l).

(** * Headers *)

(** [TIHeader.Raw].  var.py:35-53. *)
Record header := Header { h_magic : bytes; h_extra : bytes; h_product : bytes; h_comment : bytes }.
(** [TIHeader.Raw.bytes].  var.py:48-53, 212-217. *)
Definition header_bytes (h : header) : bytes :=
  h_magic h ++ h_extra h ++ h_product h ++ h_comment h.
(** [TIHeader.__len__].  var.py:127-132. *)
Definition header_len : nat := 53.

(** [TIHeader.__init__] without [data].  var.py:55-77; the sections are
    magic(8, String), extra(2), product_id(1, Bits[:]), comment(42, String),
    var.py:134-162.  [magic or model.magic]: an empty string counts as absent. *)
Definition header_new (m : option model) (magic : option str) (extra : bytes)
    (product : option Z) (comment : str) : out header :=
  let md := match m with Some x => x | None => TI_83P end in
  let mg := match magic with Some ((_ :: _) as s) => s | _ => model_magic md end in
  let pr := match product with Some p => p | None => model_product_id md end in
  do a := section_set_raw (Some 8%nat) (olift (string_set mg)) in
  do b := section_set_raw (Some 2%nat) (oret extra) in
  do c := section_set_raw (Some 1%nat) (bits_set 0 8 pr None) in
  do d := section_set_raw (Some 42%nat) (olift (string_set comment)) in
  oret (Header a b c d).
(** The default arguments of [TIHeader.__init__].  var.py:55-58. *)
Definition default_extra : bytes := [26; 10].
Definition default_comment : str := s2l "Created with tivars_lib_py v0.9.2".
Definition header_default (m : option model) : out header :=
  header_new m None default_extra None default_comment.

(** [TIHeader.load_bytes] on a byte string.  var.py:188-210. *)
Definition header_load (data : bytes) : header :=
  let d := ljust header_len data in
  let '(a, d) := rd 8 d in
  let '(b, d) := rd 2 d in
  let '(c, d) := rd 1 d in
  let '(e, d) := rd 42 d in
  Header a b c e.
(** [TIHeader.load_bytes]: the argument is a byte string or has a [read]
    method; in the latter case the freshly made BytesIO has no [ljust].
    var.py:195-198. *)
Inductive source := FromBytes (b : bytes) | FromStream (s : stream).
Definition header_load_any (s : source) : result header :=
  match s with
  | FromBytes b => Ok (header_load b)
  | FromStream _ => Err AttributeError
  end.

(** [TIHeader.magic], [TIHeader.product_id] getters.  var.py:134-156. *)
Definition header_magic (h : header) : str := string_get (h_magic h).
Definition header_product_id (h : header) : result Z := section_get (bits_get 0 8 (h_product h)).

(** [TIHeader.targets]: a set, represented by the sublist of [MODELS].
    var.py:164-186. *)
Definition header_targets (h : header) : result (list model) :=
  let models := filter (fun m => leqb (model_magic m) (header_magic h)) MODELS in
  try p := header_product_id h in
  let filtered := filter (fun m => model_product_id m =? p) models in
  if negb (p =? 0) && negb (match filtered with [] => true | _ => false end) then Ok filtered
  else match models with [] => Err ValueError | _ => Ok models end.

(** * Entries *)

(** [TIEntry.Raw] plus the class of the entry.  var.py:294-307. *)
Record entry := Entry {
  e_cls : cls;
  e_meta : bytes; e_type : bytes; e_name : bytes;
  e_version : bytes; e_archived : bytes;
  e_data : buffer }.

Definition with_cls (e : entry) c := Entry c (e_meta e) (e_type e) (e_name e) (e_version e) (e_archived e) (e_data e).
Definition with_meta (e : entry) x := Entry (e_cls e) x (e_type e) (e_name e) (e_version e) (e_archived e) (e_data e).
Definition with_type (e : entry) x := Entry (e_cls e) (e_meta e) x (e_name e) (e_version e) (e_archived e) (e_data e).
Definition with_name (e : entry) x := Entry (e_cls e) (e_meta e) (e_type e) x (e_version e) (e_archived e) (e_data e).
Definition with_version (e : entry) x := Entry (e_cls e) (e_meta e) (e_type e) (e_name e) x (e_archived e) (e_data e).
Definition with_archived (e : entry) x := Entry (e_cls e) (e_meta e) (e_type e) (e_name e) (e_version e) x (e_data e).
Definition with_data (e : entry) x := Entry (e_cls e) (e_meta e) (e_type e) (e_name e) (e_version e) (e_archived e) x.

(** [calc_data] as bytes.  var.py:558-562. *)
Definition calc_data (e : entry) : bytes := b_data (e_data e).
(** [meta_length] getter.  var.py:486. *)
Definition meta_length (e : entry) : Z := integer_get (e_meta e).
(** [calc_data_length].  var.py:505-511. *)
Definition calc_data_length (e : entry) : Z := zlen (calc_data e).
(** [Raw.calc_data_length].  var.py:309-315. *)
Definition raw_calc_data_length (e : entry) : result bytes := to_bytes_le (calc_data_length e) 2.
(** [flash_bytes] (both copies).  var.py:317-324, 592-598. *)
Definition flash_bytes (e : entry) : bytes :=
  py_slice (e_version e ++ e_archived e) None (Some (meta_length e - 11)).
(** [Raw.bytes].  var.py:334-341, 809-818. *)
Definition entry_bytes (e : entry) : result bytes :=
  try l := raw_calc_data_length e in
  Ok (e_meta e ++ l ++ e_type e ++ e_name e ++ flash_bytes e ++ l ++ calc_data e).
(** [TIEntry.__len__].  var.py:472-477. *)
Definition entry_len (e : entry) : Z := 2 + meta_length e + 2 + calc_data_length e.
(** [is_empty] / [__bool__].  var.py:392-397, 600-606. *)
Definition is_empty (e : entry) : bool := calc_data_length e =? 0.
(** [type_id], [version], [archived] getters.  var.py:513-556. *)
Definition type_id (e : entry) : result Z := section_get (bits_get 0 8 (e_type e)).
Definition version (e : entry) : result Z := section_get (bits_get 0 8 (e_version e)).
Definition archived (e : entry) : bool := boolean_get (e_archived e).

(** [meta_length] setter with its pre-converter, on an entry whose raw slot
    [meta_length] is set ([Some]) or not yet ([None], as in [__init__]).
    Reading the unset slot raises AttributeError.  var.py:486-503. *)
Definition meta_convert (c : cls) (cur : option bytes) (v : Z) : out bytes :=
  do _ := (if v =? 11 then
             match cur with
             | None => oerr AttributeError
             | Some m =>
                 do _ := owarn_if (leqb m [13; 0]) WMetaLost in
                 owarn_if (flash_only c) WFlashOnly
             end
           else oret tt) in
  section_set_raw (Some 2%nat) (olift (integer_set v (Some 2%nat))).
Definition set_meta_length (e : entry) (v : Z) : out entry :=
  do b := meta_convert (e_cls e) (Some (e_meta e)) v in oret (with_meta e b).
(** [type_id] setter.  var.py:513-519. *)
Definition set_type_id (e : entry) (v : Z) : out entry :=
  do b := section_set_raw (Some 1%nat) (bits_set 0 8 v (Some (e_type e))) in oret (with_type e b).
(** [version] setter with its pre-converter.  var.py:529-542. *)
Definition set_version (e : entry) (v : Z) : out entry :=
  do _ := owarn_if (meta_length e =? 11) WFlashless in
  do b := section_set_raw (Some 1%nat) (bits_set 0 8 v (Some (e_version e))) in
  oret (with_version e b).
(** [archived] setter with its pre-converter.  var.py:544-556. *)
Definition set_archived (e : entry) (v : bool) : out entry :=
  do _ := owarn_if (meta_length e =? 11) WFlashless in
  do b := section_set_raw (Some 1%nat) (oret (boolean_set v)) in
  oret (with_archived e b).
(** [archive], [unarchive].  var.py:657-665, 708-716. *)
Definition archive (e : entry) : out entry :=
  match flash_bytes e with [] => oerr TypeError | _ => set_archived e true end.
Definition unarchive (e : entry) : out entry :=
  match flash_bytes e with [] => oerr TypeError | _ => set_archived e false end.

(** [calc_data] setter: the [Bytes] converter stores an immutable object.
    var.py:558 with data.py:89-98, 390-391, 409-420. *)
Definition set_calc_data (e : entry) (v : bytes) : out entry :=
  do b := section_set_bytes (option_map Z.to_nat (calc_length (e_cls e))) v in
  oret (with_data e b).

(** The [data] view of each class: its slice and converter.  var.py:564,
    1316; list.py:130; matrix.py:107; picture.py:419-421 (3:).  All of them view an
    unbounded [calc_data] section (real and settings classes inherit the view
    of [TIEntry] / [SizedEntry]). *)
Inductive data_conv := DData | DSized | DBytes.
Definition data_view (c : cls) : view * data_conv :=
  match c with
  | KEntry | KRealEntry | KGraphReal | KReal | KUndefReal | KRealFraction | KRealRadical
  | KRealPi | KRealPiFraction | KComplexEntry | KComplex | KComplexFraction
  | KComplexRadical | KComplexPi | KComplexPiFraction => (View None None, DData)
  | KList | KRealList | KComplexList | KMatrix => (View (Some 2) None, DBytes)
  | KImage => (View (Some 3) None, DSized)
  | _ => (View (Some 2) None, DSized)
  end.
(** [self.data].  *)
Definition data (e : entry) : bytes := view_get (fst (data_view (e_cls e))) (e_data e).
(** The [length] view of sized entries, integers at [0:2]; TIGraphedEquation
    overrides it with [1:3].  var.py:1310; gdb.py:273. *)
Definition length_view (c : cls) : view :=
  match c with KGraphedEquation => View (Some 1) (Some 3) | _ => View (Some 0) (Some 2) end.
Definition length_field (e : entry) : Z := integer_get (view_get (length_view (e_cls e)) (e_data e)).
Definition set_length_field (e : entry) (v : Z) : out entry :=
  do b := view_set None (length_view (e_cls e)) (olift (integer_set v (Some 2%nat))) (e_data e) in
  oret (with_data e b).

(** [clear].  var.py:667-673 (TIEntry), 1320-1323 (SizedEntry); real.py:136-140;
    complex.py:247-251.  [bytearray(n)] with a negative [n] is a ValueError. *)
Definition base_clear (e : entry) : out entry :=
  let lead := leading_data_bytes (e_cls e) in
  let n := min_data_length (e_cls e) - zlen lead in
  if n <? 0 then oerr ValueError
  else oret (with_data e (Buf true (lead ++ zeros (Z.to_nat n)))).
Definition sized_clear (e : entry) : out entry :=
  let lead := leading_data_bytes (e_cls e) in
  let n := min_data_length (e_cls e) - (2 + zlen lead) in
  if n <? 0 then oerr ValueError
  else
    let e := with_data e (Buf true ([0; 0] ++ lead ++ zeros (Z.to_nat n))) in
    set_length_field e (zlen lead + zlen (data e)).
(** Writing a bit field of a one-byte view [i:i+1] of [calc_data] (real.py:98-118,
    complex.py:191-229); [target] is the length of the viewed section. *)
Definition set_bits_at (target : option Z) (i : Z) (a b : nat) (v : Z) (buf : buffer) : out buffer :=
  let vw := View (Some i) (Some (i + 1)) in
  view_set target vw (bits_set a b v (Some (view_get vw buf))) buf.
Definition get_bits_at (i : Z) (a b : nat) (buf : buffer) : result Z :=
  section_get (bits_get a b (view_get (View (Some i) (Some (i + 1))) buf)).
Definition real_clear (e : entry) : out entry :=
  do e := base_clear e in
  match type_id_of (e_cls e) with
  | None => oret e
  | Some t => do b := set_bits_at (Some 9) 0 0 6 t (e_data e) in oret (with_data e b)
  end.
Definition complex_clear (e : entry) : out entry :=
  do e := base_clear e in
  do b := set_bits_at (Some 18) 0 0 6 12 (e_data e) in
  let t := match type_id_of (e_cls e) with Some t => t | None => 12 end in
  do b := set_bits_at (Some 18) 9 0 6 t b in
  oret (with_data e b).
Definition clear (e : entry) : out entry :=
  if issubclass (e_cls e) KSized then sized_clear e
  else if issubclass (e_cls e) KRealEntry then real_clear e
  else if issubclass (e_cls e) KComplexEntry then complex_clear e
  else base_clear e.

(** [TIEntry.next_entry_length].  var.py:627-644. *)
Definition next_entry_length (s : stream) : out (Z * stream) :=
  let '(a, s) := st_read 2 s in
  let '(b, s) := st_read 2 s in
  let s := st_seek (-4) s in
  let m := le_int a in
  do _ := owarn_if (negb ((m =? 11) || (m =? 13))) WMetaLength in
  oret (2 + m + 2 + le_int b, s).

(** [TIGraphedEquation.load_data_section] on the rest of a stream: the stored
    bytes and what remains.  gdb.py:287-290. *)
Definition eq_section (l : bytes) : bytes * bytes :=
  let '(f, l) := rd 1 l in
  let '(n, l) := rd 2 l in
  let '(d, l) := rd (Z.to_nat (le_int n)) l in
  (f ++ n ++ d, l).
Fixpoint skip_equations (n : nat) (l : bytes) : bytes :=
  match n with O => l | S m => skip_equations m (snd (eq_section l)) end.
(** [TIMonoGDB.offset].  gdb.py:520-526. *)
Definition gdb_offset (c : cls) : Z := 61 + 9 * Z.of_nat (num_parameters c).
(** [TIMonoGDB.get_color_data] without argument.  gdb.py:536-549. *)
Definition get_color_data (c : cls) (d : bytes) : bytes :=
  skip_equations (num_equations c) (py_slice d (Some (gdb_offset c + Z.of_nat (num_styles c))) None).
(** [mode_id].  gdb.py:438. *)
Definition gdb_mode_id (d : bytes) : Z := integer_get (py_slice d (Some 3) (Some 4)).

Section Entries.
  (** What depends on the token sheets or on a class's own methods:
      - [name_set c s]: the bytes the [name] converter of class [c] makes of the
        text [s] (tokenizer/__init__.py:35-54, list.py:48-68, picture.py:344-354);
      - [get_version e d]: [e.get_version(d)] (var.py:685 and overrides);
      - [prog_scan d]: the text test of [TIProgram.coerce] on the program data:
        [None] if decoding warns, else whether the text ends in
        "End\n0000\nEnd" (tokenized.py:417-426). *)
  Variable name_set : cls -> str -> out bytes.
  Variable get_version : entry -> option bytes -> out Z.
  Variable prog_scan : bytes -> option bool.

  (** [self.data = v].  data.py:112-125 (Data.set), 140-145 (SizedData.set),
      489-490 (View.__set__). *)
  Definition set_data (e : entry) (v : bytes) : out entry :=
    let '(vw, conv) := data_view (e_cls e) in
    do e := match conv with DSized => set_length_field e (zlen v) | _ => oret e end in
    do e := match conv with
            | DBytes => oret e
            | _ => do ver := get_version e (Some v) in set_version e ver
            end in
    do b := view_set None vw (oret v) (e_data e) in
    oret (with_data e b).

  (** ** coerce *)

  (** [TIList.coerce].  list.py:186-203. *)
  Definition coerce_list (e : entry) : out entry :=
    match data e with
    | [] => oerr IndexError
    | x :: _ =>
        match get_type (Z.land x 31) with
        | Some c =>
            if issubclass c KRealEntry then oret (with_cls e KRealList)
            else if issubclass c KComplexEntry then oret (with_cls e KComplexList)
            else do _ := owarn WSubtype in oret e
        | None => do _ := owarn WSubtype in oret e
        end
    end.

  (** [ComplexEntry.coerce].  complex.py:346-353. *)
  Definition coerce_complex (e : entry) : out entry :=
    do t := olift (get_bits_at 9 0 6 (e_data e)) in
    do e := set_type_id e t in
    do t := olift (type_id e) in
    match get_type t with
    | Some c => oret (with_cls e c)
    | None => do _ := owarn WSubtype in oret e
    end.

  (** [b"\xEF\x68" in d and d.index(b"\xEF\x68") > 0]: it occurs, and not at
      position 0.  tokenized.py:428. *)
  Definition doors_token (d : bytes) : bool :=
    infix [239; 104] d && negb (starts_with [239; 104] d).
  Definition asm_tokens : list bytes := [[187; 109]; [239; 105]; [239; 123]].
  Definition is_tokenized (c : cls) : bool :=
    match c with KAsmProgram | KProtectedAsmProgram => false | _ => true end.
  (** [TIProgram.coerce].  tokenized.py:404-438.  On an ASM program object,
      [string()] warns first (line 406), which the "error" filter raises as a
      UserWarning that is not caught. *)
  Definition is_asm (d : bytes) : bool :=
    let '(asm83, doors) := match prog_scan d with Some b => (b, false) | None => (false, true) end in
    let doors := doors && doors_token d in
    existsb (fun t => infix t d) asm_tokens || asm83 || doors.
  Definition coerce_program (e : entry) : out entry :=
    if negb (is_tokenized (e_cls e)) then oerr UserWarningRaised
    else
      let asm := is_asm (data e) in
      do t := olift (type_id e) in
      if t =? 5 then oret (with_cls e (if asm then KAsmProgram else KProgram))
      else if t =? 6 then oret (with_cls e (if asm then KProtectedAsmProgram else KProtectedProgram))
      else oret e.

  (** [PictureEntry.coerce].  picture.py:220-226. *)
  Definition coerce_picture (e : entry) : out entry :=
    let n := length_field e + 2 in
    if n =? 758 then oret (with_cls e KMonoPicture)
    else if n =? 21947 then oret (with_cls e KTIPicture)
    else if n =? 22247 then oret (with_cls e KImage)
    else do _ := owarn WPicLength in oret e.

  (** [TIGDB.coerce].  gdb.py:809-822. *)
  Definition coerce_gdb (e : entry) : out entry :=
    let m := gdb_mode_id (calc_data e) in
    if m =? 16 then oret (with_cls e KFunc)
    else if m =? 64 then oret (with_cls e KParam)
    else if m =? 32 then oret (with_cls e KPolar)
    else if m =? 128 then oret (with_cls e KSeq)
    else do _ := owarn WGdb in oret e.
  (** [TIMonoGDB.coerce].  gdb.py:696-713. *)
  Definition coerce_mono_gdb (e : entry) : out entry :=
    match get_color_data (e_cls e) (calc_data e) with
    | _ :: _ => coerce_gdb (with_cls e KGDB)
    | [] =>
        let m := gdb_mode_id (calc_data e) in
        if m =? 16 then oret (with_cls e KMonoFunc)
        else if m =? 64 then oret (with_cls e KMonoParam)
        else if m =? 32 then oret (with_cls e KMonoPolar)
        else if m =? 128 then oret (with_cls e KMonoSeq)
        else do _ := owarn WGdb in oret e
    end.

  (** [TIGraphedEquation.coerce]: [self.flags |= EquationFlags.Selected] is a
      get, a dict update of bit 5 to 1, and a set of the view [0:1].
      gdb.py:358-361, 138-148, 265-271. *)
  Definition coerce_graphed (e : entry) : out entry :=
    do t := olift (type_id e) in
    if t =? 35 then
      let vw := View (Some 0) (Some 1) in
      do b := view_set None vw (olift (flags_set (flags_ior (flags_get (view_get vw (e_data e))) [(5, 1)])))
                       (e_data e) in
      set_type_id (with_data e b) 3
    else oret e.

  (** [coerce] of a class that has a type ID or its own method: the method found
      first along the class's bases. *)
  Definition coerce_own (e : entry) : out entry :=
    let c := e_cls e in
    if issubclass c KProgram then coerce_program e
    else if cls_eqb c KGraphedEquation then coerce_graphed e
    else if issubclass c KList then coerce_list e
    else if issubclass c KComplexEntry then coerce_complex e
    else if issubclass c KPicture then coerce_picture e
    else if issubclass c KGDB then coerce_gdb e
    else if issubclass c KMonoGDB then coerce_mono_gdb e
    else oret e.

  (** [TIEntry.coerce] for a class without type ID: look the type byte up, and
      coerce again in the class found (which has a type ID, so no further
      recursion).  var.py:962-980. *)
  Definition coerce_base (e : entry) : out entry :=
    do t := olift (type_id e) in
    match get_type t with
    | Some c => coerce_own (with_cls e c)
    | None => do _ := owarn (if t =? 255 then WTypeFF else WTypeUnknown) in oret e
    end.

  (** [entry.coerce()].  var.py:962-980; real.py:202-206 (RealEntry copies the
      subtype to the type byte first); the overrides above.  TokenizedEntry,
      SizedEntry, SettingsEntry have no own method. *)
  Definition coerce (e : entry) : out entry :=
    match e_cls e with
    | KRealEntry | KGraphReal =>
        do t := olift (get_bits_at 0 0 6 (e_data e)) in
        do e := set_type_id e t in coerce_base e
    | KEntry | KSized | KTokenized | KSettings => coerce_base e
    | _ => coerce_own e
    end.

  (** ** Construction *)

  (** [TIEntry.__init__] with [data] only (no [init]).  var.py:343-390.
      [version or 0x00], [archived or False]; [if data:] takes the empty string
      as absent. *)
  Definition entry_new (c : cls) (for_flash : bool) (name : str) (ver : option Z)
      (arch : option bool) (dat : bytes) : out entry :=
    do m := meta_convert c None (if for_flash then 13 else 11) in
    do t := section_set_raw (Some 1%nat)
              (bits_set 0 8 (match type_id_of c with Some t => t | None => 255 end) None) in
    do n := section_set_raw (Some 8%nat) (name_set c name) in
    let e := Entry c m t n [] [] (Buf true []) in
    do e := set_archived e (match arch with Some b => b | None => false end) in
    do _ := owarn_if (meta_length e =? 11) WFlashless in
    do v := section_set_raw (Some 1%nat) (bits_set 0 8 (match ver with Some v => v | None => 0 end) None) in
    let e := with_version e v in
    do e := clear e in
    do e := match dat with
            | [] => oret e
            | _ => do e := set_data e dat in coerce e
            end in
    match ver with
    | None => do v := get_version e None in set_version e v
    | Some _ => oret e
    end.
  (** [TIEntry()]: the defaults.  var.py:343-346. *)
  Definition entry_default : out entry := entry_new KEntry true (s2l "UNNAMED") None None [].

  (** ** Loading *)

  (** The type check of [load_bytes].  var.py:740-749. *)
  Definition type_check (c : cls) (t : Z) : out unit :=
    match type_id_of c with
    | None => oret tt
    | Some own =>
        if t =? own then oret tt
        else match get_type t with
             | Some sub => owarn_if (negb (issubclass sub c)) WTypeMismatch
             | None => owarn WTypeMismatch
             end
    end.

  (** [TIEntry.load_bytes] on an entry of class [c], all of whose raw slots it
      overwrites.  var.py:718-807. *)
  Definition entry_load (c : cls) (input : bytes) : out entry :=
    let d := ljust 17 input in
    let '(m, d) := rd 2 d in
    let '(dlen, d) := rd 2 d in
    let '(t, d) := rd 1 d in
    let e := Entry c m t [] [] [] (Buf true []) in
    do tid := olift (type_id e) in
    do _ := type_check c tid in
    let '(n, d) := rd 8 d in
    let e := with_name e n in
    do (ver, arch, d) :=
      (if meta_length e =? 13 then
         let '(v, d) := rd 1 d in let '(a, d) := rd 1 d in oret (v, a, d)
       else if meta_length e =? 11 then oret ([0], [0], d)
       else
         do _ := owarn WMetaLength in
         let '(v, d) := rd 1 d in let '(a, d) := rd 1 d in oret (v, a, d)) in
    let e := with_archived (with_version e ver) arch in
    do (e, d) :=
      (if (meta_length e =? 13) && leqb (ver ++ arch) dlen then
         do _ := owarn WNoFlash in
         do e := set_meta_length e 11 in
         oret (with_archived (with_version e [0]) [0], d)
       else
         do _ := owarn_if (negb (infix arch [0; 128])) WArchived in
         let '(dlen2, d) := rd 2 d in
         do _ := owarn_if (negb (leqb dlen dlen2)) WDataLengthTwo in
         oret (e, d)) in
    let len := le_int dlen in
    let e := with_data e (Buf true (firstn (Z.to_nat len) d)) in
    do _ := owarn_if (negb (calc_data_length e =? len)) WDataLength in
    do e := coerce e in
    do v := olift (version e) in
    do _ := owarn_if (negb (leqb (versions (e_cls e)) [0]) && negb (memb v (versions (e_cls e)))) WVersion in
    do _ := owarn_if ((meta_length e =? 11) && flash_only (e_cls e)) WFlashOnly in
    oret e.
  (** [SizedEntry.load_bytes].  var.py:1325-1331. *)
  Definition sized_load (c : cls) (input : bytes) : out entry :=
    do e := entry_load c input in
    do _ := owarn_if (negb (length_field e =? zlen (leading_data_bytes (e_cls e)) + zlen (data e))) WSized in
    oret e.

  (** [load_data_section] on the rest of a stream.  var.py:820-827 (TIEntry),
      1333-1335 (SizedEntry); matrix.py:148-151; gdb.py:287-290.  The result is
      the new [calc_data] and the rest of the stream; [read(None)] reads all. *)
  Definition load_data_section (c : cls) (l : bytes) : bytes * bytes :=
    match c with
    | KMatrix =>
        let '(w, l) := rd 1 l in
        let '(h, l) := rd 1 l in
        let '(x, l) := rd (Z.to_nat (le_int w * le_int h)) l in
        (w ++ h ++ x, l)
    | KGraphedEquation => eq_section l
    | _ =>
        if issubclass c KSized then
          let '(n, l) := rd 2 l in
          let '(x, l) := rd (Z.to_nat (le_int n)) l in
          (n ++ x, l)
        else match calc_length c with
             | Some k => rd (Z.to_nat k) l
             | None => (l, [])
             end
    end.

  (** * Var files *)

  (** [TIVar]: header, entries, target model (the file name is not modelled).
      var.py:990-1004. *)
  Record var := Var { v_header : header; v_entries : list entry; v_model : option model }.

  (** [TIVar.entry_length].  var.py:1058-1066. *)
  Definition entry_length (v : var) : Z := zsum (map entry_len (v_entries v)).
  (** [TIVar.__len__].  var.py:1051-1056. *)
  Definition var_len (v : var) : Z := 53 + entry_length v + 2.
  (** [TIVar.checksum].  var.py:1068-1076. *)
  Definition checksum (v : var) : result bytes :=
    try bs := rmapM entry_bytes (v_entries v) in
    to_bytes_le (Z.land (zsum (map zsum bs)) 65535) 2.
  (** [TIVar.bytes].  var.py:1238-1250. *)
  Definition var_bytes (v : var) : result bytes :=
    try n := to_bytes_le (entry_length v) 2 in
    try bs := rmapM entry_bytes (v_entries v) in
    try c := checksum v in
    Ok (header_bytes (v_header v) ++ n ++ concat bs ++ c).

  (** [TIVar.add_entry].  [entry or TIEntry()] tests [__bool__], i.e. whether
      the entry has data.  var.py:1149-1164. *)
  Definition add_entry (v : var) (e : option entry) : out var :=
    do x := match e with
            | Some e => if is_empty e then entry_default else oret e
            | None => entry_default
            end in
    do _ := match v_entries v with
            | [] => oret tt
            | e0 :: _ => owarn_if (negb (meta_length x =? meta_length e0)) WConflict
            end in
    oret (Var (v_header v) (v_entries v ++ [x]) (v_model v)).

  (** [TIVar.extension].  [exts] is the entry's [extensions]; [model in exts],
      [exts[model]] are dict operations.  var.py:1078-1111. *)
  Fixpoint ext_get (exts : list (option model * str)) (k : option model) : option str :=
    match exts with
    | [] => None
    | (k', v) :: r =>
        if match k', k with
           | None, None => true
           | Some a, Some b => model_eqb a b
           | _, _ => false
           end then Some v else ext_get r k
    end.
  Definition lookup_ext exts k : result str :=
    match ext_get exts k with Some v => Ok v | None => Err KeyError end.
  Variable order : model -> Z.
  Definition ext_found (exts : list (option model * str)) (m : model) : bool :=
    existsb (fun k => match ext_get exts (Some k) with Some _ => model_le order k m | None => false end)
            (rev MODELS).
  Definition extension (v : var) : out str :=
    match v_entries v with
    | _ :: _ :: _ => oret (s2l "8xg")
    | [] =>
        (* self.entries[0] raises IndexError, turned into ValueError; with a
           model, the loop evaluates self.entries[0] on its first round *)
        oerr ValueError
    | [e] =>
        let exts := extensions (e_cls e) in
        match v_model v with
        | None => olift (lookup_ext exts None)
        | Some m =>
            do x := (if ext_found exts m then olift (lookup_ext exts (Some m)) else oret []) in
            match x with
            | [] => do _ := owarn WExtension in olift (lookup_ext exts None)
            | _ => oret x
            end
        end
    end.

  (** The entry loop of [TIVar.load_bytes]; [left] is [entry_length].  Fuel is
      proved sufficient (each round takes at least 4 off [left]).
      var.py:1207-1218. *)
  Fixpoint load_entries (fuel : nat) (left : Z) (s : stream) (v : var) : out (Z * stream * var) :=
    if left <=? 0 then oret (left, s, v)
    else
      match fuel with
      | O => oret (left, s, v)
      | S f =>
          do v := add_entry v None in
          do (len, s) := next_entry_length s in
          let '(d, s) := st_read (Z.to_nat len) s in
          do e := entry_load KEntry d in
          let v := Var (v_header v) (removelast (v_entries v) ++ [e]) (v_model v) in
          do _ := owarn_if (negb (zlen d =? len)) WDataLength in
          load_entries f (left - len) s v
      end.

  (** The compatibility check at the end of loading.  The iteration order of
      the target set is given by [set_order].  var.py:1228-1231. *)
  Variable set_order : list model -> list model.
  Definition model_check (m : option model) (h : header) : out unit :=
    match m with
    | None => oret tt
    | Some m =>
        do t := olift (header_targets h) in
        do x := olift (min_star order (set_order t)) in
        owarn_if (negb (model_le order m x)) WModel
    end.

  (** [TIVar.load_bytes].  var.py:1188-1236. *)
  Definition var_load (v : var) (input : bytes) : out var :=
    let s := Stream input 0 in
    let '(hd, s) := st_read 53 s in
    let h := header_load hd in
    let '(n, s) := st_read 2 s in
    let left := le_int n in
    let v := Var h [] (v_model v) in
    do (left', s, v) := load_entries (Z.to_nat left) left s v in
    do _ := owarn_if (left' <? 0) WEntriesLength in
    let '(c, s) := st_read 2 s in
    do _ := model_check (v_model v) (v_header v) in
    do c' := olift (checksum v) in
    do _ := owarn_if (negb (leqb c c')) WChecksum in
    oret v.
End Entries.
