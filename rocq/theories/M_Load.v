(** Model of [get_version] and [load_bytes] of all entry classes, of the constructor
    given bytes or another entry, and of the conversions between equations and the
    equations of GDBs.  As in M_Os.v, OS versions and token sheets are parameters. *)
From Verif Require Import PyBase M_Data M_Flags M_Models M_Class M_Var M_Real M_Complex M_List M_Tok M_Group M_Gdb.

Section Load.
  (** As in M_Tok.v and M_Var.v. *)
  Variable OS : Type.
  Variable os_gt os_ge : OS -> OS -> bool.
  Variable INITIAL illegal_since : OS.
  Variable os_of : model -> str -> OS.
  Variable sheet : bytes -> option (token OS).
  Variable name_set : cls -> str -> out bytes.
  Variable prog_scan : bytes -> option bool.

  (** ** Versions *)

  (** [get_version] of one equation of a GDB, an entry of its own with the flags, length
      and tokens as payload (its name and flash bytes play no part).  tokenized.py:112-150;
      gdb.py:261-277, 559-582. *)
  Definition equation_entry (q : geq) : entry :=
    Entry KGraphedEquation [13; 0] [3] (zeros 8) [0] [0] (Buf true (q_data q)).
  Definition graphed_version (q : geq) : out Z :=
    tok_version OS os_gt os_ge INITIAL illegal_since sheet os_of (equation_entry q) None.
  (** [TIMonoGDB.get_version].  gdb.py:587-588, 559. *)
  Definition gdb_version (e : entry) (arg : option bytes) : out Z :=
    let qs := match arg with
              | Some ((_ :: _) as d) => equations_of (e_cls e) d
              | _ => equations (e_cls e) (b_data (e_data e))
              end in
    do l := omapM graphed_version qs in
    oret (match l with [] => 0 | v :: r => fold_left Z.max r v end).
  (** [versions[0]].  var.py:685-696. *)
  Definition base_version (e : entry) : out Z :=
    match versions (e_cls e) with v :: _ => oret v | [] => oerr IndexError end.
  (** [get_version] of every class but groups.  complex.py:271-282; list.py:138-149;
      matrix.py:123-134; tokenized.py:112-150; gdb.py:587-588; var.py:685-696. *)
  Definition plain_version (e : entry) (arg : option bytes) : out Z :=
    let c := e_cls e in
    if issubclass c KTokenized then tok_version OS os_gt os_ge INITIAL illegal_since sheet os_of e arg
    else if issubclass c KComplexEntry then olift (complex_version e arg)
    else if issubclass c KList || issubclass c KMatrix then list_version name_set prog_scan e arg
    else if issubclass c KMonoGDB then gdb_version e arg
    else base_version e.
  (** [get_version] with groups, whose entries may be groups again: [fuel] bounds the
      depth, as in M_Os.v.  group.py:98-99.  (The entries of a group are built with a
      version given or with their own version function; inside a group of a group this
      is [plain_version] here, which only matters for the warnings.) *)
  Fixpoint version_in (fuel : nat) (e : entry) (arg : option bytes) : out Z :=
    if issubclass (e_cls e) KGroup then
      match fuel with
      | O => oerr StopIteration
      | S fuel => group_version name_set (version_in fuel) prog_scan e arg
      end
    else plain_version e arg.
  Definition get_version (e : entry) (arg : option bytes) : out Z :=
    version_in (S (length (or_data e arg))) e arg.

  (** ** Loading *)

  (** The check at the end of [load_bytes].  tokenized.py:156-163, 386-394. *)
  Definition version_check (e : entry) : out unit :=
    match get_version e None with
    | (w, Ok v) => do _ := (w, Ok tt) in do own := olift (version e) in owarn_if (negb (own =? v)) WVersionWrong
    | (w, Err ValueError) => (w ++ [WInvalidToken], Ok tt)
    | (w, Err x) => (w, Err x)
    end.
  (** [TokenizedEntry.load_bytes].  tokenized.py:152-163. *)
  Definition tokenized_load (c : cls) (input : bytes) : out entry :=
    do e := sized_load prog_scan c input in
    do _ := version_check e in
    oret e.
  (** [TIProgram.load_bytes].  tokenized.py:382-394. *)
  Definition program_load (c : cls) (input : bytes) : out entry :=
    do e := sized_load prog_scan c input in
    do _ := (if is_tokenized (e_cls e) then version_check e else oret tt) in
    oret e.
  (** [load_bytes] of the class [c], found first along its bases.  var.py:718-807,
      1325-1331; list.py:154-161; matrix.py:139-146; tokenized.py:152-163, 382-394. *)
  Definition load_bytes (c : cls) (input : bytes) : out entry :=
    if issubclass c KProgram then program_load c input
    else if issubclass c KTokenized then tokenized_load c input
    else if issubclass c KSized then sized_load prog_scan c input
    else if issubclass c KList then list_load prog_scan c input
    else if issubclass c KMatrix then matrix_load prog_scan c input
    else entry_load prog_scan c input.
  (** [cls(init, ...)] with bytes, or with another entry, whose bytes are taken: a blank
      entry is made, loaded, and given its version unless one is passed.
      var.py:343-390. *)
  Definition entry_init (c : cls) (for_flash : bool) (name : str) (ver : option Z) (arch : option bool) (input : bytes) : out entry :=
    do _ := entry_new name_set get_version prog_scan c for_flash name (Some (match ver with Some v => v | None => 0 end)) arch [] in
    do e := load_bytes c input in
    match ver with
    | None => do v := get_version e None in set_version e v
    | Some _ => oret e
    end.
  Definition entry_from (c : cls) (name : str) (x : entry) : out entry :=
    do b := olift (entry_bytes x) in entry_init c true name None None b.

  (** ** Equations of GDBs *)

  (** [TIGraphedEquation.load_equation]: everything behind the flags is replaced.
      gdb.py:332-340; the slice
      assignment needs a bytearray. *)
  Definition load_equation (e x : entry) : out entry :=
    if b_mut (e_data e) then oret (with_data e (Buf true (firstn 1 (calc_data e) ++ calc_data x)))
    else oerr TypeError.
  (** [TIGraphedEquation.equation]: the bytes of the entry without the flags byte.  The
      slice bounds are [-n] and [-n + 1] for a payload of [n] bytes; the first warning is
      filtered out (the others are not).  gdb.py:342-350. *)
  Definition graphed_equation (e : entry) : out entry :=
    do b := olift (entry_bytes e) in
    let n := calc_data_length e in
    let r := entry_init KEquation true (s2l "Y1") None None
               (py_slice b None (Some (- n)) ++ py_slice b (Some (- n + 1)) None) in
    (filter (fun w => match w with WDataLength => false | _ => true end) (fst r), snd r).
End Load.
