(** Model of OS requirements and support: [get_min_os] and [supported_by] of all
    entry classes and of [TIVar], and the support warnings of [TIVar.save].
    OS versions come from the missing token-sheet submodule: their type, order
    and constructor are parameters, as in M_Tok.v. *)
From Verif Require Import PyBase M_Data M_Flags M_Models M_Class M_Var M_Real M_Complex M_List M_Tok M_Group M_Gdb.

Section Support.
  (** [os_gt a b] is [a > b], [os_lt a b] is [a < b]. *)
  Variable OS : Type.
  Variable os_gt os_lt : OS -> OS -> bool.
  Variable INITIAL illegal_since : OS.
  Variable os_of : model -> str -> OS.
  Variable sheet : bytes -> option (token OS).
  (** As in M_Var.v: the name encoder, [get_version] and the program text test. *)
  Variable name_set : cls -> str -> out bytes.
  Variable get_version : entry -> option bytes -> out Z.
  Variable prog_scan : bytes -> option bool.

  (** [max(l, default=OsVersions.INITIAL)]: the first maximal element. *)
  Definition os_max (l : list OS) : OS :=
    match l with
    | [] => INITIAL
    | x :: r => fold_left (fun m y => if os_gt y m then y else m) r x
    end.

  (** [RealEntry.get_min_os].  real.py:142-150. *)
  Definition real_min_os (e : entry) (arg : option bytes) : out OS :=
    do b := olift (py_index (or_data e arg) 0) in
    oret (if (b =? 24) || (b =? 25) then os_of TI_84P (s2l "2.53") else INITIAL).
  (** [ComplexEntry.get_min_os]: [TI_83PCE()] calls a [TIModel], which is not
      callable (models/model.py:16-79 defines no [__call__]).
      complex.py:260-269. *)
  Definition complex_min_os (e : entry) (arg : option bytes) : out OS :=
    do v := olift (complex_version e arg) in
    if v =? 0 then oret (os_of TI_83 [])
    else if v =? 11 then oret (os_of TI_84P (s2l "2.55"))
    else oerr TypeError.
  (** [get_min_os] of a list element; for the base class TIEntry it is the
      default.  var.py:675-683. *)
  Definition elem_min_os (x : entry) (arg : option bytes) : out OS :=
    if issubclass (e_cls x) KComplexEntry then complex_min_os x arg
    else if issubclass (e_cls x) KRealEntry then real_min_os x arg
    else oret INITIAL.
  (** [TIList.get_min_os], [TIMatrix.get_min_os].  list.py:134-136;
      matrix.py:119-121. *)
  Definition list_min_os (e : entry) (arg : option bytes) : out OS :=
    do x := elem_new name_set prog_scan (elem_cls (e_cls e)) true [] in
    do l := omapM (fun t => elem_min_os x (Some t)) (chunks (elem_size (e_cls e)) (or_data e arg)) in
    oret (os_max l).
  (** [get_min_os] of one equation of a GDB: the inherited [data] view [2:] of its
      bytes, which are flags, a length word and tokens.  tokenized.py:109-110;
      var.py:1316; gdb.py:261-277. *)
  Definition graphed_data (q : geq) : bytes := skipn 2 (q_data q).
  Definition graphed_min_os (q : geq) : out OS :=
    do r := decode OS os_gt INITIAL illegal_since sheet (graphed_data q) in oret (snd r).
  (** [TIMonoGDB.get_min_os].  gdb.py:584-585, 559. *)
  Definition gdb_min_os (e : entry) (arg : option bytes) : out OS :=
    let qs := match arg with
              | Some ((_ :: _) as d) => equations_of (e_cls e) d
              | _ => equations (e_cls e) (b_data (e_data e))
              end in
    do l := omapM graphed_min_os qs in oret (os_max l).
  (** [get_min_os] of every class but groups.  appvar.py:34-35; picture.py:267-268,
      320-321, 424-425. *)
  Definition plain_min_os (e : entry) (arg : option bytes) : out OS :=
    let c := e_cls e in
    if issubclass c KRealEntry then real_min_os e arg
    else if issubclass c KComplexEntry then complex_min_os e arg
    else if issubclass c KList || issubclass c KMatrix then list_min_os e arg
    else if issubclass c KTokenized then get_min_os OS os_gt INITIAL illegal_since sheet os_of e arg
    else if issubclass c KMonoPicture then oret (os_of TI_83P [])
    else if issubclass c KTIPicture || issubclass c KImage then oret (os_of TI_84PCSE [])
    else if issubclass c KMonoGDB then gdb_min_os e arg
    else if issubclass c KAppVar then oret (os_of TI_83P [])
    else oret INITIAL.
  (** [get_min_os] with groups: a group may contain groups, so [fuel] bounds the
      depth ([None] of the depth is reported as StopIteration; proved impossible
      for a fuel above the length of the data).  group.py:95-96. *)
  Fixpoint min_os (fuel : nat) (e : entry) (arg : option bytes) : out OS :=
    if issubclass (e_cls e) KGroup then
      match fuel with
      | O => oerr StopIteration
      | S fuel =>
          do es := ungroup name_set get_version prog_scan e arg in
          do l := omapM (fun x => min_os fuel x None) es in
          oret (os_max l)
      end
    else plain_min_os e arg.
  Definition entry_min_os (e : entry) : out OS := min_os (S (length (data e))) e None.

  (** [supported_by].  var.py:698-706 (base); real.py:152-153 with the view of
      line 98-99; complex.py:284-285; list.py:151-152; matrix.py:136-137. *)
  Definition latest (m : model) : OS := os_of m (s2l "latest").
  Definition base_supported (e : entry) (m : model) : out bool :=
    do os := entry_min_os e in oret (os_lt os (latest m)).
  Definition extra_check (e : entry) : option (out bool) :=
    let c := e_cls e in
    if issubclass c KRealEntry then
      Some (do t := olift (get_bits_at 0 0 6 (e_data e)) in oret (t <=? 25))
    else if issubclass c KComplexEntry then
      Some (do v := olift (complex_version e None) in oret (v <=? 11))
    else if issubclass c KList || issubclass c KMatrix then
      Some (do v := list_version name_set prog_scan e None in oret (v <=? 11))
    else None.
  Definition supported_by (e : entry) (m : model) : out bool :=
    do b := base_supported e m in
    if b then
      match extra_check e with
      | None => oret true
      | Some check => do c := check in if c then oret true else olift (has m ExactMath)
      end
    else oret false.

  (** [all] with effects: stops at the first [False]. *)
  Fixpoint oall {A} (f : A -> out bool) (l : list A) : out bool :=
    match l with
    | [] => oret true
    | a :: r => do b := f a in if b then oall f r else oret false
    end.
  (** [TIVar.supported_by].  var.py:1173-1186.  A model is always true. *)
  Definition var_supported_by (v : var) (m : option model) : out bool :=
    match (match m with Some m => Some m | None => v_model v end) with
    | None => oerr ValueError
    | Some m =>
        do ts := olift (header_targets (v_header v)) in
        if existsb (model_eqb m) ts then oall (fun e => base_supported e m) (v_entries v)
        else oret false
    end.
  (** The numbers of the entries that [TIVar.save] warns about, before writing.
      var.py:1286-1290. *)
  Fixpoint unsupported_from (n : Z) (m : model) (l : list entry) : out (list Z) :=
    match l with
    | [] => oret []
    | e :: r =>
        do os := entry_min_os e in
        do ns := unsupported_from (n + 1) m r in
        oret (if os_gt os (latest m) then n :: ns else ns)
    end.
  Definition save_warnings (v : var) : out (list Z) :=
    match v_model v with None => oret [] | Some m => unsupported_from 1 m (v_entries v) end.

  (** [TIGraphedEquation.string]: the inherited [string] of a tokenized entry
      decodes the [data] view.  var.py:893-898; tokenized.py:45-67. *)
  Definition graphed_string (q : geq) : out str :=
    do r := decode OS os_gt INITIAL illegal_since sheet (graphed_data q) in
    oret (concat (map t_display (fst r))).
  (** [load_string]: everything behind the flags becomes the contents of a plain
      equation with the encoded tokens.  gdb.py:332-340, 352-356. *)
  Definition graphed_load (nfc : str -> str) (t : trie OS) (s : str) (q : geq) : result geq :=
    try r := encode OS os_gt INITIAL illegal_since nfc t (s2l "smart") s in
    try n := to_bytes_le (zlen (fst r)) 2 in
    Ok (Geq (firstn 1 (q_data q) ++ n ++ fst r) (q_style q) (q_color q)).
End Support.
