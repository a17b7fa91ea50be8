(** Model of the functions of /repo/tivars/var.py that work on whole files
    and whole objects: selecting an entry of a file, opening a file as one
    entry, comparing, copying, joining a header with entries, and choosing the
    name of a saved file. *)
From Verif Require Import PyBase M_Data M_Models M_Class M_Var M_Real.

(** * One entry out of a file *)

(** The length word is peeked with [seek(-4, 1)]; a file opened with [open] is a
    buffered reader, on which seeking below zero is an OSError.  That happens
    exactly when the file has fewer than two bytes: the position is then
    [len + 2] before the peek.  var.py:627-644, 857-859, 915-918. *)
Definition peekable (file : bytes) : out unit :=
  if zlen file <? 2 then oerr OSError else oret tt.

(** The loop of [load_from_file]: skip [offset] entries, then read one.
    var.py:861-866. *)
Fixpoint entry_at (offset : nat) (s : stream) : out (bytes * stream) :=
  do (n, s) := next_entry_length s in
  match offset with
  | O => oret (st_read (Z.to_nat n) s)
  | S k => entry_at k (st_seek n s)
  end.

Section File.
  (** [load]: the class's [load_bytes]; [construct]: the call [cls()], whose
      result is overwritten by the load. *)
  Variable load : bytes -> out entry.
  Variable construct : out unit.

  (** [TIEntry.load_from_file] on a freshly opened file; a negative offset, for
      which the loop does not end, is not modelled.  var.py:847-866. *)
  Definition load_from_file (offset : nat) (file : bytes) : out entry :=
    let '(_, s) := st_read 53 (Stream file 0) in
    let s := st_seek 2 s in
    do _ := peekable file in
    do (b, s) := entry_at offset s in
    load b.

  (** [filename.lower().endswith(...)] over the values of [extensions].
      var.py:909-910.  [lower] is ASCII lower case (M_Real). *)
  Definition ends_with (suffix s : str) : bool := starts_with (rev suffix) (rev s).
  Definition known_extension (c : cls) (filename : str) : bool :=
    existsb (fun kv => ends_with (snd kv) (lower filename)) (extensions c).

  (** What [open] says about the bytes behind the first entry and two more.
      var.py:925-934. *)
  Definition after_first (remaining : bytes) : out unit :=
    match remaining with
    | [] => oret tt
    | _ => owarn (if starts_with [11; 0] remaining || starts_with [13; 0] remaining then WMultiple else WDataLength)
    end.
  (** [TIEntry.open]; [file] is the contents of the file.  var.py:901-936. *)
  Definition entry_open (c : cls) (filename : str) (file : bytes) : out entry :=
    do _ := owarn_if (match type_id_of c with
                      | Some _ => negb (known_extension c filename)
                      | None => false
                      end) WExtension in
    let '(_, s) := st_read 53 (Stream file 0) in
    let s := st_seek 2 s in
    do _ := construct in
    do _ := peekable file in
    do (n, s) := next_entry_length s in
    let '(b, s) := st_read (Z.to_nat n) s in
    do e := load b in
    let s := st_seek 2 s in
    do _ := after_first (st_rest s) in
    oret e.
End File.

(** * Comparing and copying *)

(** [TIHeader.__eq__] and [TIHeader.__copy__].  var.py:89-110. *)
Definition header_eq (a b : header) : bool := leqb (header_bytes a) (header_bytes b).
Definition header_copy (h : header) : header := header_load (header_bytes h).

(** [TIEntry.__eq__]: the classes first; [bytes] can raise OverflowError, which
    is not caught.  var.py:415-427. *)
Definition entry_eq (a b : entry) : result bool :=
  if cls_eqb (e_cls a) (e_cls b) then
    try x := entry_bytes a in
    try y := entry_bytes b in
    Ok (leqb x y)
  else Ok false.
(** [TIEntry.__copy__]: [new] is a fresh entry of the class, whose state the load
    replaces.  var.py:406-413. *)
Definition entry_copy (load : cls -> bytes -> out entry) (construct : cls -> out unit) (e : entry) : out entry :=
  do _ := construct (e_cls e) in
  do b := olift (entry_bytes e) in
  load (e_cls e) b.

(** [TIVar.__eq__]: [all] over the zipped entries stops at the first
    difference.  var.py:1036-1049. *)
Fixpoint all_eq (a b : list entry) : result bool :=
  match a, b with
  | x :: a, y :: b => try r := entry_eq x y in if r then all_eq a b else Ok false
  | _, _ => Ok true
  end.
Definition var_eq (a b : var) : result bool :=
  if Nat.eqb (length (v_entries a)) (length (v_entries b)) then all_eq (v_entries a) (v_entries b)
  else Ok false.

(** * Joining and saving *)
Section Join.
  Variable name_set : cls -> str -> out bytes.
  Variable get_version : entry -> option bytes -> out Z.
  Variable prog_scan : bytes -> option bool.
  (** [set.pop()] of a non-empty set of models; which one is unspecified. *)
  Variable pop : list model -> model.

  (** [TIVar.__init__] without data (the name is kept apart); [header or ...]:
      a header has a length of 53 and is therefore true.  var.py:990-1010. *)
  Definition var_new (h : option header) (m : option model) : out var :=
    do h := match h with Some h => oret h | None => header_default m end in
    do _ := match m with
            | None => oret tt
            | Some m =>
                do t := olift (header_targets h) in
                owarn_if (negb (existsb (model_eqb m) t)) WModel
            end in
    oret (Var h [] m).
  (** [TIEntry.export].  var.py:949-960. *)
  Definition export (e : entry) (h : option header) (m : option model) : out var :=
    do v := var_new h m in
    add_entry name_set get_version prog_scan v (Some e).
  (** [TIHeader.__or__].  [targets] raises ValueError when no model matches, so
      the popped set is never empty.  var.py:112-125. *)
  Fixpoint add_entries (v : var) (l : list entry) : out var :=
    match l with
    | [] => oret v
    | e :: r => do v := add_entry name_set get_version prog_scan v (Some e) in add_entries v r
    end.
  Definition header_or (h : header) (l : list entry) : out var :=
    match l with
    | [] => oerr IndexError
    | e :: r =>
        do t := olift (header_targets h) in
        do v := export e (Some h) (Some (pop t)) in
        add_entries v r
    end.

  (** The name under which [TIVar.save] writes: [name] is the var's name and
      [ext] the outcome of its [extension] property.  var.py:1113-1123,
      1273-1284. *)
  Definition save_name (filename : option str) (name : str) (ext : out str) : out str :=
    match filename with
    | None | Some [] => do x := ext in oret (name ++ s2l "." ++ x)
    | Some f => if memb 46 f then oret f else do x := ext in oret (f ++ s2l "." ++ x)
    end.
End Join.
