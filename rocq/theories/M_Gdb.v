(** Model of types/gdb.py (equations, colour data, parameters) and of
    types/settings.py. *)
From Verif Require Import PyBase M_Data M_Flags M_Models M_Class M_Var.

(** * Equations of a GDB *)

(** A [TIGraphedEquation] as far as a GDB uses it: the raw [calc_data], [style] and
    [color] slots.  A plain [TIEquation] has neither slot ([None]): reading
    them raises AttributeError.  gdb.py:161-169. *)
Record geq := Geq { q_data : bytes; q_style : option bytes; q_color : option bytes }.

(** [TIGraphedEquation(name=...)]: [clear] writes the length of [data], which is
    the inherited view [2:] of the three bytes, then the flags (bits 0 and 1), the
    style and the colour.  gdb.py:171-179; var.py:1320-1323. *)
Definition fresh_equation : geq := Geq [3; 1; 0] (Some [0]) (Some [0]).

(** [n] single-byte reads.  gdb.py:563-566, 577-580. *)
Fixpoint read_singles (n : nat) (l : bytes) : list bytes * bytes :=
  match n with
  | O => ([], l)
  | S m => let '(b, l) := rd 1 l in let '(r, l) := read_singles m l in (b :: r, l)
  end.
(** [n] calls of [load_data_section].  gdb.py:568-570. *)
Fixpoint read_equations (n : nat) (l : bytes) : list bytes * bytes :=
  match n with
  | O => ([], l)
  | S m => let '(q, l) := eq_section l in let '(r, l) := read_equations m l in (q :: r, l)
  end.
(** Each style or colour goes to a group of [r] equations.  gdb.py:565-566. *)
Definition spread (r : nat) (l : list bytes) : list bytes := flat_map (fun x => repeat x r) l.
(** The list of equations from their parts. *)
Fixpoint zip_equations (ds ss cs : list bytes) : list geq :=
  match ds, ss, cs with
  | d :: ds, s :: ss, c :: cs => Geq d (Some s) (Some c) :: zip_equations ds ss cs
  | _, _, _ => []
  end.

(** [get_equations(data)] on the given bytes.  gdb.py:551-582. *)
Definition equations_of (c : cls) (l : bytes) : list geq :=
  let r := (num_equations c / num_styles c)%nat in
  let '(styles, l) := read_singles (num_styles c) l in
  let '(ds, rest) := read_equations (num_equations c) l in
  let colors := match rest with
                | [] => repeat [0] (num_styles c)
                | _ => fst (read_singles (num_styles c) (skipn 3 rest))
                end in
  zip_equations ds (spread r styles) (spread r colors).
(** [equations]: [get_equations()].  gdb.py:528-534, 559. *)
Definition equations (c : cls) (d : bytes) : list geq :=
  equations_of c (py_slice d (Some (gdb_offset c)) None).

(** [range(0, n, k)]. *)
Definition range_step (n k : nat) : list nat := map (fun i => (k * i)%nat) (seq 0 ((n + k - 1) / k)).
(** [equations[index] = value] on a list. *)
Definition put {A} (i : nat) (v : A) (l : list A) : list A := firstn i l ++ v :: skipn (S i) l.
(** Reading a slot that may be missing. *)
Definition slot (x : option bytes) : result bytes := match x with Some b => Ok b | None => Err AttributeError end.

(** [IndexedEquationConverter.get], for the equation numbered from 0.
    gdb.py:181-182, 196-206. *)
Definition get_equation (c : cls) (i : nat) (d : bytes) : result geq :=
  match nth_error (equations c d) i with Some q => Ok q | None => Err IndexError end.
(** [IndexedEquationConverter.set].  gdb.py:208-239. *)
Definition set_equation (c : cls) (i : nat) (v : geq) (d : bytes) : result bytes :=
  let eqs := put i v (equations c d) in
  let leaders := map (fun k => nth k eqs fresh_equation)
                     (range_step (num_equations c) (num_equations c / num_styles c)) in
  try styles := rmapM (fun q => slot (q_style q)) leaders in
  let head := py_slice d None (Some (gdb_offset c)) ++ concat styles ++ concat (map q_data eqs) in
  match get_color_data c d with
  | [] => Ok head
  | color =>
      try colors := rmapM (fun q => slot (q_color q)) leaders in
      Ok (head ++ s2l "84C" ++ concat colors ++ py_slice color (Some (-5)) None)
  end.
(** The equation attributes [Y1], [X1T], [r1], [u], ...: views of the whole
    [calc_data].  gdb.py:864-922, 1022-1092, 1204-1238, 1420-1436; data.py:489-490. *)
Definition put_equation (e : entry) (i : nat) (v : geq) : out entry :=
  do b := view_set None (View None None) (olift (set_equation (e_cls e) i v (calc_data e))) (e_data e) in
  oret (with_data e b).

(** * Construction and colour stripping *)

(** The monochrome class of a colour class, and the size of the colour data
    [mono()] cuts off.  gdb.py:964-969, 1146-1151, 1282-1287, 1530-1535. *)
Definition mono_class (c : cls) : option (cls * nat) :=
  match c with
  | KFunc => Some (KMonoFunc, 18%nat)
  | KParam => Some (KMonoParam, 14%nat)
  | KPolar => Some (KMonoPolar, 14%nat)
  | KSeq => Some (KMonoSeq, 11%nat)
  | _ => None
  end.

Section Gdb.
  Variable name_set : cls -> str -> out bytes.
  Variable get_version : entry -> option bytes -> out Z.
  Variable prog_scan : bytes -> option bool.

  (** [cls(init)] for a sized class and a byte string [init]: construction, then
      [load_bytes], then the version.  var.py:343-390; gdb.py:416-420.  Loading
      overwrites every slot, so the arguments of the first step do not matter
      (a version given there only skips [get_version]). *)
  Definition sized_init (c : cls) (name : str) (input : bytes) : out entry :=
    do _ := entry_new name_set get_version prog_scan c true name (Some 0) None [] in
    do e := sized_load prog_scan c input in
    do v := get_version e None in
    set_version e v.

  (** [mono()].  gdb.py:964-969, 1146-1151, 1282-1287, 1530-1535. *)
  Definition gdb_mono (e : entry) : out entry :=
    match mono_class (e_cls e) with
    | None => oerr AttributeError
    | Some (c, n) =>
        do b := olift (entry_bytes e) in
        sized_init c (s2l "GDB1") (py_slice b None (Some (- Z.of_nat n)))
    end.

  (** Setting a one-byte enumeration view.  gdb.py:741-769; flags.py:46-59. *)
  Definition set_enum_view (e : entry) (v : view) (all : list Z) (x : Z) : out entry :=
    do b := view_set None v (enum_set all x) (e_data e) in oret (with_data e b).
  (** [GraphColor._all].  gdb.py:83-107. *)
  Definition graph_colors : list Z := [0; 1; 2; 3; 4; 5; 6; 7; 8; 9; 10; 11; 12; 13; 14; 15].
  (** [TIGDB(init)] and its subclasses: after the construction the axes colour is
      set to black and the grid colour to medium grey.  gdb.py:727-735, 741-751. *)
  Definition color_gdb_init (c : cls) (name : str) (input : bytes) : out entry :=
    do e := sized_init c name input in
    do e := set_enum_view e (View (Some (-4)) (Some (-3))) graph_colors 3 in
    set_enum_view e (View (Some (-5)) (Some (-4))) graph_colors 13.
End Gdb.

(** * Parameters *)

(** A nine-byte real view starting at [i]. *)
Definition at9 (name : str) (i : Z) : str * view := (name, View (Some i) (Some (i + 9))).
(** The fixed views of every GDB.  gdb.py:438-496. *)
Definition mono_fields : list (str * view) :=
  [ (s2l "mode_id", View (Some 3) (Some 4)); (s2l "mode_flags", View (Some 4) (Some 5));
    (s2l "extended_mode_flags", View (Some 6) (Some 7));
    at9 (s2l "Xmin") 7; at9 (s2l "Xmax") 16; at9 (s2l "Xscl") 25;
    at9 (s2l "Ymin") 34; at9 (s2l "Ymax") 43; at9 (s2l "Yscl") 52 ].
(** The views of colour GDBs, from the end.  gdb.py:741-770. *)
Definition color_fields : list (str * view) :=
  [ (s2l "grid_color", View (Some (-5)) (Some (-4))); (s2l "axes_color", View (Some (-4)) (Some (-3)));
    (s2l "global_line_style", View (Some (-3)) (Some (-2))); (s2l "border_color", View (Some (-2)) (Some (-1)));
    (s2l "color_mode_flags", View (Some (-1)) None) ].
(** [Xres].  gdb.py:850. *)
Definition func_fields : list (str * view) := [ at9 (s2l "Xres") 61 ].
(** [Tmin], [Tmax], [Tstep].  gdb.py:1004-1020. *)
Definition param_fields : list (str * view) := [ at9 (s2l "Tmin") 61; at9 (s2l "Tmax") 70; at9 (s2l "Tstep") 79 ].
(** [Thetamin], [Thetamax], [Thetastep].  gdb.py:1186-1202. *)
Definition polar_fields : list (str * view) :=
  [ at9 (s2l "Thetamin") 61; at9 (s2l "Thetamax") 70; at9 (s2l "Thetastep") 79 ].
(** The sequence parameters.  gdb.py:1322-1418. *)
Definition seq_fields : list (str * view) :=
  [ (s2l "sequence_flags", View (Some 5) (Some 6));
    at9 (s2l "PlotStart") 61; at9 (s2l "nMax") 70; at9 (s2l "unMin") 79; at9 (s2l "vnMin") 88;
    at9 (s2l "nMin") 97; at9 (s2l "unMinp1") 106; at9 (s2l "vnMinp1") 115; at9 (s2l "wnMin") 124;
    at9 (s2l "PlotStep") 133; at9 (s2l "wnMinp1") 142 ].
(** The colour magic of each colour class.  gdb.py:956, 1138, 1274, 1522. *)
Definition magic_field (a b : Z) : str * view := (s2l "color_magic", View (Some a) (Some b)).
(** The names of the window settings in order.  settings.py:90-265, 333-508. *)
Definition window_names : list str :=
  map s2l ["Xmin"; "Xmax"; "Xscl"; "Ymin"; "Ymax"; "Yscl"; "Thetamin"; "Thetamax"; "Thetastep";
           "Tmin"; "Tmax"; "Tstep"; "PlotStart"; "nMax"; "unMin0"; "vnMin0"; "nMin"; "unMin1";
           "vnMin1"; "wnMin0"; "PlotStep"; "Xres"; "wnMin1"]%string.
(** Consecutive nine-byte fields.  The offsets are written out in the source;
    settings.py:90-262 (3, 12, ..., 201), 333-505 (2, 11, ..., 200), 576-590. *)
Fixpoint consecutive (i : Z) (names : list str) : list (str * view) :=
  match names with [] => [] | n :: r => at9 n i :: consecutive (i + 9) r end.
(** All fixed fields of a class. *)
Definition fields (c : cls) : list (str * view) :=
  match c with
  | KMonoGDB => mono_fields
  | KGDB => mono_fields ++ color_fields
  | KMonoFunc => mono_fields ++ func_fields
  | KFunc => mono_fields ++ func_fields ++ magic_field (-18) (-15) :: color_fields
  | KMonoParam => mono_fields ++ param_fields
  | KParam => mono_fields ++ param_fields ++ magic_field (-14) (-11) :: color_fields
  | KMonoPolar => mono_fields ++ polar_fields
  | KPolar => mono_fields ++ polar_fields ++ magic_field (-14) (-11) :: color_fields
  | KMonoSeq => mono_fields ++ seq_fields
  | KSeq => mono_fields ++ seq_fields ++ magic_field (-11) (-8) :: color_fields
  | KWindow => consecutive 3 window_names
  | KRecallWindow => consecutive 2 window_names
  | KTable => consecutive 2 (map s2l ["TblMin"; "DeltaTbl"]%string)
  | _ => []
  end.
(** Setting a field to a value whose converted bytes are [x] (for reals, the
    [calc_data] of the value: var.py:581-590); the viewed section has a fixed
    length in settings.  settings.py:86, 329, 572; data.py:474-490. *)
Definition set_field (e : entry) (v : view) (x : bytes) : out entry :=
  do b := view_set (calc_length (e_cls e)) v (oret x) (e_data e) in oret (with_data e b).
(** The raw bytes of a field. *)
Definition get_field (e : entry) (v : view) : bytes := view_get v (e_data e).

(** * Dictionaries *)

(** The keys of [dict()] of settings, in order, each with the attribute it shows.
    settings.py:268-293, 511-536, 604-608. *)
Definition settings_dict (c : cls) : list (str * str) :=
  match c with
  | KWindow | KRecallWindow => map (fun n => (n, n)) window_names
  | KTable => [(s2l "TblMin", s2l "TblMin"); (s2l "DeltaTbl", s2l "DeltaTbl")]
  | _ => []
  end.
(** [SettingsEntry.load_dict]: iterating over a dict gives its keys, each of which is
    unpacked into two names: ValueError unless it has two characters; no
    attribute of a settings entry has a name of one character.
    settings.py:33-46. *)
Fixpoint settings_load_dict (keys : list str) (e : entry) : out entry :=
  match keys with
  | [] => oret e
  | [_; _] :: r => do _ := owarn WSettings in settings_load_dict r e
  | _ => oerr ValueError
  end.

(** The keys under "settings" in [dict()] of a GDB, each with the attribute whose
    value is stored under it.  gdb.py:935-937, 1115-1119, 1251-1255, 1492-1503. *)
Definition gdb_settings_dict (c : cls) : list (str * str) :=
  let same n := (s2l n, s2l n) in
  match c with
  | KMonoFunc | KFunc => [same "Xres"]
  | KMonoParam | KParam => [same "Tmin"; same "Tmax"; same "Tstep"]
  | KMonoPolar | KPolar => [same "Thetamin"; same "Thetamax"; same "Thetastep"]
  | KMonoSeq | KSeq =>
      [ same "nMin"; same "nMax"; same "PlotStart"; same "PlotStep"; same "unMin"; same "unMinp1";
        (s2l "vnMin", s2l "vnMinp1"); same "vnMinp1"; same "wnMin"; same "wnMinp1" ]
  | _ => []
  end%string.
