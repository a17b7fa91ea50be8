(** Model of the dictionary (JSON) form of GDBs: [dict] and [load_dict] of
    /repo/tivars/types/gdb.py. *)
From Verif Require Import PyBase M_Data M_Flags M_Models M_Class M_Var M_Gdb.

(** * JSON values *)

(** What [json.load] gives.  A number is [m] times ten to the [e]; an [int] has
    [e = 0] and every other number stands for a [float] (simplified: floats are
    opaque, they only pass through [TIReal(value)]).  A [dict] is the list of its
    items in order. *)
Inductive jv := JNull | JBool (b : bool) | JNum (m e : Z) | JStr (s : str) | JArr (l : list jv) | JObj (l : list (str * jv)).
(** [d.get(k)] and [k in d]. *)
Fixpoint jfind (k : str) (l : list (str * jv)) : option jv :=
  match l with [] => None | (k', v) :: r => if leqb k' k then Some v else jfind k r end.
(** [d.get(k, {})] used as a dict: [err] if it is something else.  A method call such
    as [.items()] raises AttributeError, [in] and [[...]] raise TypeError (simplified:
    [in] also works on a text or list, where it is taken to raise). *)
Definition sub (err : exn) (k : str) (l : list (str * jv)) : result (list (str * jv)) :=
  match jfind k l with None => Ok [] | Some (JObj l) => Ok l | Some _ => Err err end.
(** [d[k]]. *)
Definition field (k : str) (l : list (str * jv)) : result jv := match jfind k l with Some j => Ok j | None => Err KeyError end.
(** Truth of a value. *)
Definition truthy (j : jv) : bool :=
  match j with
  | JNull => false | JBool b => b | JNum m _ => negb (m =? 0)
  | JStr s => match s with [] => false | _ => true end
  | JArr l => match l with [] => false | _ => true end
  | JObj l => match l with [] => false | _ => true end
  end.
(** [if x := d.get(k, {})] with the body using [x] as a dict.  gdb.py:776, 786. *)
Definition sub_if (k : str) (l : list (str * jv)) : result (list (str * jv)) :=
  match jfind k l with None => Ok [] | Some j => if truthy j then match j with JObj l => Ok l | _ => Err TypeError end else Ok [] end.
(** Lookup of a class attribute by name. *)
Fixpoint assoc {A} (k : str) (l : list (str * A)) : option A :=
  match l with [] => None | (k', v) :: r => if leqb k' k then Some v else assoc k r end.
(** [getattr(cls, name)]: TypeError for a name that is not a text (simplified: the
    other attributes, such as STYLES or the methods of [dict], count as missing). *)
Definition attribute {A} (tbl : list (str * A)) (j : jv) : result A :=
  match j with
  | JStr s => match assoc s tbl with Some v => Ok v | None => Err AttributeError end
  | _ => Err TypeError
  end.
(** [Enum.get_name]: the name with the value, or [None]; the values of each
    enumeration below are distinct.  flags.py:61-70. *)
Fixpoint name_of (tbl : list (str * Z)) (v : Z) : jv :=
  match tbl with [] => JNull | (k, x) :: r => if x =? v then JStr k else name_of r v end.

(** * The enumerations and flags *)

(** [GraphMode].  gdb.py:21-52. *)
Definition graph_mode : list (str * flags) :=
  [ (s2l "Dot", [(0, 1)]); (s2l "Connected", [(0, 0)]); (s2l "Simul", [(1, 1)]); (s2l "Sequential", [(1, 0)]);
    (s2l "GridOn", [(2, 1); (7, 0)]); (s2l "GridOff", [(2, 0); (7, 0)]); (s2l "GridLine", [(2, 1); (7, 1)]); (s2l "GridDot", [(2, 1); (7, 0)]);
    (s2l "PolarGC", [(3, 1)]); (s2l "RectGC", [(3, 0)]); (s2l "CoordOn", [(4, 0)]); (s2l "CoordOff", [(4, 1)]);
    (s2l "AxesOff", [(5, 1)]); (s2l "AxesOn", [(5, 0)]); (s2l "LabelOn", [(6, 1)]); (s2l "LabelOff", [(6, 0)]);
    (s2l "ExprOff", [(0, 1)]); (s2l "ExprOn", [(0, 0)]);
    (s2l "SEQ_n", [(1, 0); (2, 0)]); (s2l "SEQ_np1", [(1, 1); (2, 0)]); (s2l "SEQ_np2", [(1, 0); (2, 1)]);
    (s2l "DetectAsymptotesOff", [(0, 1)]); (s2l "DetectAsymptotesOn", [(0, 0)]) ].
(** [SeqMode].  gdb.py:55-65. *)
Definition seq_mode : list (str * flags) :=
  [ (s2l "Time", [(0, 0); (1, 0); (2, 0); (3, 0); (4, 0)]); (s2l "Web", [(0, 1); (1, 0); (2, 0); (3, 0); (4, 0)]);
    (s2l "VertWeb", [(0, 0); (1, 1); (2, 0); (3, 0); (4, 0)]); (s2l "uv", [(0, 0); (1, 0); (2, 1); (3, 0); (4, 0)]);
    (s2l "vw", [(0, 0); (1, 0); (2, 0); (3, 1); (4, 0)]); (s2l "uw", [(0, 0); (1, 0); (2, 0); (3, 0); (4, 1)]) ].
(** [GraphStyle].  gdb.py:68-82. *)
Definition graph_style : list (str * Z) :=
  [ (s2l "SolidLine", 0); (s2l "ThickLine", 1); (s2l "ShadeAbove", 2); (s2l "ShadeBelow", 3);
    (s2l "Trace", 4); (s2l "Animate", 5); (s2l "DottedLine", 6) ].
(** [GraphColor].  gdb.py:85-109. *)
Definition graph_color : list (str * Z) :=
  [ (s2l "Mono", 0); (s2l "Blue", 1); (s2l "Red", 2); (s2l "Black", 3); (s2l "Magenta", 4); (s2l "Green", 5);
    (s2l "Orange", 6); (s2l "Brown", 7); (s2l "Navy", 8); (s2l "LtBlue", 9); (s2l "Yellow", 10); (s2l "White", 11);
    (s2l "LtGray", 12); (s2l "MedGray", 13); (s2l "Gray", 14); (s2l "DarkGray", 15) ].
(** [GlobalLineStyle].  gdb.py:112-123. *)
Definition line_style : list (str * Z) := [ (s2l "Thick", 0); (s2l "DotThick", 1); (s2l "Thin", 2); (s2l "DotThin", 3) ].
(** [BorderColor.COLORS].  gdb.py:126-137. *)
Definition border_colors : list Z := [1; 2; 3; 4].
(** [equation_names].  gdb.py:406, 838, 992, 1174, 1310. *)
Definition equation_names (c : cls) : list str :=
  match c with
  | KMonoFunc | KFunc => map s2l ["Y1"; "Y2"; "Y3"; "Y4"; "Y5"; "Y6"; "Y7"; "Y8"; "Y9"; "Y0"]
  | KMonoParam | KParam => map s2l ["X1T"; "Y1T"; "X2T"; "Y2T"; "X3T"; "Y3T"; "X4T"; "Y4T"; "X5T"; "Y5T"; "X6T"; "Y6T"]
  | KMonoPolar | KPolar => map s2l ["r1"; "r2"; "r3"; "r4"; "r5"; "r6"]
  | KMonoSeq | KSeq => map s2l ["u"; "v"; "w"]
  | _ => []
  end%string.
(** The modes by name, in [mode] and in [load_dict].  gdb.py:506-518, 600-605. *)
Definition mode_names : list (str * Z) :=
  [ (s2l "Function", 16); (s2l "Parametric", 64); (s2l "Polar", 32); (s2l "Sequence", 128) ].

(** * Flags in a byte *)

(** [self.x |= bits] for a one-byte flag view: read, update the dict, write.
    gdb.py:610, 618, 309-311; flags.py:113-133. *)
Definition merge_flags (v : view) (bits : flags) (b : buffer) : out buffer :=
  view_set None v (olift (flags_set (flags_ior (flags_get (view_get v b)) bits))) b.
(** [bits in self.x]. *)
Definition flag_in (bits : flags) (d : bytes) : result bool := flags_contains (flags_get d) bits.
(** A flag constant by name. *)
Definition const (tbl : list (str * flags)) (k : string) : flags := match assoc (s2l k) tbl with Some f => f | None => [] end.
(** [EquationFlags].  gdb.py:140-150. *)
Definition selected (b : bool) : flags := [(5, if b then 1 else 0)].
Definition used (b : bool) : flags := [(6, if b then 1 else 0)].
Definition linked (b : bool) : flags := [(7, if b then 1 else 0)].
(** The view [0:1].  gdb.py:265. *)
Definition byte0 : view := View (Some 0) (Some 1).

Section GdbDict.
  (** External parts: the bytes of [TIReal(value)]; [json_number()] and [int()] of
      the real stored in some bytes (real.py:85-86, 182-193); whether the check of a
      parameter warns about a value (gdb.py:851-862, 1329-1336 and so on); the text of
      an equation ([string()], see M_Os) and the payload of [TIEquation(value)];
      [json_name] of the equation with a given name (gdb.py:279-285); and setting an
      attribute that is not a real parameter, [None] if there is no such
      attribute. *)
  Variable real_of : jv -> out bytes.
  Variable number_of : bytes -> out jv.
  Variable whole_of : bytes -> out jv.
  Variable misfit : str -> bytes -> bool.
  Variable expr_of : geq -> out str.
  Variable load_expr : jv -> out bytes.
  Variable json_name : str -> str.
  Variable other_attr : entry -> str -> jv -> option (out entry).

  (** ** Equations *)

  (** [TIGraphedEquation.dict].  gdb.py:313-330. *)
  Definition equation_dict (q : geq) : out jv :=
    do st := olift (rbind (slot (q_style q)) enum_get) in
    do co := olift (rbind (slot (q_color q)) enum_get) in
    let f := view_get byte0 (Buf true (q_data q)) in
    do a := olift (flag_in (selected true) f) in
    do b := olift (flag_in (used true) f) in
    do c := olift (flag_in (linked true) f) in
    do s := expr_of q in
    oret (JObj ((s2l "style", name_of graph_style st)
                :: (if co =? 0 then [] else [(s2l "color", name_of graph_color co)]) ++
                [ (s2l "flags", JObj [(s2l "selected", JBool a); (s2l "wasUsedForGraph", JBool b); (s2l "linkTransfer", JBool c)]);
                  (s2l "expr", JStr s) ])).
  (** A flag with its default.  gdb.py:306. *)
  Definition flag_or_false (k : str) (l : list (str * jv)) : bool := match jfind k l with Some j => truthy j | None => false end.
  (** [TIGraphedEquation(name=...)] followed by [load_dict].  gdb.py:293-311, 332-340,
      641-642. *)
  Definition equation_load (j : jv) : out geq :=
    do l := olift (match j with JObj l => Ok l | _ => Err TypeError end) in
    do st := olift (rbind (field (s2l "style") l) (attribute graph_style)) in
    do st := enum_set (map snd graph_style) st in
    do co := olift (rbind (field (s2l "color") l) (attribute graph_color)) in
    do co := enum_set (map snd graph_color) co in
    do x := olift (field (s2l "expr") l) in
    do x := load_expr x in
    let d := firstn 1 (q_data fresh_equation) ++ x in
    do fl := olift (rbind (field (s2l "flags") l) (fun j => match j with JObj l => Ok l | _ => Err TypeError end)) in
    do b := view_set None byte0 (olift (flags_set (flags_init (Some [(1, 1); (0, 1)]) 8))) (Buf true d) in
    do b := merge_flags byte0 (selected (flag_or_false (s2l "selected") fl)) b in
    do b := merge_flags byte0 (used (flag_or_false (s2l "wasUsedForGraph") fl)) b in
    do b := merge_flags byte0 (linked (flag_or_false (s2l "linkTransfer") fl)) b in
    oret (Geq (b_data b) (Some st) (Some co)).

  (** ** Loading *)

  (** An operation on the raw [calc_data]. *)
  Definition on_data (e : entry) (f : buffer -> out buffer) : out entry := do b := f (e_data e) in oret (with_data e b).
  (** [mode_flags], [sequence_flags], [extended_mode_flags], [color_mode_flags].
      gdb.py:446, 454, 764, 1322. *)
  Definition mode_view : view := View (Some 4) (Some 5).
  Definition seq_view : view := View (Some 5) (Some 6).
  Definition ext_view : view := View (Some 6) (Some 7).
  Definition color_mode_view : view := View (Some (-1)) None.

  (** The format settings.  gdb.py:607-614. *)
  Fixpoint load_formats (l : list jv) (e : entry) : out entry :=
    match l with
    | [] => oret e
    | j :: r =>
        match attribute graph_mode j with
        | Ok bits => do e := on_data e (merge_flags mode_view bits) in load_formats r e
        | Err AttributeError => do _ := owarn WSettings in load_formats r e
        | Err x => oerr x
        end
    end.
  (** The nine-byte view of a parameter of the class, if it has one of this name. *)
  Definition real_view (c : cls) (n : str) : option view :=
    match assoc n (fields c) with
    | Some (View (Some i) (Some j)) => if j =? i + 9 then Some (View (Some i) (Some j)) else None
    | _ => None
    end.
  (** Window settings: [setattr(self, var, TIReal(value))] for existing attributes.
      gdb.py:626-643. *)
  Fixpoint load_reals (l : list (str * jv)) (e : entry) : out entry :=
    match l with
    | [] => oret e
    | (n, j) :: r =>
        match real_view (e_cls e) n with
        | Some v =>
            do x := real_of j in
            do _ := owarn_if (misfit n x) WGraphReal in
            do e := set_field e v x in
            load_reals r e
        | None =>
            match other_attr e n j with
            | Some m => do e := m in load_reals r e
            | None => do _ := owarn WSettings in load_reals r e
            end
        end
    end.
  (** Position of a name in [equation_names]. *)
  Fixpoint index_of (n : str) (l : list str) : option nat :=
    match l with [] => None | k :: r => if leqb k n then Some 0%nat else option_map S (index_of n r) end.
  (** The equations.  gdb.py:638-647. *)
  Fixpoint load_equations (l : list (str * jv)) (e : entry) : out entry :=
    match l with
    | [] => oret e
    | (n, j) :: r =>
        match index_of n (equation_names (e_cls e)) with
        | Some i => do q := equation_load j in do e := put_equation e i q in load_equations r e
        | None => do _ := owarn WSettings in load_equations r e
        end
    end.
  (** [TIMonoParamGDB._load_dict]: the styles, then the colours, of each pair.
      gdb.py:1102-1110. *)
  Definition pair_check (e : entry) (i : nat) : out unit :=
    do x := olift (get_equation (e_cls e) (2 * i) (calc_data e)) in
    do y := olift (get_equation (e_cls e) (2 * i + 1) (calc_data e)) in
    do a := olift (rbind (slot (q_style x)) enum_get) in
    do b := olift (rbind (slot (q_style y)) enum_get) in
    do _ := owarn_if (negb (a =? b)) WGdb in
    do a := olift (rbind (slot (q_color x)) enum_get) in
    do b := olift (rbind (slot (q_color y)) enum_get) in
    owarn_if (negb (a =? b)) WGdb.
  (** All pairs. *)
  Fixpoint pair_checks (n : nat) (i : nat) (e : entry) : out unit :=
    match n with O => oret tt | S m => do _ := pair_check e i in pair_checks m (S i) e end.
  (** [TIMonoSeqGDB._load_dict]: the key read inside "seqSettings" is the top-level
      "seqMode".  gdb.py:1446-1463. *)
  Definition load_sequence (dct : list (str * jv)) (e : entry) : out entry :=
    do ext := olift (sub TypeError (s2l "extSettings") dct) in
    do e := match jfind (s2l "seqMode") ext with
            | Some (JStr s) =>
                if leqb s (s2l "SEQ(n)") then on_data e (merge_flags ext_view (const graph_mode "SEQ_n"))
                else if leqb s (s2l "SEQ(n+1)") then on_data e (merge_flags ext_view (const graph_mode "SEQ_np1"))
                else if leqb s (s2l "SEQ(n+2)") then on_data e (merge_flags ext_view (const graph_mode "SEQ_np2"))
                else oret e
            | _ => oret e
            end in
    match jfind (s2l "seqSettings") dct with
    | None => oret e
    | Some _ =>
        do m := olift (field (s2l "seqMode") dct) in
        match attribute seq_mode m with
        | Ok bits => on_data e (merge_flags seq_view bits)
        | Err AttributeError => do _ := owarn WSettings in oret e
        | Err x => oerr x
        end
    end.
  (** [BorderColor.COLORS[value - 1]].  gdb.py:784. *)
  Definition border_of (j : jv) : result Z :=
    match j with
    | JNum m e => if e =? 0 then py_index border_colors (m - 1) else Err TypeError
    | JBool b => py_index border_colors ((if b then 1 else 0) - 1)
    | _ => Err TypeError
    end.
  (** Setting an enumeration from a dict, if the key is there. *)
  Definition load_enum (k : str) (get : jv -> result Z) (all : list Z) (v : view) (l : list (str * jv)) (e : entry) : out entry :=
    match jfind k l with
    | None => oret e
    | Some j => do x := olift (get j) in set_enum_view e v all x
    end.
  (** [TIGDB._load_dict]; [color_magic] is a view in the four final classes and an
      ordinary attribute in TIGDB.  gdb.py:773-792, 956-962. *)
  Definition load_colors (dct : list (str * jv)) (e : entry) : out entry :=
    do e := match assoc (s2l "color_magic") (fields (e_cls e)) with
            | Some v => set_field e v (s2l "84C")
            | None => oret e
            end in
    do g := olift (sub AttributeError (s2l "global84CSettings") dct) in
    do l := olift (sub_if (s2l "colors") g) in
    do e := load_enum (s2l "grid") (attribute graph_color) graph_colors (View (Some (-5)) (Some (-4))) l e in
    do e := load_enum (s2l "axes") (attribute graph_color) graph_colors (View (Some (-4)) (Some (-3))) l e in
    do e := load_enum (s2l "border") border_of border_colors (View (Some (-2)) (Some (-1))) l e in
    do l := olift (sub_if (s2l "other") g) in
    do e := load_enum (s2l "globalLineStyle") (attribute line_style) (map snd line_style) (View (Some (-3)) (Some (-2))) l e in
    match jfind (s2l "detectAsymptotes") l with
    | None => oret e
    | Some j => on_data e (merge_flags color_mode_view (if truthy j then const graph_mode "DetectAsymptotesOn" else const graph_mode "DetectAsymptotesOff"))
    end.
  (** [_load_dict] by class.  gdb.py:660-661, 773, 971-973, 1102, 1153-1155, 1289-1291,
      1446, 1537-1539. *)
  Definition load_special (dct : list (str * jv)) (e : entry) : out entry :=
    match e_cls e with
    | KMonoParam => do _ := pair_checks (num_styles KMonoParam) 0 e in oret e
    | KMonoSeq => load_sequence dct e
    | KGDB | KFunc | KPolar => load_colors dct e
    | KParam => do _ := pair_checks (num_styles KParam) 0 e in load_colors dct e
    | KSeq => do e := load_sequence dct e in load_colors dct e
    | _ => oret e
    end.
  (** The mode byte written first, and the name for the message.  gdb.py:599-605. *)
  Definition mode_of (dct : list (str * jv)) : result (Z * jv) :=
    let j := match jfind (s2l "graphMode") dct with Some j => j | None => JStr (s2l "Function") end in
    match j with
    | JArr _ | JObj _ => Err TypeError
    | JStr s => Ok (match assoc s mode_names with Some m => m | None => 0 end, j)
    | _ => Ok (0, j)
    end.
  (** [calc_data[3] = m]. *)
  Definition set_mode (e : entry) (m : Z) : out entry := on_data e (fun b => view_set None (View (Some 3) (Some 4)) (olift (byte_of m)) b).
  (** [load_dict] with a dict (simplified: "formatSettings" other than a list raises
      TypeError, although a text or dict can be iterated).  gdb.py:590-658, 925-930, 1095-1100, 1241-1246,
      1439-1444. *)
  Definition gdb_load_dict (dct : list (str * jv)) (e : entry) : out entry :=
    do e := clear e in
    do mm := olift (mode_of dct) in
    do e := set_mode e (fst mm) in
    do fs := olift (match jfind (s2l "formatSettings") dct with None => Ok [] | Some (JArr l) => Ok l | Some _ => Err TypeError end) in
    do e := load_formats fs e in
    do ext := olift (sub TypeError (s2l "extSettings") dct) in
    do e := match jfind (s2l "showExpr") ext with
            | None => oret e
            | Some j => on_data e (merge_flags ext_view (if truthy j then const graph_mode "ExprOn" else const graph_mode "ExprOff"))
            end in
    do _ := if negb (gdb_mode_id (calc_data e) =? 128) &&
               ((match jfind (s2l "seqMode") ext with Some _ => true | None => false end) ||
                (match jfind (s2l "seqSettings") dct with Some _ => true | None => false end))
            then match snd mm with JStr _ => owarn WGdb | _ => oerr AttributeError end
            else oret tt in
    do w := olift (sub AttributeError (s2l "globalWindowSettings") dct) in
    do e := load_reals w e in
    do sp := olift (sub AttributeError (s2l "specificData") dct) in
    do w := olift (sub AttributeError (s2l "settings") sp) in
    do e := load_reals w e in
    do q := olift (sub AttributeError (s2l "equations") sp) in
    do e := load_equations q e in
    let e := match jfind (s2l "global84CSettings") dct with Some _ => with_cls e KGDB | None => e end in
    do e := (if issubclass (e_cls e) KGDB then coerce_gdb e else coerce_mono_gdb e) in
    load_special dct e.

  (** ** Showing *)

  (** [mode].  gdb.py:498-518. *)
  Definition mode_text (e : entry) : out jv :=
    match name_of mode_names (gdb_mode_id (calc_data e)) with
    | JNull => do _ := owarn WGdb in oret JNull
    | j => oret j
    end.
  (** One of two names by a flag. *)
  Definition choice (d : bytes) (bits : flags) (yes no : string) : result jv :=
    try b := flag_in bits d in Ok (JStr (s2l (if (b : bool) then yes else no))).
  (** The format settings.  gdb.py:670-678. *)
  Definition format_texts (d : bytes) : result (list jv) :=
    try a := choice d (const graph_mode "Dot") "Dot" "Connected" in
    try b := choice d (const graph_mode "Simul") "Simul" "Sequential" in
    try c := choice d (const graph_mode "GridOn") "GridOn" "GridOff" in
    try f := choice d (const graph_mode "PolarGC") "PolarGC" "RectGC" in
    try g := choice d (const graph_mode "CoordOff") "CoordOff" "CoordOn" in
    try h := choice d (const graph_mode "AxesOff") "AxesOff" "AxesOn" in
    try i := choice d (const graph_mode "LabelOn") "LabelOn" "LabelOff" in
    Ok [a; b; c; f; g; h; i].
  (** The parameters shown by [int(...)].  gdb.py:936, 1493-1496. *)
  Definition whole_names : list str := map s2l ["Xres"; "nMin"; "nMax"; "PlotStart"; "PlotStep"]%string.
  (** A number of a parameter. *)
  Definition shown_real (e : entry) (n : str) : out jv :=
    match assoc n (fields (e_cls e)) with
    | None => oerr AttributeError
    | Some v => (if existsb (leqb n) whole_names then whole_of else number_of) (get_field e v)
    end.
  (** Keys with numbers, from a table of keys and attributes. *)
  Fixpoint shown_reals (l : list (str * str)) (e : entry) : out (list (str * jv)) :=
    match l with
    | [] => oret []
    | (k, n) :: r => do j := shown_real e n in do t := shown_reals r e in oret ((k, j) :: t)
    end.
  (** gdb.py:682-689. *)
  Definition window_keys : list (str * str) :=
    map (fun n => (s2l n, s2l n)) ["Xmin"; "Xmax"; "Xscl"; "Ymin"; "Ymax"; "Yscl"]%string.
  (** The equations.  gdb.py:938-940, 1121-1123, 1257-1259, 1505-1507. *)
  Fixpoint equation_dicts (l : list (str * geq)) : out (list (str * jv)) :=
    match l with
    | [] => oret []
    | (n, q) :: r => do j := equation_dict q in do t := equation_dicts r in oret ((json_name n, j) :: t)
    end.
  (** [specificData].  gdb.py:932-942, 1112-1125, 1248-1261, 1490-1508. *)
  Definition specific (e : entry) : out (list (str * jv)) :=
    do s := shown_reals (gdb_settings_dict (e_cls e)) e in
    do q := equation_dicts (combine (equation_names (e_cls e)) (equations (e_cls e) (calc_data e))) in
    oret [(s2l "specificData", JObj [(s2l "settings", JObj s); (s2l "equations", JObj q)])].
  (** [TIMonoGDB.dict], with the extra items of "extSettings".  gdb.py:663-690. *)
  Definition common (e : entry) (ext : list (str * jv)) : out (list (str * jv)) :=
    do m := mode_text e in
    do f := olift (format_texts (get_field e mode_view)) in
    do x := olift (flag_in (const graph_mode "ExprOn") (get_field e ext_view)) in
    do w := shown_reals window_keys e in
    oret [ (s2l "graphMode", m); (s2l "formatSettings", JArr f);
           (s2l "extSettings", JObj ((s2l "showExpr", JBool x) :: ext)); (s2l "globalWindowSettings", JObj w) ].
  (** The first flag constant contained.  gdb.py:1468-1488. *)
  Fixpoint first_in (l : list (str * (string * list (str * flags)))) (d : bytes) : result (option str) :=
    match l with
    | [] => Ok None
    | (t, (k, tbl)) :: r => try b := flag_in (const tbl k) d in if (b : bool) then Ok (Some t) else first_in r d
    end.
  (** gdb.py:1468-1474. *)
  Definition seq_exts : list (str * (string * list (str * flags))) :=
    [ (s2l "SEQ(n)", ("SEQ_n"%string, graph_mode)); (s2l "SEQ(n+1)", ("SEQ_np1"%string, graph_mode)); (s2l "SEQ(n+2)", ("SEQ_np2"%string, graph_mode)) ].
  (** gdb.py:1476-1488. *)
  Definition seq_kinds : list (str * (string * list (str * flags))) :=
    map (fun k => (s2l k, (k, seq_mode))) ["Time"; "Web"; "VertWeb"; "uv"; "vw"; "uw"]%string.
  (** [dict] of the four monochrome modes.  gdb.py:932-942, 1112-1125, 1248-1261,
      1465-1508. *)
  Definition mono_dict (e : entry) : out (list (str * jv)) :=
    match e_cls e with
    | KMonoSeq | KSeq =>
        do l := common e [] in
        do x := olift (first_in seq_exts (get_field e ext_view)) in
        do k := olift (first_in seq_kinds (get_field e seq_view)) in
        let l := match x with
                 | Some t => map (fun p => if leqb (fst p) (s2l "extSettings")
                                           then (fst p, match snd p with JObj q => JObj (q ++ [(s2l "seqMode", JStr t)]) | j => j end) else p) l
                 | None => l
                 end in
        let l := match k with Some t => l ++ [(s2l "seqSettings", JObj [(s2l "mode", JStr t)])] | None => l end in
        do s := specific e in oret (l ++ s)
    | KMonoGDB => common e []
    | _ => do l := common e [] in do s := specific e in oret (l ++ s)
    end.
  (** [TIGDB.dict].  gdb.py:794-807. *)
  Definition color_dict (e : entry) : out (list (str * jv)) :=
    do g := olift (enum_get (get_field e (View (Some (-5)) (Some (-4))))) in
    do a := olift (enum_get (get_field e (View (Some (-4)) (Some (-3))))) in
    do b := olift (enum_get (get_field e (View (Some (-2)) (Some (-1))))) in
    do s := olift (enum_get (get_field e (View (Some (-3)) (Some (-2))))) in
    do x := olift (flag_in (const graph_mode "DetectAsymptotesOn") (get_field e color_mode_view)) in
    oret [ (s2l "global84CSettings",
            JObj [ (s2l "colors", JObj [(s2l "grid", name_of graph_color g); (s2l "axes", name_of graph_color a); (s2l "border", JNum b 0)]);
                   (s2l "other", JObj [(s2l "globalLineStyle", name_of line_style s); (s2l "detectAsymptotes", JBool x)]) ]) ].
  (** [dict] by class.  gdb.py:663, 794, 932, 975, 1112, 1157, 1248, 1293, 1465, 1541. *)
  Definition gdb_dict (e : entry) : out (list (str * jv)) :=
    match e_cls e with
    | KGDB => color_dict e
    | KFunc | KParam | KPolar | KSeq => do l := mono_dict e in do g := color_dict e in oret (l ++ g)
    | _ => mono_dict e
    end.
End GdbDict.

(** * The packaged defaults *)

(** json/func.default.json:1-132. *)
Definition func_default : list (str * jv) :=
  [ (s2l "graphMode", JStr (s2l "Function"));
    (s2l "formatSettings", JArr []);
    (s2l "extSettings", JObj [(s2l "showExpr", JBool true)]);
    (s2l "globalWindowSettings", JObj [ (s2l "Xmin", JNum (-100) (-1));
     (s2l "Xmax", JNum 100 (-1));
     (s2l "Xscl", JNum 10 (-1));
     (s2l "Ymin", JNum (-100) (-1));
     (s2l "Ymax", JNum 100 (-1));
     (s2l "Yscl", JNum 10 (-1)) ]);
    (s2l "specificData", JObj [ (s2l "settings", JObj [(s2l "Xres", JNum 10 (-1))]);
     (s2l "equations", JObj [ (s2l "Y1", JObj [ (s2l "style", JStr (s2l "ThickLine"));
       (s2l "color", JStr (s2l "Blue"));
       (s2l "flags", JObj [(s2l "selected", JBool false); (s2l "wasUsedForGraph", JBool false); (s2l "linkTransfer", JBool false)]);
       (s2l "expr", JStr (s2l "")) ]);
      (s2l "Y2", JObj [ (s2l "style", JStr (s2l "ThickLine"));
       (s2l "color", JStr (s2l "Red"));
       (s2l "flags", JObj [(s2l "selected", JBool false); (s2l "wasUsedForGraph", JBool false); (s2l "linkTransfer", JBool false)]);
       (s2l "expr", JStr (s2l "")) ]);
      (s2l "Y3", JObj [ (s2l "style", JStr (s2l "ThickLine"));
       (s2l "color", JStr (s2l "Black"));
       (s2l "flags", JObj [(s2l "selected", JBool false); (s2l "wasUsedForGraph", JBool false); (s2l "linkTransfer", JBool false)]);
       (s2l "expr", JStr (s2l "")) ]);
      (s2l "Y4", JObj [ (s2l "style", JStr (s2l "ThickLine"));
       (s2l "color", JStr (s2l "Magenta"));
       (s2l "flags", JObj [(s2l "selected", JBool false); (s2l "wasUsedForGraph", JBool false); (s2l "linkTransfer", JBool false)]);
       (s2l "expr", JStr (s2l "")) ]);
      (s2l "Y5", JObj [ (s2l "style", JStr (s2l "ThickLine"));
       (s2l "color", JStr (s2l "Green"));
       (s2l "flags", JObj [(s2l "selected", JBool false); (s2l "wasUsedForGraph", JBool false); (s2l "linkTransfer", JBool false)]);
       (s2l "expr", JStr (s2l "")) ]);
      (s2l "Y6", JObj [ (s2l "style", JStr (s2l "ThickLine"));
       (s2l "color", JStr (s2l "Orange"));
       (s2l "flags", JObj [(s2l "selected", JBool false); (s2l "wasUsedForGraph", JBool false); (s2l "linkTransfer", JBool false)]);
       (s2l "expr", JStr (s2l "")) ]);
      (s2l "Y7", JObj [ (s2l "style", JStr (s2l "ThickLine"));
       (s2l "color", JStr (s2l "Brown"));
       (s2l "flags", JObj [(s2l "selected", JBool false); (s2l "wasUsedForGraph", JBool false); (s2l "linkTransfer", JBool false)]);
       (s2l "expr", JStr (s2l "")) ]);
      (s2l "Y8", JObj [ (s2l "style", JStr (s2l "ThickLine"));
       (s2l "color", JStr (s2l "Blue"));
       (s2l "flags", JObj [(s2l "selected", JBool false); (s2l "wasUsedForGraph", JBool false); (s2l "linkTransfer", JBool false)]);
       (s2l "expr", JStr (s2l "")) ]);
      (s2l "Y9", JObj [ (s2l "style", JStr (s2l "ThickLine"));
       (s2l "color", JStr (s2l "Red"));
       (s2l "flags", JObj [(s2l "selected", JBool false); (s2l "wasUsedForGraph", JBool false); (s2l "linkTransfer", JBool false)]);
       (s2l "expr", JStr (s2l "")) ]);
      (s2l "Y0", JObj [ (s2l "style", JStr (s2l "ThickLine"));
       (s2l "color", JStr (s2l "Black"));
       (s2l "flags", JObj [(s2l "selected", JBool false); (s2l "wasUsedForGraph", JBool false); (s2l "linkTransfer", JBool false)]);
       (s2l "expr", JStr (s2l "")) ]) ]) ]);
    (s2l "global84CSettings", JObj [ (s2l "colors", JObj [(s2l "grid", JStr (s2l "MedGray")); (s2l "axes", JStr (s2l "Black")); (s2l "border", JNum 1 0)]);
     (s2l "other", JObj [(s2l "globalStyle", JStr (s2l "Thick")); (s2l "detectAsymptotes", JBool true)]) ]) ].

(** json/param.default.json:1-154. *)
Definition param_default : list (str * jv) :=
  [ (s2l "graphMode", JStr (s2l "Parametric"));
    (s2l "formatSettings", JArr []);
    (s2l "extSettings", JObj [(s2l "showExpr", JBool true)]);
    (s2l "globalWindowSettings", JObj [ (s2l "Xmin", JNum (-100) (-1));
     (s2l "Xmax", JNum 100 (-1));
     (s2l "Xscl", JNum 10 (-1));
     (s2l "Ymin", JNum (-100) (-1));
     (s2l "Ymax", JNum 100 (-1));
     (s2l "Yscl", JNum 10 (-1)) ]);
    (s2l "specificData", JObj [ (s2l "settings", JObj [(s2l "Tmin", JNum 0 (-1)); (s2l "Tmax", JNum 6283185307 (-9)); (s2l "Tstep", JNum 13089969389957 (-14))]);
     (s2l "equations", JObj [ (s2l "X1T", JObj [ (s2l "style", JStr (s2l "ThickLine"));
       (s2l "color", JStr (s2l "Blue"));
       (s2l "flags", JObj [(s2l "selected", JBool false); (s2l "wasUsedForGraph", JBool false); (s2l "linkTransfer", JBool false)]);
       (s2l "expr", JStr (s2l "")) ]);
      (s2l "Y1T", JObj [ (s2l "style", JStr (s2l "ThickLine"));
       (s2l "color", JStr (s2l "Blue"));
       (s2l "flags", JObj [(s2l "selected", JBool false); (s2l "wasUsedForGraph", JBool false); (s2l "linkTransfer", JBool false)]);
       (s2l "expr", JStr (s2l "")) ]);
      (s2l "X2T", JObj [ (s2l "style", JStr (s2l "ThickLine"));
       (s2l "color", JStr (s2l "Red"));
       (s2l "flags", JObj [(s2l "selected", JBool false); (s2l "wasUsedForGraph", JBool false); (s2l "linkTransfer", JBool false)]);
       (s2l "expr", JStr (s2l "")) ]);
      (s2l "Y2T", JObj [ (s2l "style", JStr (s2l "ThickLine"));
       (s2l "color", JStr (s2l "Red"));
       (s2l "flags", JObj [(s2l "selected", JBool false); (s2l "wasUsedForGraph", JBool false); (s2l "linkTransfer", JBool false)]);
       (s2l "expr", JStr (s2l "")) ]);
      (s2l "X3T", JObj [ (s2l "style", JStr (s2l "ThickLine"));
       (s2l "color", JStr (s2l "Black"));
       (s2l "flags", JObj [(s2l "selected", JBool false); (s2l "wasUsedForGraph", JBool false); (s2l "linkTransfer", JBool false)]);
       (s2l "expr", JStr (s2l "")) ]);
      (s2l "Y3T", JObj [ (s2l "style", JStr (s2l "ThickLine"));
       (s2l "color", JStr (s2l "Black"));
       (s2l "flags", JObj [(s2l "selected", JBool false); (s2l "wasUsedForGraph", JBool false); (s2l "linkTransfer", JBool false)]);
       (s2l "expr", JStr (s2l "")) ]);
      (s2l "X4T", JObj [ (s2l "style", JStr (s2l "ThickLine"));
       (s2l "color", JStr (s2l "Magenta"));
       (s2l "flags", JObj [(s2l "selected", JBool false); (s2l "wasUsedForGraph", JBool false); (s2l "linkTransfer", JBool false)]);
       (s2l "expr", JStr (s2l "")) ]);
      (s2l "Y4T", JObj [ (s2l "style", JStr (s2l "ThickLine"));
       (s2l "color", JStr (s2l "Magenta"));
       (s2l "flags", JObj [(s2l "selected", JBool false); (s2l "wasUsedForGraph", JBool false); (s2l "linkTransfer", JBool false)]);
       (s2l "expr", JStr (s2l "")) ]);
      (s2l "X5T", JObj [ (s2l "style", JStr (s2l "ThickLine"));
       (s2l "color", JStr (s2l "Green"));
       (s2l "flags", JObj [(s2l "selected", JBool false); (s2l "wasUsedForGraph", JBool false); (s2l "linkTransfer", JBool false)]);
       (s2l "expr", JStr (s2l "")) ]);
      (s2l "Y5T", JObj [ (s2l "style", JStr (s2l "ThickLine"));
       (s2l "color", JStr (s2l "Green"));
       (s2l "flags", JObj [(s2l "selected", JBool false); (s2l "wasUsedForGraph", JBool false); (s2l "linkTransfer", JBool false)]);
       (s2l "expr", JStr (s2l "")) ]);
      (s2l "X6T", JObj [ (s2l "style", JStr (s2l "ThickLine"));
       (s2l "color", JStr (s2l "Orange"));
       (s2l "flags", JObj [(s2l "selected", JBool false); (s2l "wasUsedForGraph", JBool false); (s2l "linkTransfer", JBool false)]);
       (s2l "expr", JStr (s2l "")) ]);
      (s2l "Y6T", JObj [ (s2l "style", JStr (s2l "ThickLine"));
       (s2l "color", JStr (s2l "Orange"));
       (s2l "flags", JObj [(s2l "selected", JBool false); (s2l "wasUsedForGraph", JBool false); (s2l "linkTransfer", JBool false)]);
       (s2l "expr", JStr (s2l "")) ]) ]) ]);
    (s2l "global84CSettings", JObj [ (s2l "colors", JObj [(s2l "grid", JStr (s2l "MedGray")); (s2l "axes", JStr (s2l "Black")); (s2l "border", JNum 1 0)]);
     (s2l "other", JObj [(s2l "globalStyle", JStr (s2l "Thick")); (s2l "detectAsymptotes", JBool true)]) ]) ].

(** json/polar.default.json:1-94. *)
Definition polar_default : list (str * jv) :=
  [ (s2l "graphMode", JStr (s2l "Polar"));
    (s2l "formatSettings", JArr []);
    (s2l "extSettings", JObj [(s2l "showExpr", JBool true)]);
    (s2l "globalWindowSettings", JObj [ (s2l "Xmin", JNum (-100) (-1));
     (s2l "Xmax", JNum 100 (-1));
     (s2l "Xscl", JNum 10 (-1));
     (s2l "Ymin", JNum (-100) (-1));
     (s2l "Ymax", JNum 100 (-1));
     (s2l "Yscl", JNum 10 (-1)) ]);
    (s2l "specificData", JObj [ (s2l "settings", JObj [(s2l "Thetamin", JNum 0 (-1)); (s2l "Thetamax", JNum 6283185307 (-9)); (s2l "Thetastep", JNum 13089969389957 (-14))]);
     (s2l "equations", JObj [ (s2l "r1", JObj [ (s2l "style", JStr (s2l "ThickLine"));
       (s2l "color", JStr (s2l "Blue"));
       (s2l "flags", JObj [(s2l "selected", JBool false); (s2l "wasUsedForGraph", JBool false); (s2l "linkTransfer", JBool false)]);
       (s2l "expr", JStr (s2l "")) ]);
      (s2l "r2", JObj [ (s2l "style", JStr (s2l "ThickLine"));
       (s2l "color", JStr (s2l "Red"));
       (s2l "flags", JObj [(s2l "selected", JBool false); (s2l "wasUsedForGraph", JBool false); (s2l "linkTransfer", JBool false)]);
       (s2l "expr", JStr (s2l "")) ]);
      (s2l "r3", JObj [ (s2l "style", JStr (s2l "ThickLine"));
       (s2l "color", JStr (s2l "Black"));
       (s2l "flags", JObj [(s2l "selected", JBool false); (s2l "wasUsedForGraph", JBool false); (s2l "linkTransfer", JBool false)]);
       (s2l "expr", JStr (s2l "")) ]);
      (s2l "r4", JObj [ (s2l "style", JStr (s2l "ThickLine"));
       (s2l "color", JStr (s2l "Magenta"));
       (s2l "flags", JObj [(s2l "selected", JBool false); (s2l "wasUsedForGraph", JBool false); (s2l "linkTransfer", JBool false)]);
       (s2l "expr", JStr (s2l "")) ]);
      (s2l "r5", JObj [ (s2l "style", JStr (s2l "ThickLine"));
       (s2l "color", JStr (s2l "Green"));
       (s2l "flags", JObj [(s2l "selected", JBool false); (s2l "wasUsedForGraph", JBool false); (s2l "linkTransfer", JBool false)]);
       (s2l "expr", JStr (s2l "")) ]);
      (s2l "r6", JObj [ (s2l "style", JStr (s2l "ThickLine"));
       (s2l "color", JStr (s2l "Orange"));
       (s2l "flags", JObj [(s2l "selected", JBool false); (s2l "wasUsedForGraph", JBool false); (s2l "linkTransfer", JBool false)]);
       (s2l "expr", JStr (s2l "")) ]) ]) ]);
    (s2l "global84CSettings", JObj [ (s2l "colors", JObj [(s2l "grid", JStr (s2l "MedGray")); (s2l "axes", JStr (s2l "Black")); (s2l "border", JNum 1 0)]);
     (s2l "other", JObj [(s2l "globalStyle", JStr (s2l "Thick")); (s2l "detectAsymptotes", JBool true)]) ]) ].

(** json/seq.default.json:1-74. *)
Definition seq_default : list (str * jv) :=
  [ (s2l "graphMode", JStr (s2l "Sequence"));
    (s2l "formatSettings", JArr []);
    (s2l "seqSettings", JObj [(s2l "mode", JStr (s2l "Time"))]);
    (s2l "extSettings", JObj [(s2l "showExpr", JBool true)]);
    (s2l "globalWindowSettings", JObj [ (s2l "Xmin", JNum (-100) (-1));
     (s2l "Xmax", JNum 100 (-1));
     (s2l "Xscl", JNum 10 (-1));
     (s2l "Ymin", JNum (-100) (-1));
     (s2l "Ymax", JNum 100 (-1));
     (s2l "Yscl", JNum 10 (-1)) ]);
    (s2l "specificData", JObj [ (s2l "settings", JObj [ (s2l "nMin", JNum 0 0);
      (s2l "nMax", JNum 10 0);
      (s2l "PlotStart", JNum 1 0);
      (s2l "PlotStep", JNum 1 0);
      (s2l "unMin", JStr (s2l ""));
      (s2l "unMinp1", JStr (s2l ""));
      (s2l "vnMin", JStr (s2l ""));
      (s2l "vnMinp1", JStr (s2l ""));
      (s2l "wnMin", JStr (s2l ""));
      (s2l "wnMinp1", JStr (s2l "")) ]);
     (s2l "equations", JObj [ (s2l "u", JObj [ (s2l "style", JStr (s2l "ThickLine"));
       (s2l "color", JStr (s2l "Blue"));
       (s2l "flags", JObj [(s2l "selected", JBool false); (s2l "wasUsedForGraph", JBool false); (s2l "linkTransfer", JBool false)]);
       (s2l "expr", JStr (s2l "")) ]);
      (s2l "v", JObj [ (s2l "style", JStr (s2l "ThickLine"));
       (s2l "color", JStr (s2l "Red"));
       (s2l "flags", JObj [(s2l "selected", JBool false); (s2l "wasUsedForGraph", JBool false); (s2l "linkTransfer", JBool false)]);
       (s2l "expr", JStr (s2l "")) ]);
      (s2l "w", JObj [ (s2l "style", JStr (s2l "ThickLine"));
       (s2l "color", JStr (s2l "Black"));
       (s2l "flags", JObj [(s2l "selected", JBool false); (s2l "wasUsedForGraph", JBool false); (s2l "linkTransfer", JBool false)]);
       (s2l "expr", JStr (s2l "")) ]) ]) ]);
    (s2l "global84CSettings", JObj [ (s2l "colors", JObj [(s2l "grid", JStr (s2l "MedGray")); (s2l "axes", JStr (s2l "Black")); (s2l "border", JNum 1 0)]);
     (s2l "other", JObj [(s2l "globalStyle", JStr (s2l "Thick")); (s2l "detectAsymptotes", JBool true)]) ]) ].

(** [load_dict] with an optional dict: the four modes fall back on a packaged default;
    the two general classes require a dict (simplified: TypeError for the missing
    argument is not modelled, they are never called without).
    gdb.py:925-930, 1095-1100, 1241-1246, 1439-1444. *)
Definition default_dict (c : cls) : list (str * jv) :=
  match c with
  | KMonoParam | KParam => param_default
  | KMonoPolar | KPolar => polar_default
  | KMonoSeq | KSeq => seq_default
  | _ => func_default
  end.
