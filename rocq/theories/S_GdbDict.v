(** Specifications for GDB dictionaries: what remains of a GDB after its dictionary
    is loaded again. *)
From Verif Require Import PyBase M_Class S_Var S_Gdb.

(** The names of the numbers of each mode, in storage order; each takes nine bytes,
    the first from position 7. *)
Definition params (c : cls) : list str :=
  map s2l ["Xmin"; "Xmax"; "Xscl"; "Ymin"; "Ymax"; "Yscl"]%string ++
  map s2l
    match c with
    | KMonoFunc | KFunc => ["Xres"]
    | KMonoParam | KParam => ["Tmin"; "Tmax"; "Tstep"]
    | KMonoPolar | KPolar => ["Thetamin"; "Thetamax"; "Thetastep"]
    | KMonoSeq | KSeq => ["PlotStart"; "nMax"; "unMin"; "vnMin"; "nMin"; "unMinp1"; "vnMinp1"; "wnMin"; "PlotStep"; "wnMinp1"]
    | _ => []
    end%string.
Definition is_seq (c : cls) : bool := match c with KMonoSeq | KSeq => true | _ => false end.
(** The bytes of number [k] in the head of a GDB. *)
Definition number_at (h : bytes) (k : nat) : bytes := firstn 9 (skipn (7 + 9 * k) h).
(** The number whose value is shown under number [k]: itself, except that vnMin
    (number 9 of a sequence GDB) shows vnMinp1 (number 12). *)
Definition shown_at (c : cls) (k : nat) : nat := if is_seq c && Nat.eqb k 9 then 12%nat else k.
(** The numbers shown as whole numbers: Xres; PlotStart, nMax, nMin, PlotStep. *)
Definition whole_at (c : cls) (k : nat) : bool :=
  match c with
  | KMonoFunc | KFunc => Nat.eqb k 6
  | KMonoSeq | KSeq => existsb (Nat.eqb k) [6; 7; 10; 14]%nat
  | _ => false
  end.

(** The format byte: the grid bit is lost together with bit 7. *)
Definition format_again (b : Z) : Z := if b <? 128 then b else Z.land b 123.
(** The extended byte: only bit 0, and in sequence mode the offset unless both of
    its bits are set. *)
Definition ext_again (c : cls) (b : Z) : Z := if is_seq c && negb (b mod 8 / 2 =? 3) then b mod 8 else b mod 2.
(** The flag byte of an equation: bits 0 and 1 set, 5 to 7 kept. *)
Definition flag_again (f : Z) : Z := 3 + Z.land f 224.
(** The sequence byte has one of the six named plot types. *)
Definition named_kind (b : Z) : bool := existsb (Z.eqb (b mod 32)) [0; 1; 2; 4; 8; 16].
(** The size of a GDB without tokens. *)
Definition empty_size (p s r : nat) (t : bool) : Z := Z.of_nat (61 + 9 * p + s + 3 * (s * r) + (if t then 3 + s + 5 else 0)).

(** The GDB made of the dictionary of [g], when number [k] comes back as [again k]
    and the tokens of [q] as [retext q]. *)
Definition gdb_again (c : cls) (again : nat -> bytes) (retext : eqn -> bytes) (g : gdb) : gdb :=
  match shape c with
  | Some (p, s, r) =>
      Gdb (le16 (empty_size p s r (colour c) - 2) ++
           [0; mode_value c; format_again (nth 4 (g_head g) 0); 0; ext_again c (nth 6 (g_head g) 0)] ++
           concat (map again (seq 0 (6 + p))))
          (g_styles g)
          (map (fun q => Eqn (flag_again (x_flag q)) (retext q)) (g_eqns g))
          (option_map (fun t => Tail [56; 52; 67] (t_colors t)
              (match t_rest t with
               | [grid; axes; line; border; asym] => [grid; axes; line; if border =? 0 then 4 else border; asym mod 2]
               | l => l
               end)) (g_tail g))
  | None => g
  end.

(** The values that have names. *)
Definition named_style (x : Z) : Prop := 0 <= x <= 6.
Definition named_color (x : Z) : Prop := 0 <= x <= 15.
Definition named_rest (l : bytes) : Prop :=
  exists grid axes line border asym, l = [grid; axes; line; border; asym] /\
    named_color grid /\ named_color axes /\ 0 <= line <= 3 /\ 0 <= border <= 4 /\ is_byte asym.

(** The GDB of the packaged defaults: thick lines, no tokens, seven colours in turn. *)
Definition window (c : cls) : list bytes :=
  let ten := [0; 129; 16; 0; 0; 0; 0; 0; 0] in let one := [0; 128; 16; 0; 0; 0; 0; 0; 0] in
  [ [128; 129; 16; 0; 0; 0; 0; 0; 0]; ten; one; [128; 129; 16; 0; 0; 0; 0; 0; 0]; ten; one ] ++
  match c with
  | KFunc => [one]
  | _ => [ [0; 128; 0; 0; 0; 0; 0; 0; 0]; [0; 128; 98; 131; 24; 83; 7; 0; 0]; [0; 127; 19; 8; 153; 105; 56; 153; 87] ]
  end.
Definition default_gdb (c : cls) : gdb :=
  match shape c with
  | Some (p, s, r) =>
      Gdb (le16 (empty_size p s r true - 2) ++ [0; mode_value c; 0; 0; 0] ++ concat (window c)) (repeat 1 s) (repeat (Eqn 3 []) (s * r))
          (Some (Tail [56; 52; 67] (firstn s [1; 2; 3; 4; 5; 6; 7; 1; 2; 3]) [13; 3; 0; 1; 0]))
  | None => Gdb [] [] [] None
  end.
(** A GDB that its dictionary keeps: the size of an empty one, nothing in the bytes and
    bits without a name, a border colour, and numbers and tokens that come back. *)
Definition gdb_kept (c : cls) (again : nat -> bytes) (retext : eqn -> bytes) (g : gdb) : Prop :=
  exists p s r x T, shape c = Some (p, s, r) /\
    g_head g = le16 (empty_size p s r (colour c) - 2) ++ [0; mode_value c; x; 0] ++ T /\ 0 <= x < 128 /\
    (exists e nums, T = e :: nums /\ (if is_seq c then 0 <= e < 6 else 0 <= e < 2) /\ nums = concat (map again (seq 0 (6 + p)))) /\
    Forall (fun q => Z.land (x_flag q) 31 = 3 /\ x_body q = retext q) (g_eqns g) /\
    match g_tail g with
    | Some t => t_magic t = [56; 52; 67] /\ exists grid axes line border asym, t_rest t = [grid; axes; line; border; asym] /\ border <> 0 /\ 0 <= asym < 2
    | None => True
    end.

(** The format names: the bits each sets and clears.  Names of other bytes are accepted
    too. *)
Definition format_bits : list (str * (Z * Z)) :=
  [ (s2l "Dot", (1, 0)); (s2l "Connected", (0, 1)); (s2l "Simul", (2, 0)); (s2l "Sequential", (0, 2));
    (s2l "GridOn", (4, 128)); (s2l "GridOff", (0, 132)); (s2l "GridLine", (132, 0)); (s2l "GridDot", (4, 128));
    (s2l "PolarGC", (8, 0)); (s2l "RectGC", (0, 8)); (s2l "CoordOn", (0, 16)); (s2l "CoordOff", (16, 0));
    (s2l "AxesOff", (32, 0)); (s2l "AxesOn", (0, 32)); (s2l "LabelOn", (64, 0)); (s2l "LabelOff", (0, 64));
    (s2l "ExprOff", (1, 0)); (s2l "ExprOn", (0, 1)); (s2l "SEQ_n", (0, 6)); (s2l "SEQ_np1", (2, 4)); (s2l "SEQ_np2", (4, 2));
    (s2l "DetectAsymptotesOff", (1, 0)); (s2l "DetectAsymptotesOn", (0, 1)) ].
Definition bits_of (s : str) : option (Z * Z) := option_map snd (find (fun p => leqb (fst p) s) format_bits).
(** The format byte after a list of names, and how many of them are unknown. *)
Fixpoint formats_byte (l : list str) (x : Z) : Z :=
  match l with [] => x | s :: r => formats_byte r (match bits_of s with Some (a, b) => Z.lor (Z.ldiff x b) a | None => x end) end.
Fixpoint unknown_formats (l : list str) : nat :=
  match l with [] => 0%nat | s :: r => match bits_of s with Some _ => unknown_formats r | None => S (unknown_formats r) end end.

(** The names of styles, colours and line styles, by their values from 0 on. *)
Definition style_list : list str := map s2l ["SolidLine"; "ThickLine"; "ShadeAbove"; "ShadeBelow"; "Trace"; "Animate"; "DottedLine"]%string.
Definition color_list : list str := map s2l ["Mono"; "Blue"; "Red"; "Black"; "Magenta"; "Green"; "Orange"; "Brown"; "Navy"; "LtBlue"; "Yellow";
  "White"; "LtGray"; "MedGray"; "Gray"; "DarkGray"]%string.
Definition line_list : list str := map s2l ["Thick"; "DotThick"; "Thin"; "DotThin"]%string.
(** The name of equation [k] (from 0) in each mode: Y1 to Y9 and Y0; X1T, Y1T, X2T, ...;
    r1 to r6; u, v, w. *)
Definition equation_at (c : cls) (k : nat) : option str :=
  let digit n := 48 + Z.of_nat (n mod 10) in
  match c with
  | KMonoFunc | KFunc => if Nat.ltb k 10 then Some [89; digit (k + 1)%nat] else None
  | KMonoParam | KParam => if Nat.ltb k 12 then Some [if Nat.even k then 88 else 89; digit (k / 2 + 1)%nat; 84] else None
  | KMonoPolar | KPolar => if Nat.ltb k 6 then Some [114; digit (k + 1)%nat] else None
  | KMonoSeq | KSeq => if Nat.ltb k 3 then Some [117 + Z.of_nat k] else None
  | _ => None
  end.

(** The name of a mode byte. *)
Definition mode_name (b : Z) : option str :=
  if b =? 16 then Some (s2l "Function") else if b =? 32 then Some (s2l "Polar") else if b =? 64 then Some (s2l "Parametric") else if b =? 128 then Some (s2l "Sequence") else None.
