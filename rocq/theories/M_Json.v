(** Model of numbers in dictionaries (JSON): [RealEntry.json_number] of
    /repo/tivars/types/real.py and the numbers that [load_dict] of gdb.py makes. *)
From Verif Require Import PyBase M_Data M_Numeric M_Class M_Var M_Real M_Complex M_Gdb M_GdbDict M_Float.

(** The decimal without trailing zeros. *)
Fixpoint fewest (fuel : nat) (c k : Z) : Z * Z :=
  match fuel with
  | O => (c, k)
  | S f => if c mod 10 =? 0 then fewest f (c / 10) (k + 1) else (c, k)
  end.
(** An exponent of at least two digits, with a sign. *)
Definition exponent_text (x : Z) : str :=
  (if x <? 0 then s2l "-" else s2l "+") ++ (if Z.abs x <? 10 then s2l "0" else []) ++ map char_of_digit (digits (Z.abs x)).
(** [str(float)] with the shortest digits [c], for the float [c * 10 ^ k] (CPython's
    format_float_short with code 'r'). *)
Definition float_repr (neg : bool) (c k : Z) : str :=
  let ds := map char_of_digit (digits c) in
  let n := zlen ds in
  let point := n + k in
  (if neg then s2l "-" else []) ++
  (if (-4 <? point) && (point <=? 16) then
     if point <=? 0 then s2l "0." ++ repeat 48 (Z.to_nat (- point)) ++ ds
     else if n <=? point then ds ++ repeat 48 (Z.to_nat (point - n)) ++ s2l ".0"
     else firstn (Z.to_nat point) ds ++ s2l "." ++ skipn (Z.to_nat point) ds
   else firstn 1 ds ++ (if n =? 1 then [] else s2l "." ++ skipn 1 ds) ++ s2l "e" ++ exponent_text (point - 1)).
(** [RealEntry.json_number] of decimal numbers and fractions.  [str(float)] is the
    shortest text that reads as the float; simplified: it is taken to be that of the
    stored decimal, the only one of up to 14 digits with that float (C141_unique).  A
    float that is whole is written with one decimal place.  real.py:182-200. *)
Definition json_number (b : buffer) : result jv :=
  try d := real_decimal b in
  let '(c, k) := if d_coef d =? 0 then (0, 0) else fewest 14 (d_coef d) (d_exp d) in
  let s := float_repr (d_neg d) c k in
  if zlen s <=? 6 then let v := if 0 <=? k then c * 10 ^ (k + 1) else c in Ok (JNum (if d_neg d then - v else v) (Z.min k (-1)))
  else Ok (JStr s).
(** [int(number)] in a dictionary.  gdb.py:936, 1493-1496; real.py:85-86. *)
Definition json_whole (b : buffer) : result jv := try n := real_int b in Ok (JNum n 0).
(** [TIReal(value)]: an [int] or [float] goes to [load_float], a text to [load_string].
    Simplified: other values, [True] and [False] included, are refused.
    gdb.py:631, 640; real.py:172-180, 275-312. *)
Definition json_load (j : jv) (b : buffer) : buffer * out unit :=
  match j with
  | JNum m e => if e =? 0 then load_int m b else load_float (fun _ => Err ValueError) KReal (float_of_dec (Dec (m <? 0) (Z.abs m) e)) b
  | JStr s => real_load s b
  | _ => (b, oerr TypeError)
  end.
Definition json_real (j : jv) : out bytes :=
  do b := real_fresh KReal in
  let '(b, (w, r)) := json_load j b in
  (w, match r with Ok _ => Ok (b_data b) | Err x => Err x end).

(** [int(value) == float(value)] for the float of a number; Python compares exactly. *)
Definition float_is_int (f : flt) : result bool :=
  match f with
  | FNum _ m e => Ok ((0 <=? e) || (m mod 2 ^ (- e) =? 0))
  | FInf _ => Err OverflowError
  | FNan => Err ValueError
  end.
(** Whether a setting warns about a decimal number or fraction: those that must be whole,
    and [Xres], which must also be from 1 to 8.
    gdb.py:858-862, 1336-1340, 1350-1354, 1376-1380, 1408-1412; settings.py:170-174,
    184-188, 210-214, 242-246, 256-260, 413-417, 427-431, 453-457, 485-489, 499-503,
    584-588, 598-602. *)
Definition real_misfit (xres : bool) (b : buffer) : result bool :=
  try f := real_float b in
  try n := float_int f in
  try w := float_is_int f in
  Ok (negb w || (xres && negb ((1 <=? n) && (n <=? 8)))).
(** The warning by the name of a setting of a GDB.  [GraphRealEntry.set] itself never warns
    about a [TIReal], and its float is never infinite (C137_nearest).  gdb.py:462-497,
    850-862, 1004-1020, 1186-1202, 1328-1419; real.py:218-224. *)
Definition graph_misfit (n : str) (b : bytes) : bool :=
  if existsb (leqb n) whole_names then match real_misfit (leqb n (s2l "Xres")) (Buf true b) with Ok w => w | Err _ => true end
  else false.
