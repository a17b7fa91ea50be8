(** Model of /repo/tivars/types/complex.py, on top of the real numbers of
    M_Real.v and the entries of M_Var.v. *)
From Verif Require Import PyBase M_Data M_Numeric M_Flags M_Models M_Class M_Var M_Real.

(** [real_analogue] of the complex classes; other classes have no such
    attribute.  complex.py:118, 363, 387, 403, 423, 443. *)
Definition real_analogue (c : cls) : option cls :=
  match c with
  | KComplexEntry | KComplex => Some KReal
  | KComplexFraction => Some KRealFraction
  | KComplexRadical => Some KRealRadical
  | KComplexPi => Some KRealPi
  | KComplexPiFraction => Some KRealPiFraction
  | _ => None
  end.
(** [imag_subtype_id] of the real classes.  real.py:50, 238, 341, 389, 619, 666. *)
Definition imag_subtype (c : cls) : option Z :=
  match c with
  | KReal | KUndefReal => Some 12
  | KRealFraction => Some 27
  | KRealRadical => Some 29
  | KRealPi => Some 30
  | KRealPiFraction => Some 31
  | _ => None
  end.
(** [self.get_type(id).real_analogue]: AttributeError on [None] and on a class
    without the attribute.  complex.py:231-245. *)
Definition part_type (id : Z) : result cls :=
  match get_type id with
  | Some c => match real_analogue c with Some r => Ok r | None => Err AttributeError end
  | None => Err AttributeError
  end.

(** A real number as used for a part: its class and its payload.  Simplified:
    the metadata (name, version, flags) of the part's own entry is left out;
    the complex number never reads it. *)
Record real := Real { r_cls : cls; r_buf : buffer }.

(** A fresh real of class [c]: [TIEntry.clear] and [RealEntry.clear].
    var.py:667-673, real.py:136-140. *)
Definition real_fresh (c : cls) : out buffer :=
  match type_id_of c with
  | None => oret (Buf true (zeros 9))
  | Some t => set_bits_at (Some 9) 0 0 6 t (Buf true (zeros 9))
  end.
(** [RealEntry.get(data)] = [cls(data=data)]: an empty string counts as no data.
    var.py:570-579, 371-374. *)
Definition real_get (c : cls) (d : bytes) : out real :=
  do b := real_fresh c in
  match d with
  | [] => oret (Real c b)
  | _ => do b := view_set None (View None None) (oret d) b in oret (Real c b)
  end.

(** The subtype, graph and sign bits.  complex.py:191-229. *)
Definition real_subtype (e : entry) : result Z := get_bits_at 0 0 6 (e_data e).
Definition imag_subtype_get (e : entry) : result Z := get_bits_at 9 0 6 (e_data e).
(** [real_type], [imag_type].  complex.py:231-245. *)
Definition real_type (e : entry) : result cls := try t := real_subtype e in part_type t.
Definition imag_type (e : entry) : result cls := try t := imag_subtype_get e in part_type t.
(** The [real] and [imag] views, read.  complex.py:26-35, 62-72, 179-189. *)
Definition get_real (e : entry) : out real :=
  do c := olift (real_type e) in real_get c (view_get (View (Some 0) (Some 9)) (e_data e)).
Definition get_imag (e : entry) : out real :=
  do c := olift (imag_type e) in real_get c (view_get (View (Some 9) (Some 18)) (e_data e)).

(** [value.subtype_id = value.imag_subtype_id]; assigning [None] is a
    TypeError.  complex.py:45, 83 with real.py:98-99. *)
Definition mark_part (x : real) : out real :=
  match imag_subtype (r_cls x) with
  | None => oerr TypeError
  | Some t => do b := set_subtype t (r_buf x) in oret (Real (r_cls x) b)
  end.
(** [e.real = x]: the new entry, and [x] as the assignment leaves it.
    complex.py:37-47, 179-183. *)
Definition set_real (e : entry) (x : real) : out (entry * real) :=
  do x' := mark_part x in
  do b := view_set (Some 18) (View (Some 0) (Some 9)) (oret (b_data (r_buf x'))) (e_data e) in
  oret (with_data e b, x').
(** [e.imag = x]: the chained assignment writes the entry's subtype first, then
    the operand's; then the entry is coerced, then the bytes are stored.
    complex.py:74-86, 185-189. *)
Definition set_imag (e : entry) (x : real) : out (entry * real) :=
  match imag_subtype (r_cls x) with
  | None => oerr TypeError
  | Some t =>
      do b := set_bits_at (Some 18) 9 0 6 t (e_data e) in
      do x' := mark_part x in
      do e := coerce_complex (with_data e b) in
      do b := view_set (Some 18) (View (Some 9) (Some 18)) (oret (b_data (r_buf x'))) (e_data e) in
      oret (with_data e b, x')
  end.

(** [get_version] on given or own data ([data or self.data]).  An index out of
    range raises IndexError.  complex.py:271-282. *)
Definition complex_version (e : entry) (arg : option bytes) : result Z :=
  let d := match arg with Some ((_ :: _) as d) => d | _ => data e end in
  try a := py_index d 0 in
  try b := py_index d 9 in
  let m := Z.max a b in
  Ok (if m =? 12 then 0 else if m =? 27 then 11 else 16).

Section Text.
  (** Python's [Fraction(text)]: numerator and denominator in lowest terms, or
      an error. *)
  Variable fraction_of : str -> result (Z * Z).

  (** [TIRealFraction.load_string], [TIRealPiFraction.load_string] (the result
      of [replacer] is dropped at line 683).  real.py:353-359, 364-366, 681-688. *)
  Definition fraction_load (s : str) (b : buffer) : buffer * out unit :=
    match fraction_of (squash s) with
    | Err e => (b, oerr e)
    | Ok (n, d) => load_fraction n d b
    end.
  Definition pi_fraction_load (s : str) (b : buffer) : buffer * out unit :=
    if leqb s (s2l "0") || memb 960 s then fraction_load (str_replace [960] [] s) b
    else (b, oerr ValueError).
  (** [load_string] of the real classes.  real.py:274-312, 364-366, 523-558, 645-652, 681-688. *)
  Definition part_load (c : cls) (s : str) (b : buffer) : buffer * out unit :=
    match c with
    | KReal | KUndefReal => real_load s b
    | KRealFraction => fraction_load s b
    | KRealRadical => radical_load s b
    | KRealPi => real_pi_load s b
    | KRealPiFraction => pi_fraction_load s b
    | _ => (b, oerr NotImplementedError)
    end.
  (** [c(text)]: a fresh real, then [load_string].  var.py:343-390. *)
  Definition real_new (c : cls) (s : str) : out real :=
    do b := real_fresh c in
    let '(b, (w, r)) := part_load c s b in
    (w, match r with Ok _ => Ok (Real c b) | Err x => Err x end).

  (** The pieces of the text: real part and imaginary part without its unit.
      Indexing a missing second piece is an IndexError; further pieces are
      ignored.  complex.py:304-320. *)
  Definition complex_norm (s : str) : str :=
    replacer (squash s) [(s2l "*", []); (s2l "-", s2l "+-"); (s2l "[i]", s2l "i"); (s2l "j", s2l "i")].
  Definition pick_parts (parts : list str) : result (str * str) :=
    let parts := match parts with [] :: r => r | _ => parts end in
    let parts := match parts with
                 | [p] => if memb 105 p then [s2l "0"; p] else [p; s2l "0i"]
                 | _ => parts
                 end in
    match parts with
    | p :: q :: _ =>
        let q := str_replace (s2l "i") [] q in
        Ok (p, match q with [] => s2l "1" | _ => q end)
    | _ => Err IndexError
    end.
  Definition complex_parts (s : str) : result (str * str) :=
    pick_parts (split_on 43 (strip (s2l "+") (complex_norm s))).
  Definition caught (x : exn) : bool := match x with TypeError | ValueError => true | _ => false end.
  (** The search over the registered real classes.  complex.py:326-341. *)
  Fixpoint try_types (l : list (Z * cls)) (sub : Z) (p : str) (e : entry) : out entry :=
    match l with
    | [] => oerr ValueError
    | (id, c) :: r =>
        if negb (issubclass c KRealEntry) || (id =? sub) then try_types r sub p e
        else
          match (do x := real_new c p in set_real e x) with
          | (w, Ok (e', _)) => (w, Ok e')
          | (w, Err x) =>
              if caught x then let '(w', r') := try_types r sub p e in (w ++ w', r') else (w, Err x)
          end
    end.
  (** [ComplexEntry.load_string].  complex.py:302-344.  Simplified: what a
      failure leaves behind is not described. *)
  Definition complex_load (s : str) (e : entry) : out entry :=
    do (p, q) := olift (complex_parts s) in
    do e := match (do c := olift (real_type e) in do x := real_new c p in set_real e x) with
            | (w, Ok (e', _)) => (w, Ok e')
            | (w, Err x) =>
                if caught x then
                  do _ := (w, Ok tt) in
                  do sub := olift (real_subtype e) in try_types registry sub p e
                else (w, Err x)
            end in
    do c := olift (imag_type e) in
    do y := real_new c q in
    do (e, _) := set_imag e y in
    oret e.
End Text.

(** [__format__] with an empty format when both parts are [TIReal]s: every
    [+ -] becomes [- ], then every [ 1i] becomes [ i].  complex.py:133-156. *)
Definition complex_string (re im : buffer) : result str :=
  try a := real_string re in
  try b := real_string im in
  if leqb b (s2l "0") then Ok a
  else if leqb a (s2l "0") then Ok (b ++ s2l "i")
  else Ok (replacer (a ++ s2l " + " ++ b ++ s2l "i") [(s2l "+ -", s2l "- "); (s2l " 1i", s2l " i")]).
