(** Model of binary floating point numbers as the real and complex numbers load
    and return them: [load_float], [float] and [__int__] of
    /repo/tivars/types/real.py, [load_complex] and [complex] of complex.py. *)
From Verif Require Import PyBase M_Data M_Numeric M_Class M_Var M_Real M_Complex.

(** A Python [float]: plus or minus [m * 2 ^ e], an infinity, or not a number.
    The limits of [m] and [e] do not matter for loading. *)
Inductive flt := FNum (neg : bool) (m e : Z) | FInf (neg : bool) | FNan.

(** [abs(f).as_integer_ratio()] in lowest terms, the denominator as a power of two:
    numerator and exponent of the denominator. *)
Definition float_ratio (m e : Z) : Z * Z :=
  if 0 <=? e then (m * 2 ^ e, 0)
  else let g := Z.gcd m (2 ^ (- e)) in (m / g, Z.log2 (2 ^ (- e) / g)).
(** [Decimal(f)] of a finite [f]: exact, [n / 2 ^ k = n * 5 ^ k * 10 ^ -k].
    (decimal module, from_float.) *)
Definition dec_of_float (neg : bool) (m e : Z) : dec :=
  let '(n, k) := float_ratio m e in Dec neg (n * 5 ^ k) (- k).
(** [str(Decimal(f))]. *)
Definition float_text (f : flt) : str :=
  match f with
  | FNum neg m e => dec_str (dec_of_float neg m e)
  | FInf neg => (if neg then s2l "-" else []) ++ s2l "Infinity"
  | FNan => s2l "NaN"
  end.

(** [float(Decimal)]: the nearest float, ties to even, subnormal numbers included;
    infinite beyond the largest float.  [scale2 e n d] is [n / d / 2 ^ e]. *)
Definition scale2 (e n d : Z) : Z * Z := if e <? 0 then (n * 2 ^ (- e), d) else (n, d * 2 ^ e).
Definition round_float (neg : bool) (n d : Z) : flt :=
  if n =? 0 then FNum neg 0 0
  else
    let g := Z.log2 n - Z.log2 d in
    let '(x, y) := scale2 g n d in
    let e := Z.max ((if x <? y then g - 1 else g) - 52) (-1074) in
    let '(x, y) := scale2 e n d in
    let m := half_even x y in
    if (971 <? e) || ((e =? 971) && (m =? 2 ^ 53)) then FInf neg else FNum neg m e.
Definition float_of_dec (d : dec) : flt :=
  if 0 <=? d_exp d then round_float (d_neg d) (d_coef d * 10 ^ d_exp d) 1
  else round_float (d_neg d) (d_coef d) (10 ^ (- d_exp d)).
(** [TIReal.float] (also of undefined numbers and fractions).  real.py:195-200, 266-272. *)
Definition real_float (b : buffer) : result flt := try d := real_decimal b in Ok (float_of_dec d).
(** [int(float)]: towards zero; OverflowError for infinities and ValueError for NaN. *)
Definition float_int (f : flt) : result Z :=
  match f with
  | FNum neg m e =>
      let v := if 0 <=? e then m * 2 ^ e else m / 2 ^ (- e) in Ok (if neg then - v else v)
  | FInf _ => Err OverflowError
  | FNan => Err ValueError
  end.
(** [RealEntry.__int__] of decimal numbers and fractions.  real.py:85-86. *)
Definition real_int (b : buffer) : result Z := try f := real_float b in float_int f.

Section Float.
  (** Python's [Fraction(text)]. *)
  Variable fraction_of : str -> result (Z * Z).

  (** [load_decimal] of the real classes, given the text of the decimal.  Radicals
      and multiples of pi refuse; fractions inherit the one of [TIReal], which calls
      their own [load_string].  real.py:155-163, 263-264, 364-366, 514-516, 635-637. *)
  Definition load_decimal_text (c : cls) (s : str) (b : buffer) : buffer * out unit :=
    match c with
    | KReal | KUndefReal => real_load s b
    | KRealFraction => fraction_load fraction_of s b
    | _ => (b, oerr NotImplementedError)
    end.
  (** [RealEntry.load_float] of a float.  real.py:172-180. *)
  Definition load_float (c : cls) (f : flt) (b : buffer) : buffer * out unit := load_decimal_text c (float_text f) b.
  (** [RealEntry.load_float] of an integer, on a [TIReal]: [int()] in [load_string]
      refuses more than 4300 digits (CPython's default limit).  real.py:172-180, 297. *)
  Definition load_int (n : Z) (b : buffer) : buffer * out unit :=
    if 4300 <? ndigits (Z.abs n) then (b, oerr ValueError)
    else real_load (dec_str (Dec (n <? 0) (Z.abs n) 0)) b.

  (** [c()] followed by [load_float].  var.py:360-390. *)
  Definition float_new (c : cls) (f : flt) : out real :=
    do b := real_fresh c in
    let '(b, (w, r)) := load_float c f b in
    (w, match r with Ok _ => Ok (Real c b) | Err x => Err x end).
  (** [load_complex] of the complex classes, for [comp = re + im * 1j].  The two types
      are looked up and both parts loaded before anything is assigned.  Simplified: what
      a failure of the assignments leaves behind is not described.
      complex.py:287-295, 367-375, 407-409, 427-429. *)
  Definition load_complex (re im : flt) (e : entry) : out entry :=
    match e_cls e with
    | KComplex | KComplexFraction =>
        do c := olift (real_type e) in
        do c' := olift (imag_type e) in
        do x := float_new c re in
        do y := float_new c' im in
        do (e, _) := set_real e x in
        do (e, _) := set_imag e y in
        oret e
    | _ => oerr NotImplementedError
    end.
  (** [ComplexEntry.complex] when both parts are decimal numbers or fractions: the pair
      of floats.  Simplified: zero parts keep the signs they have.
      complex.py:297-302. *)
  Definition complex_floats (e : entry) : out (flt * flt) :=
    do x := get_real e in
    do f := olift (real_float (r_buf x)) in
    do y := get_imag e in
    do g := olift (real_float (r_buf y)) in
    oret (f, g).
End Float.
