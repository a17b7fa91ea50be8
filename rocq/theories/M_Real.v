(** Model of /repo/tivars/types/real.py: real numbers, fractions, radicals,
    multiples of pi.  The state of a number is the raw slot behind [calc_data]
    (nine bytes). *)
From Verif Require Import PyBase M_Data M_Numeric M_Flags M_Models M_Class M_Var.

(** * Text helpers of the Python language *)

(** [s.lower()] on ASCII letters (simplification: the other characters with a
    lower-case form are rejected by the parsers below either way). *)
Definition lower (s : str) : str := map (fun c => if (65 <=? c) && (c <=? 90) then c + 32 else c) s.
(** [s.split(c)] for a one-character separator. *)
Fixpoint split_on (c : Z) (s : str) : list str :=
  match s with
  | [] => [[]]
  | x :: r =>
      if x =? c then [] :: split_on c r
      else match split_on c r with
           | p :: ps => (x :: p) :: ps
           | [] => [[x]]
           end
  end.
(** [s.lstrip(cs)], [s.rstrip(cs)], [s.strip(cs)]. *)
Fixpoint lstrip (cs s : str) : str :=
  match s with [] => [] | c :: r => if memb c cs then lstrip cs r else s end.
Definition rstrip (cs s : str) : str := rev (lstrip cs (rev s)).
Definition strip (cs s : str) : str := rstrip cs (lstrip cs s).
(** [s or "0"]. *)
Definition or_zero (s : str) : str := match s with [] => [48] | _ => s end.
(** [s.ljust(n, "0")]. *)
Definition ljust_zero (n : nat) (s : str) : str := s ++ repeat 48 (n - length s).

(** A sequence of attribute assignments; each sees the slot its predecessors
    left, and one that raises leaves the slot as it found it. *)
Fixpoint run_steps (ss : list (buffer -> out buffer)) (b : buffer) : buffer * out unit :=
  match ss with
  | [] => (b, oret tt)
  | s :: r =>
      match s b with
      | (w, Ok b') => let '(b2, (w', x)) := run_steps r b' in (b2, (w ++ w', x))
      | (w, Err e) => (b, (w, Err e))
      end
  end.

(** * Decimal numbers (Python's decimal module) *)

(** A finite [Decimal]: sign, coefficient, exponent. *)
Record dec := Dec { d_neg : bool; d_coef : Z; d_exp : Z }.
(** Rounding of [n / d] to the nearest integer, ties to even. *)
Definition half_even (n d : Z) : Z :=
  let q := n / d in
  let r := n mod d in
  if 2 * r <? d then q else if d <? 2 * r then q + 1 else if Z.even q then q else q + 1.
(** Number of decimal digits of the coefficient. *)
Definition ndigits (n : Z) : Z := zlen (digits n).
(** Rounding to a precision of 14 digits (context rounding ROUND_HALF_EVEN). *)
Definition dec_fix (d : dec) : dec :=
  let k := ndigits (d_coef d) - 14 in
  if k <=? 0 then d
  else
    let c := half_even (d_coef d) (10 ^ k) in
    if c <? 10 ^ 14 then Dec (d_neg d) c (d_exp d + k)
    else Dec (d_neg d) (c / 10) (d_exp d + k + 1).

(** [while exp < ideal and coeff % 10 == 0] with ideal exponent 0. *)
Fixpoint strip_zeros (fuel : nat) (c e : Z) : Z * Z :=
  match fuel with
  | O => (c, e)
  | S f => if (e <? 0) && (c mod 10 =? 0) then strip_zeros f (c / 10) (e + 1) else (c, e)
  end.
(** [Decimal(n) / d] for integers, d > 0, precision 14 (decimal module,
    __truediv__: the result with one guard digit, then [dec_fix]). *)
Definition dec_div (n d : Z) : dec :=
  let a := Z.abs n in
  let neg := n <? 0 in
  if a =? 0 then Dec false 0 0
  else
    let shift := ndigits d - ndigits a + 15 in
    let num := if 0 <=? shift then a * 10 ^ shift else a in
    let den := if 0 <=? shift then d else d * 10 ^ (- shift) in
    let q := num / den in
    if num mod den =? 0 then
      let '(c, e) := strip_zeros (Z.to_nat shift) q (- shift) in dec_fix (Dec neg c e)
    else dec_fix (Dec neg (if q mod 5 =? 0 then q + 1 else q) (- shift)).

(** [str(decimal)] (to-scientific-string). *)
Definition dec_str (d : dec) : str :=
  let ds := map char_of_digit (digits (d_coef d)) in
  let n := zlen ds in
  let left := d_exp d + n in
  let dot := if (d_exp d <=? 0) && (-6 <? left) then left else 1 in
  let body :=
    if dot <=? 0 then s2l "0." ++ repeat 48 (Z.to_nat (- dot)) ++ ds
    else if n <=? dot then ds ++ repeat 48 (Z.to_nat (dot - n))
    else firstn (Z.to_nat dot) ds ++ s2l "." ++ skipn (Z.to_nat dot) ds in
  let e := left - dot in
  let tail := if e =? 0 then []
              else s2l "E" ++ (if 0 <=? e then s2l "+" else []) ++ str_of_int e in
  (if d_neg d then s2l "-" else []) ++ body ++ tail.

(** [f"{d:.14f}"]. *)
Definition dec_fixed14 (d : dec) : str :=
  let n := if -14 <=? d_exp d then d_coef d * 10 ^ (d_exp d + 14)
           else half_even (d_coef d) (10 ^ (-14 - d_exp d)) in
  let frac := map char_of_digit (digits (n mod 10 ^ 14)) in
  (if d_neg d then s2l "-" else []) ++ map char_of_digit (digits (n / 10 ^ 14)) ++ s2l "." ++
  repeat 48 (14 - length frac) ++ frac.

(** * Floating point numbers *)

(** Views of [calc_data].  real.py:98-118 (subtype, graph and sign bits),
    247-261 (exponent, mantissa). *)
Definition real_view (a b : Z) : view := View (Some a) (Some b).
Definition get_subtype (b : buffer) : result Z := section_get (bits_get 0 6 (view_get (real_view 0 1) b)).
Definition get_graph (b : buffer) : result Z := section_get (bits_get 6 7 (view_get (real_view 0 1) b)).
Definition get_sign (b : buffer) : result Z := section_get (bits_get 7 8 (view_get (real_view 0 1) b)).
Definition get_exponent (b : buffer) : Z := integer_get (view_get (real_view 1 2) b).
Definition get_mantissa (b : buffer) : Z := bcd_get (view_get (real_view 2 9) b).
Definition set_subtype (v : Z) (b : buffer) : out buffer :=
  view_set (Some 9) (real_view 0 1) (bits_set 0 6 v (Some (view_get (real_view 0 1) b))) b.
Definition set_sign (v : Z) (b : buffer) : out buffer :=
  view_set (Some 9) (real_view 0 1) (bits_set 7 8 v (Some (view_get (real_view 0 1) b))) b.
Definition set_exponent (v : Z) (b : buffer) : out buffer :=
  view_set (Some 9) (real_view 1 2) (olift (integer_set v (Some 1%nat))) b.
Definition set_mantissa (v : Z) (b : buffer) : out buffer :=
  view_set (Some 9) (real_view 2 9) (olift (bcd_set v (Some 7%nat))) b.

(** The loop moving the point behind the first digit.  Fuel is proved
    sufficient.  real.py:303-310. *)
Fixpoint shift_point (fuel : nat) (integer decimal : str) (e : Z) : result (str * str * Z) :=
  match fuel with
  | O => Err ValueError
  | S f =>
      try v := parse_int 10 integer in
      if (0 <? v) && (v <? 10) then Ok (integer, decimal, e)
      else if v =? 0 then
        match decimal with
        | [] => Err IndexError
        | c :: r => shift_point f [c] r (e - 1)
        end
      else shift_point f (removelast integer) (skipn (length integer - 1) integer ++ decimal) (e + 1)
  end.
(** The text part of [TIReal.load_string]: mantissa, biased exponent, sign.
    real.py:274-312. *)
Definition real_parse (s : str) : result (Z * Z * bool) :=
  match s with
  | [] => Ok (0, 128, false)
  | _ =>
      let s := replacer (lower (squash s)) [(s2l "~", s2l "-"); (s2l "|e", s2l "e")] in
      let s := if memb 101 s then s else s ++ s2l "e0" in
      let s := if memb 46 s then s else str_replace (s2l "e") (s2l ".e") s in
      let neg := starts_with (s2l "-") s in
      let s := strip (s2l "+-") s in
      match split_on 101 s with
      | [number; exponent] =>
          match split_on 46 number with
          | [integer; decimal] =>
              let integer := or_zero integer in
              let decimal := or_zero decimal in
              try i := parse_int 10 integer in
              try d := parse_int 10 decimal in
              if (i =? d) && (d =? 0) then Ok (0, 128, neg)
              else
                try e := parse_int 10 (or_zero exponent) in
                try (integer, decimal, e) := shift_point (S (length integer + length decimal)) integer decimal e in
                try m := parse_int 10 (firstn 14 (ljust_zero 14 (integer ++ decimal))) in
                Ok (m, e + 128, neg)
          | _ => Err ValueError
          end
      | _ => Err ValueError
      end
  end.
(** [TIReal.load_string]: the three assignments in order.  real.py:276, 299,
    312. *)
Definition real_load (s : str) (b : buffer) : buffer * out unit :=
  match real_parse s with
  | Err e => (b, oerr e)
  | Ok (m, x, neg) => run_steps [set_mantissa m; set_exponent x; set_sign (Z.b2z neg)] b
  end.
(** [TIReal.load_decimal].  real.py:263-264. *)
Definition real_load_decimal (d : dec) (b : buffer) : buffer * out unit := real_load (dec_str d) b.

(** [TIReal.decimal].  real.py:266-272.  [Decimal(10) ** n] is represented by
    coefficient 1 and exponent n: its coefficient in Python may carry zeros,
    which changes no value here. *)
Definition real_decimal (b : buffer) : result dec :=
  try s := get_sign b in
  Ok (dec_fix (Dec (negb (s =? 0) && negb (get_mantissa b =? 0)) (get_mantissa b) (get_exponent b - 128 - 13))).
(** [RealEntry.__format__] with an empty format, i.e. [str()] and [string()].
    real.py:65-72. *)
Definition real_string (b : buffer) : result str :=
  try d := real_decimal b in
  if d_coef d =? 0 then Ok (s2l "0")
  else Ok (rstrip (s2l ".") (rstrip (s2l "0") (dec_fixed14 d))).

(** * Fractions *)

(** [TIRealFraction.load_fraction] for numerator and denominator.
    real.py:353-359. *)
Definition load_fraction (n d : Z) (b : buffer) : buffer * out unit :=
  real_load (dec_str (dec_div n d)) b.

(** [Fraction(decimal)]: the integer ratio in lowest terms. *)
Definition dec_ratio (d : dec) : Z * Z :=
  let n := if d_neg d then - d_coef d else d_coef d in
  if 0 <=? d_exp d then (n * 10 ^ d_exp d, 1)
  else let g := Z.gcd n (10 ^ (- d_exp d)) in (n / g, 10 ^ (- d_exp d) / g).
(** [Fraction.limit_denominator] of Python's fractions module (3.11,
    fractions.py:202-256): the continued fraction loop, then the closer of the
    two bounds, the comparison cleared of denominators.  Fuel is proved
    sufficient. *)
Fixpoint limit_loop (fuel : nat) (M p0 q0 p1 q1 n d : Z) : Z * Z * Z * Z :=
  match fuel with
  | O => (p0, q0, p1, q1)
  | S f =>
      let a := n / d in
      let q2 := q0 + a * q1 in
      if M <? q2 then (p0, q0, p1, q1)
      else limit_loop f M p1 q1 (p0 + a * p1) q2 d (n - a * d)
  end.
Definition limit_denominator (M : Z) (x : Z * Z) : Z * Z :=
  let '(n, d) := x in
  if d <=? M then x
  else
    let '(p0, q0, p1, q1) := limit_loop (S (S (S (Z.to_nat M)))) M 0 1 1 0 n d in
    let k := (M - q0) / q1 in
    let p := p0 + k * p1 in
    let q := q0 + k * q1 in
    if Z.abs (p1 * d - n * q1) * q <=? Z.abs (p * d - n * q) * q1 then (p1, q1) else (p, q).
(** [TIRealFraction.fraction].  real.py:361-362. *)
Definition real_fraction (b : buffer) : result (Z * Z) :=
  try d := real_decimal b in Ok (limit_denominator 10000 (dec_ratio d)).

(** * Multiples of pi *)

(** [TIRealPi.load_string].  real.py:645-652. *)
Definition real_pi_load (s : str) (b : buffer) : buffer * out unit :=
  let s := replacer s [(s2l "pi", [960]); (s2l "*", [])] in
  if memb 960 s then real_load (strip [960] s) b else (b, oerr ValueError).

(** [TIRealPi.__format__] with an empty format.  real.py:623-633.  The zero
    test is on [decimal()], the coefficient times pi rounded to 14 digits,
    which is zero exactly when the coefficient is. *)
Definition real_pi_string (b : buffer) : result str :=
  try d := real_decimal b in
  if d_coef d =? 0 then Ok (s2l "0")
  else Ok (rstrip (s2l ".") (rstrip (s2l "0") (dec_fixed14 d)) ++ [960]).

(** * Radicals *)

(** Views.  real.py:455-492. *)
Definition get_sign_type (b : buffer) : result Z := section_get (bits_get 4 8 (view_get (real_view 1 2) b)).
Definition set_sign_type (v : Z) (b : buffer) : out buffer :=
  view_set (Some 9) (real_view 1 2) (bits_set 4 8 v (Some (view_get (real_view 1 2) b))) b.
Definition get_left (i : Z) (b : buffer) : result Z := section_get (left_get (view_get (real_view i (i + 2)) b)).
Definition set_left (i : Z) (v : Z) (b : buffer) : out buffer :=
  view_set (Some 9) (real_view i (i + 2)) (olift (left_set v (view_get (real_view i (i + 2)) b))) b.
Definition get_right (i : Z) (b : buffer) : result Z := section_get (right_get (view_get (real_view i (i + 2)) b)).
Definition set_right (i : Z) (v : Z) (b : buffer) : out buffer :=
  view_set (Some 9) (real_view i (i + 2)) (olift (right_set v (view_get (real_view i (i + 2)) b))) b.
Definition get_denominator := get_left 1.
Definition set_denominator := set_left 1.
Definition get_right_scalar := get_right 3.
Definition set_right_scalar := set_right 3.
Definition get_left_scalar := get_left 4.
Definition set_left_scalar := set_left 4.
Definition get_right_radicand := get_right 6.
Definition set_right_radicand := set_right 6.
Definition get_left_radicand := get_left 7.
Definition set_left_radicand := set_left 7.

(** [signed_left_scalar], [signed_right_scalar].  real.py:498-512. *)
Definition signed_left_scalar (b : buffer) : result Z :=
  try s := get_sign_type b in try v := get_left_scalar b in
  Ok (v * (if Z.land s 1 =? 0 then 1 else -1)).
Definition signed_right_scalar (b : buffer) : result Z :=
  try s := get_sign_type b in try v := get_right_scalar b in
  Ok (v * (if Z.land s 2 =? 0 then 1 else -1)).

(** The square root sign. *)
Definition ROOT : Z := 8730.
(** [x if x.rstrip("+-") else x + "1"].  real.py:560, 562. *)
Definition or_one (s : str) : str := match rstrip (s2l "+-") s with [] => s ++ s2l "1" | _ => s end.
(** What [TIRealRadical.load_string] extracts and normalises: sign type,
    denominator, left scalar, right scalar, left radicand, right radicand.
    real.py:529-599. *)
Definition radical_parse (s : str) : result (Z * Z * Z * Z * Z * Z) :=
  let s := lstrip (s2l "+")
             (replacer (squash s) [(s2l "(", []); (s2l ")", []); (s2l "*", []); (s2l "~", s2l "-");
                                   (s2l "sqrt", [ROOT]); (s2l "-", s2l "+-")]) in
  if memb 46 s then Err ValueError
  else
    let s := if memb 47 s then s else s ++ s2l "/1" in
    let s := if memb ROOT s then s
             else str_replace (s2l "/") ([ROOT] ++ s2l "1/") (s2l "0" ++ [ROOT] ++ s2l "1+" ++ s) in
    let s := if memb 43 s then s else str_replace (s2l "/") (s2l "+0" ++ [ROOT] ++ s2l "1/") s in
    match split_on 47 s with
    | [top; bot] =>
        match split_on 43 top with
        | [tl; tr] =>
            let tl := if memb ROOT tl then tl else tl ++ [ROOT] ++ s2l "1" in
            let tr := if memb ROOT tr then tr else tr ++ [ROOT] ++ s2l "1" in
            match split_on ROOT tl, split_on ROOT tr with
            | [ls; lr], [rs; rr] =>
                try ls := parse_int 10 (or_one ls) in
                try lr := parse_int 10 lr in
                try rs := parse_int 10 (or_one rs) in
                try rr := parse_int 10 rr in
                if (lr <? 0) || (rr <? 0) then Err ValueError
                else
                  let '(ls, lr, rs, rr) :=
                    if lr <? rr then (rs, rr, ls, lr)
                    else if lr =? rr then (ls + rs, lr, 0, 0)
                    else (ls, lr, rs, rr) in
                  try d := parse_int 10 (lstrip (s2l "+") bot) in
                  if d =? 0 then Err ValueError
                  else
                    let ls := ls * py_sign d in
                    let rs := rs * py_sign d in
                    try t := (if py_sign ls =? 1 then Ok (if py_sign rs =? -1 then 2 else 0)
                              else if py_sign ls =? -1 then Ok (if py_sign rs =? 1 then 1 else 3)
                              else Err ValueError) in
                    Ok (t, Z.abs d, Z.abs ls, Z.abs rs, lr, rr)
            | _, _ => Err ValueError
            end
        | _ => Err ValueError
        end
    | _ => Err ValueError
    end.
(** [TIRealRadical.load_string].  real.py:523-599.  The empty text first
    stores a zero and then goes on. *)
Definition radical_load (s : str) (b : buffer) : buffer * out unit :=
  let '(b, (w, r)) :=
    match s with
    | [] => run_steps [set_sign_type 0; set_denominator 1; set_left_scalar 0; set_left_radicand 0;
                       set_right_scalar 0; set_right_radicand 0] b
    | _ => (b, oret tt)
    end in
  match r with
  | Err e => (b, (w, Err e))
  | Ok _ =>
      match radical_parse s with
      | Err e => (b, (w, Err e))
      | Ok (t, d, ls, rs, lr, rr) =>
          let '(b, (w', x)) :=
            run_steps [set_sign_type t; set_denominator d; set_left_scalar ls; set_right_scalar rs;
                       set_left_radicand lr; set_right_radicand rr] b in
          (b, (w ++ w', x))
      end
  end.

(** * Copies and negation *)

(** [TIEntry.__copy__].  var.py:407-413. *)
Definition entry_copy (ps : bytes -> option bool) (e : entry) : out entry :=
  do b := olift (entry_bytes e) in entry_load ps (e_cls e) b.
(** [RealEntry.__neg__].  real.py:88-92. *)
Definition real_neg (ps : bytes -> option bool) (e : entry) : out entry :=
  do n := entry_copy ps e in
  do s := olift (get_sign (e_data n)) in
  do b := set_sign (1 - s) (e_data n) in
  oret (with_data n b).
