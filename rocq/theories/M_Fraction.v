(** Model of Python's [Fraction(text)] (fractions.py of the standard library), which
    [TIRealFraction.load_string] calls: /repo/tivars/types/real.py:364-366.  The text has no
    white space, because [squash] removed it.  Simplified: digits are the ASCII ones. *)
From Verif Require Import PyBase.

(** A decimal digit, as [\d] of the pattern used by [Fraction(text)].  Used by real.py:366. *)
Definition ascii_digit (c : Z) : bool := (48 <=? c) && (c <=? 57).
(** The lookahead [(?=\d|\.\d)] asks for a digit next.  Used by real.py:366. *)
Definition starts_digit (s : str) : bool := match s with c :: _ => ascii_digit c | [] => false end.
(** The longest part made of digits with single bars between them: its digits, and the rest.
    Used by real.py:366. *)
Fixpoint grouped (prev : bool) (s : str) : list Z * str :=
  match s with
  | c :: r =>
      if ascii_digit c then let '(d, t) := grouped true r in (c - 48 :: d, t)
      else if prev && (c =? 95) && starts_digit r then grouped false r
      else ([], s)
  | [] => ([], [])
  end.
(** [int(digits)], which refuses more than 4300 digits (CPython's default limit).
    Used by real.py:366. *)
Definition int_of (ds : list Z) : result Z :=
  if 4300 <? zlen ds then Err ValueError else Ok (fold_left (fun v d => 10 * v + d) ds 0).
(** A sign, if there is one, and the rest: whether it is a minus.  Used by real.py:366. *)
Definition sign_of (s : str) : bool * str :=
  match s with
  | c :: r => if c =? 45 then (true, r) else if c =? 43 then (false, r) else (false, s)
  | [] => (false, s)
  end.
(** The exponent, E with a whole number, up to the end of the text; [None] if
    something else follows.  Used by real.py:366. *)
Definition exponent_of (s : str) : option (bool * list Z) :=
  match s with
  | [] => Some (false, [])
  | c :: r =>
      if (c =? 69) || (c =? 101) then
        let '(neg, r) := sign_of r in
        match grouped false r with
        | ((_ :: _) as ds, []) => Some (neg, ds)
        | _ => None
        end
      else None
  end.
(** The fraction in lowest terms.  Used by real.py:366. *)
Definition lowest (neg : bool) (n d : Z) : result (Z * Z) :=
  if d =? 0 then Err ZeroDivisionError
  else let n := if neg then - n else n in let g := Z.gcd n d in Ok (n / g, d / g).
(** [Fraction(text)] after the sign.  Used by real.py:366. *)
Definition unsigned_fraction (neg : bool) (r : str) : result (Z * Z) :=
  if starts_digit r || match r with c :: r' => (c =? 46) && starts_digit r' | [] => false end then
    let '(n, r) := grouped false r in
    match r with
    | 47 :: r =>
        match grouped false r with
        | ((_ :: _) as d, []) => try n := int_of n in try d := int_of d in lowest neg n d
        | _ => Err ValueError
        end
    | _ =>
        let '(f, r) := match r with 46 :: r' => grouped false r' | _ => ([], r) end in
        match exponent_of r with
        | Some (xneg, x) =>
            try n := int_of n in
            try v := int_of f in
            let scale := 10 ^ zlen f in
            try x := int_of x in
            if xneg then lowest neg (n * scale + v) (scale * 10 ^ x) else lowest neg ((n * scale + v) * 10 ^ x) scale
        | None => Err ValueError
        end
    end
  else Err ValueError.
(** [Fraction(text)].  real.py:366. *)
Definition py_fraction (s : str) : result (Z * Z) := let '(neg, r) := sign_of s in unsigned_fraction neg r.
