(** Model of the decimal value and the sign of a radical: [decimal] and [sign] of
    [TIRealRadical], /repo/tivars/types/real.py. *)
From Verif Require Import PyBase M_Data M_Numeric M_Class M_Var M_Real M_Complex M_List M_Text.

(** [Decimal(n).sqrt()] for an [int] of at most [2 * p] digits at a precision of [p]
    digits (decimal module, sqrt: one guard digit, made inexact by a last digit that is
    neither 0 nor 5). *)
Definition dec_root (p n : Z) : dec :=
  if n =? 0 then Dec false 0 0
  else
    let shift := p + 1 - (ndigits n + 1) / 2 in
    let c := n * 100 ^ shift in
    let r := Z.sqrt c in
    if r * r =? c then dec_round p (Dec false (r / 10 ^ shift) 0)
    else dec_round p (Dec false (if r mod 5 =? 0 then r + 1 else r) (- shift)).
(** Sum of decimals (decimal module, __add__); only the values matter here. *)
Definition signed_coef (x : dec) (e : Z) : Z := (if d_neg x then -1 else 1) * d_coef x * 10 ^ (d_exp x - e).
Definition dec_plus (p : Z) (x y : dec) : dec :=
  let e := Z.min (d_exp x) (d_exp y) in
  let s := signed_coef x e + signed_coef y e in
  dec_round p (Dec (if s =? 0 then d_neg x && d_neg y else s <? 0) (Z.abs s) e).
(** An [int] as an operand. *)
Definition dec_int (n : Z) : dec := Dec (n <? 0) (Z.abs n) 0.
(** [x < 0]. *)
Definition dec_lt0 (x : dec) : bool := d_neg x && negb (d_coef x =? 0).
(** The value of given components, at the default precision.  A division by zero is a
    ZeroDivisionError (simplified: for 0/0 the decimal module raises InvalidOperation
    instead).  real.py:518-521. *)
Definition radical_value (ls lr rs rr e : Z) : result dec :=
  if e =? 0 then Err ZeroDivisionError
  else Ok (dec_over 28 (dec_plus 28 (dec_times 28 (dec_int ls) (dec_root 28 lr)) (dec_times 28 (dec_int rs) (dec_root 28 rr))) (dec_int e)).
(** [TIRealRadical.decimal].  real.py:518-521. *)
Definition radical_decimal (b : buffer) : result dec :=
  try (ls, lr, rs, rr, e) := radical_comps b in radical_value ls lr rs rr e.
(** [TIRealRadical.sign].  real.py:494-496. *)
Definition radical_sign (b : buffer) : result Z :=
  try d := radical_decimal b in Ok (if dec_lt0 d then -1 else 1).
