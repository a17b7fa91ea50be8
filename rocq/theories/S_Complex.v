(** Specifications for complex numbers (C33-C35, C75-C77, C90). *)
From Verif Require Import PyBase M_Class S_Real.

(** The same number under another kind tag: nine bytes, equal except for the
    low six bits of the first. *)
Definition same_number (d d' : bytes) : Prop :=
  length d = 9%nat /\ length d' = 9%nat /\ nth 0 d 0 / 64 = nth 0 d' 0 / 64 /\ skipn 1 d = skipn 1 d'.
(** The kinds of real number that can be a part, and the tag each carries
    inside a complex number. *)
Definition part_kinds : list (cls * Z * cls) :=
  [(KReal, 12, KComplex); (KRealFraction, 27, KComplexFraction); (KRealRadical, 29, KComplexRadical);
   (KRealPi, 30, KComplexPi); (KRealPiFraction, 31, KComplexPiFraction)].
(** Characters with a meaning of their own in the text of a complex number. *)
Definition plain (s : str) : Prop := s <> [] /\ forall c, In c s -> ~ In c (s2l "+-*[ij") /\ ~ In c spaces.
Definition is_unit (u : str) : Prop := In u [s2l "i"; s2l "j"; s2l "[i]"].
(** Drop a plus sign. *)
Definition unplus (s : str) : str := if leqb s (s2l "+") then [] else s.
(** A number as the library stores it: normalised or zero. *)
Definition stored_real (low : Z) (neg : bool) (x m : Z) (d : bytes) : Prop :=
  0 <= low < 128 /\ payload low neg x m d /\ is_byte x /\ (10 ^ 13 <= m < 10 ^ 14 \/ (m = 0 /\ neg = false /\ x = 128)).
(** No digits beyond the fourteenth decimal place. *)
Definition short (x m : Z) : Prop := x < 127 -> m mod 10 ^ (127 - x) = 0.
(** The kinds of real number in the order in which they are tried. *)
Definition real_order : list cls := [KReal; KUndefReal; KRealFraction; KRealRadical; KRealPi; KRealPiFraction].
