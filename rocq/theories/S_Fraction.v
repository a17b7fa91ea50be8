(** Specification of the texts of fractions (C144), independent of the model. *)
From Verif Require Import PyBase S_Real S_Float.

(** Digits, with single bars between them. *)
Inductive digit_run : str -> list Z -> Prop :=
| run_one d : digit d -> digit_run [d + 48] [d]
| run_next d t ds : digit d -> digit_run t ds -> digit_run (d + 48 :: t) (d :: ds)
| run_bar d t ds : digit d -> digit_run t ds -> digit_run (d + 48 :: 95 :: t) (d :: ds).
Definition maybe_run (t : str) (ds : list Z) : Prop := (t = [] /\ ds = []) \/ digit_run t ds.
Inductive exponent_form : str -> Z -> Prop :=
| exp_none : exponent_form [] 0
| exp_some c sign t ds : c = 69 \/ c = 101 -> In sign [[]; [43]; [45]] -> digit_run t ds -> exponent_form (c :: sign ++ t) (if leqb sign [45] then - number ds else number ds).
(** A text without sign and its value [n / d]: two whole numbers with a slash, or a
    number with a point, an exponent, both or neither. *)
Inductive fraction_form : str -> Z -> Z -> Prop :=
| form_ratio t u ds es : digit_run t ds -> digit_run u es -> fraction_form (t ++ [47] ++ u) (number ds) (number es)
| form_whole t x ds k : digit_run t ds -> exponent_form x k -> fraction_form (t ++ x) (number ds * up 10 k) (up 10 (- k))
| form_point t f x ds fs k : maybe_run t ds -> maybe_run f fs -> ds <> [] \/ fs <> [] -> exponent_form x k ->
    fraction_form (t ++ [46] ++ f ++ x) (number (ds ++ fs) * up 10 k) (10 ^ zlen fs * up 10 (- k)).
(** The fraction [N / D] in lowest terms is [n / d]. *)
Definition lowest_of (n d N D : Z) : Prop := 0 < D /\ Z.gcd N D = 1 /\ N * d = n * D.
