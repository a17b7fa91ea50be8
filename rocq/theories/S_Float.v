(** Specifications for binary floating point numbers (C136-C141).  Independent of
    the model: comparison of [m * 2 ^ e] with [c * 10 ^ k] by cross multiplication. *)
From Verif Require Import PyBase.

(** [b ^ z] for [z >= 0], else 1; so [b ^ z = up b z / up b (- z)]. *)
Definition up (b z : Z) : Z := b ^ Z.max z 0.
(** [m * 2 ^ e] and [c * 10 ^ k] as one common multiple of both. *)
Definition bin_side (m e k : Z) : Z := m * up 2 e * up 10 (- k).
Definition dec_side (c k e : Z) : Z := c * up 10 k * up 2 (- e).
Definition bin_eq_dec (m e c k : Z) : Prop := bin_side m e k = dec_side c k e.
Definition dec_le_bin (c k m e : Z) : Prop := dec_side c k e <= bin_side m e k.
Definition bin_lt_dec (m e c k : Z) : Prop := bin_side m e k < dec_side c k e.

(** [M * 10 ^ X] is [m * 2 ^ e] cut after 14 significant digits. *)
Definition cut14 (m e M X : Z) : Prop := 10 ^ 13 <= M < 10 ^ 14 /\ dec_le_bin M X m e /\ bin_lt_dec m e (M + 1) X.
(** [M * 10 ^ X] is a number of 14 significant digits nearest to [n / d]: at most half
    a unit of its last digit away, or half a tenth of it just below a power of ten. *)
Definition near14 (n d M X : Z) : Prop :=
  10 ^ 13 <= M < 10 ^ 14 /\ 2 * Z.abs (M * up 10 X * d - n * up 10 (- X)) <= up 10 X * d /\
  (M = 10 ^ 13 -> n * up 10 (- X) < M * up 10 X * d -> 20 * (M * up 10 X * d - n * up 10 (- X)) <= up 10 X * d).
(** A float of 53 bits is nearest to [c * 10 ^ k]: no multiple of [2 ^ e] is nearer,
    and [m] has its full 53 bits. *)
Definition nearest53 (m e c k : Z) : Prop :=
  2 ^ 52 <= m <= 2 ^ 53 /\ forall m', Z.abs (bin_side m e k - dec_side c k e) <= Z.abs (bin_side m' e k - dec_side c k e).
(** One unit less in the last of 14 digits. *)
Definition less14 (x M : Z) : Z * Z := if M =? 10 ^ 13 then (x - 1, 10 ^ 14 - 1) else (x, M - 1).
