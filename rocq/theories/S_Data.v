(** Specifications for the data-section layer (C01-C07).  None of these
    definitions uses the model's functions; they talk about positions, bits
    and integers only. *)
From Verif Require Import PyBase.

(** [s] is [v] cut or zero-padded to width [n]. *)
Definition fitted (n : nat) (v s : bytes) : Prop :=
  length s = n /\
  forall i, (i < n)%nat -> nth i s 0 = (if Nat.ltb i (length v) then nth i v 0 else 0).

(** The slice [start:stop] of a buffer of length [n] covers positions
    [lo .. hi-1].  Both ends are measured from the same end of the buffer
    (the form used by every view of the library). *)
Definition resolves (start stop : option Z) (n lo hi : Z) : Prop :=
  lo = match start with None => 0 | Some a => if a <? 0 then n + a else a end /\
  hi = match stop with None => n | Some b => if b <? 0 then n + b else b end /\
  0 <= lo <= hi /\ hi <= n /\
  match start, stop with Some a, Some b => a < 0 -> b < 0 | _, _ => True end.

(** [l'] is [l] with positions [lo .. hi-1] replaced by [v]. *)
Definition patched (l : bytes) (lo hi : Z) (v l' : bytes) : Prop :=
  length l' = length l /\
  forall i, nth_error l' i =
    if (lo <=? Z.of_nat i) && (Z.of_nat i <? hi)
    then nth_error v (i - Z.to_nat lo) else nth_error l i.

(** The byte [r] is [c] with bits [a .. b-1] replaced by the low bits of [v]. *)
Definition field_written (a b : nat) (v c r : Z) : Prop :=
  is_byte r /\
  forall i, (i < 8)%nat ->
    Z.testbit r (Z.of_nat i) =
    if Nat.leb a i && Nat.ltb i b then Z.testbit v (Z.of_nat (i - a)) else Z.testbit c (Z.of_nat i).

(** The value a sequence of (bit, value) updates leaves at bit [k]. *)
Fixpoint last_assigned (g : list (Z * Z)) (k : Z) (d : bool) : bool :=
  match g with
  | [] => d
  | (k', v) :: r => last_assigned r k (if k' =? k then negb (v =? 0) else d)
  end.

(** Packed decimal: byte [i] from the right holds digits [2i] and [2i+1]. *)
Definition packed_decimal (v : Z) (d : bytes) : Prop :=
  forall i, (i < length d)%nat ->
    nth i (rev d) 0 = 16 * (v / 10 ^ (2 * Z.of_nat i + 1) mod 10) + v / 10 ^ (2 * Z.of_nat i) mod 10.
Definition decimal_byte (b : Z) : Prop := 0 <= b < 256 /\ b / 16 < 10 /\ b mod 16 < 10.
