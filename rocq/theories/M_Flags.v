(** Model of /repo/tivars/flags.py. *)
From Verif Require Import PyBase M_Data.

(** [Enum.get].  flags.py:35-44. *)
Definition enum_get (d : bytes) : result Z := py_index d 0.
(** [Enum.set]: a warning for an unrecognised value; bytes([value]) raises
    ValueError out of range.  flags.py:46-59. *)
Definition enum_set (all : list Z) (v : Z) : out bytes :=
  do _ := owarn_if (negb (memb v all)) WEnum in olift (byte_of v).

(** A [Flags] object is an insertion-ordered dict from bit numbers to values. *)
Definition flags := list (Z * Z).

(** Dict lookup. *)
Fixpoint dget (f : flags) (k : Z) : option Z :=
  match f with [] => None | (k', v) :: r => if k' =? k then Some v else dget r k end.
(** Dict assignment: an existing key keeps its place. *)
Fixpoint dset (f : flags) (k v : Z) : flags :=
  match f with
  | [] => [(k, v)]
  | (k', v') :: r => if k' =? k then (k', v) :: r else (k', v') :: dset r k v
  end.
(** [dict.update] / [d |= bitsets] / [d | bitsets]. *)
Definition dupdate (f g : flags) : flags := fold_left (fun acc p => dset acc (fst p) (snd p)) g f.

(** ceil((max(keys, default=0) + 1) / 8) * 8.  flags.py:95. *)
Definition flags_width (g : flags) : Z :=
  let m := match g with [] => 0 | (k, _) :: r => fold_left Z.max (map fst r) k end in
  ((m + 1 + 7) / 8) * 8.
(** [{bit: 0 for bit in range(n)}].  flags.py:92, 95. *)
Definition zero_flags (n : nat) : flags := map (fun i => (Z.of_nat i, 0)) (seq 0 n).

(** [Flags.__init__].  flags.py:83-97. *)
Definition flags_init (bitsets : option flags) (width : nat) : flags :=
  let d := match bitsets with
           | None => zero_flags width
           | Some g => dupdate (zero_flags (Z.to_nat (flags_width g))) g
           end in
  map (fun p => (fst p, snd p mod 2)) d.

(** [Flags.__int__]: int of the values printed last to first in base 2;
    ValueError if the text is not binary (after [|=] with a value outside
    {0,1}) or empty.  flags.py:102-106. *)
Definition flags_int (f : flags) : result Z :=
  parse_int 2 (concat (map (fun p => str_of_int (snd p)) (rev f))).

(** [Flags.__contains__]: KeyError for a bit that is not present.
    flags.py:108-111. *)
Fixpoint flags_contains (f g : flags) : result bool :=
  match g with
  | [] => Ok true
  | (k, v) :: r =>
      match dget f k with
      | None => Err KeyError
      | Some x => if x =? (if v =? 0 then 0 else 1) then flags_contains f r else Ok false
      end
  end.

(** Bits of f"{n:b}"[::-1]: as many as n has, one for n = 0.  flags.py:122. *)
Definition binary_lsb (n : Z) : list Z := lsb_bits (Z.to_nat (Z.log2 n + 1)) n.
(** [Flags.get].  flags.py:113-122. *)
Definition flags_get (d : bytes) : flags :=
  let bits := binary_lsb (le_int d) in
  flags_init (Some (combine (map Z.of_nat (seq 0 (length bits))) bits)) 8.

(** [Flags.set].  flags.py:124-133. *)
Definition flags_set (f : flags) : result bytes :=
  try n := flags_int f in to_bytes_le n (length f / 8).

(** [f |= bitsets] (dict update in place, no reduction modulo 2): inherited
    from dict by flags.py:74. *)
Definition flags_ior (f g : flags) : flags := dupdate f g.
