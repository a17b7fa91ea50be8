(** Model of /repo/tivars/data.py: converters, sections, views, loader dispatch. *)
From Verif Require Import PyBase.

(** [Bytes.get]/[Bytes.set]: no-ops.  data.py:71-98. *)
Definition bytes_get (d : bytes) : result bytes := Ok d.
Definition bytes_set (v : bytes) : result bytes := Ok v.

(** [Boolean.get]: data != b'\x00'.  data.py:157-166. *)
Definition boolean_get (d : bytes) : bool := negb (leqb d [0]).
(** [Boolean.set].  data.py:168-177. *)
Definition boolean_set (v : bool) : bytes := if v then [128] else [0].

(** [Integer.get].  data.py:189-198. *)
Definition integer_get (d : bytes) : Z := le_int d.
(** [Integer.set], [length] is the section length or [None] (then 2).
    data.py:200-215. *)
Definition integer_set (v : Z) (length : option nat) : result bytes :=
  to_bytes_le v (match length with Some n => n | None => 2%nat end).

(** [String.get]: latin-1 decoding (code point = byte), trailing NULs removed.
    data.py:227-236. *)
Definition string_get (d : bytes) : str := rstrip0 d.
(** [String.set]: latin-1 encoding.  data.py:238-247. *)
Fixpoint latin1_encode (s : str) : result bytes :=
  match s with
  | [] => Ok []
  | c :: r => if is_byteb c then try t := latin1_encode r in Ok (c :: t)
              else Err UnicodeEncodeError
  end.
Definition string_set (s : str) : result bytes := latin1_encode s.

(** Bits of a byte, least significant first: [f"{b:08b}"[::-1]].  Used by
    data.py:276 and data.py:300. *)
Fixpoint lsb_bits (n : nat) (v : Z) : list Z :=
  match n with O => [] | S m => v mod 2 :: lsb_bits m (v / 2) end.
(** Integer of a list of bits, least significant first: [int(value[::-1], 2)]. *)
Fixpoint bits_int (l : list Z) : Z :=
  match l with [] => 0 | b :: r => b + 2 * bits_int r end.

(** [Bits[a:b].get]: the bits of [data[0]] whose index lies in [a, b), joined;
    an empty slice gives [int("", 2)] = ValueError and empty data IndexError.
    data.py:268-282.  Simplification: step 1 slices only (the library uses no
    other). *)
Definition bits_get (a b : nat) (d : bytes) : result Z :=
  match d with
  | [] => Err IndexError
  | x :: _ =>
      match firstn (b - a) (skipn a (lsb_bits 8 x)) with
      | [] => Err ValueError
      | l => Ok (bits_int l)
      end
  end.

(** The loop of [Bits[a:b].set]: index by index, the next bit of the value if
    the index lies in the slice, else the current bit.  [None] for [cur] is an
    unset section; reading it raises TypeError ('NoneType' is not
    subscriptable).  data.py:296-307. *)
Fixpoint bits_place (k : nat) (index : nat) (a b : nat) (bits : list Z) (cur : option bytes)
  : result (Z * list Z) :=
  match k with
  | O => Ok (0, bits)
  | S k' =>
      if andb (Nat.leb a index) (Nat.ltb index b) then
        match bits with
        | [] => Err StopIteration
        | x :: bits' =>
            try p := bits_place k' (S index) a b bits' cur in
            Ok (x * 2 ^ Z.of_nat index + fst p, snd p)
        end
      else
        match cur with
        | None => Err TypeError
        | Some [] => Err IndexError
        | Some (c :: _) =>
            try p := bits_place k' (S index) a b bits cur in
            Ok (Z.land c (2 ^ Z.of_nat index) + fst p, snd p)
        end
  end.
(** [Bits[a:b].set]: one BytesWarning per left-over 1 bit.  data.py:284-319. *)
Definition bits_set (a b : nat) (v : Z) (cur : option bytes) : out bytes :=
  do p := olift (bits_place 8 0 a b (lsb_bits 8 (v mod 256)) cur) in
  (map (fun _ => WTooManyBits) (filter (fun x => x =? 1) (snd p)), byte_of (fst p)).

(** [Section._set_raw] after conversion: cut to the length with a BytesWarning,
    pad with zeros.  data.py:409-420. *)
Definition fit_section (length : option nat) (v : bytes) : out bytes :=
  match length with
  | None => oret v
  | Some n =>
      do _ := owarn_if (Nat.ltb n (List.length v)) WTooWide in
      oret (ljust n (if Nat.ltb n (List.length v) then firstn n v else v))
  end.

(** [Section._set_raw] as a whole: convert, then fit.  data.py:409-420. *)
Definition section_set_raw (length : option nat) (converted : out bytes) : out bytes :=
  do v := converted in fit_section length v.

(** [Section.__get__]: an IndexError of the converter becomes a ValueError.
    data.py:380-388. *)
Definition section_get {A} (r : result A) : result A :=
  match r with Err IndexError => Err ValueError | _ => r end.

(** A view: start and stop of its slice.  data.py:460-472 (step always None). *)
Record view := View { v_start : option Z; v_stop : option Z }.

(** [View.__init__]: the length of a view, given the length of its target
    section.  data.py:474-487, with step = 1. *)
Definition view_length (target : option Z) (v : view) : option Z :=
  let or0 o := match o with Some i => i | None => 0 end in
  match target with
  | None =>
      if (0 <=? or0 (v_start v)) && match v_stop v with None => true | Some s => s <? 0 end
      then None
      else Some (Z.max (or0 (v_stop v) - or0 (v_start v)) 0)
  | Some n =>
      Some (Z.max 0 (slice_stop (v_stop v) n - slice_start (v_start v) n))
  end.

(** A raw slot: its contents and whether it is a mutable [bytearray] (true) or
    an immutable [bytes] object (false). *)
Record buffer := Buf { b_mut : bool; b_data : bytes }.

(** [View._get_raw].  data.py:498-499. *)
Definition view_get (v : view) (buf : buffer) : bytes :=
  py_slice (b_data buf) (v_start v) (v_stop v).

(** [View.__set__] with an already converted value: slice assignment on the raw
    slot, which raises TypeError on a [bytes] object.  data.py:489-490 with
    data.py:409-420. *)
Definition view_set (target : option Z) (v : view) (converted : out bytes) (buf : buffer)
  : out buffer :=
  do x := section_set_raw (option_map Z.to_nat (view_length target v)) converted in
  if b_mut buf then oret (Buf true (py_slice_set (b_data buf) (v_start v) (v_stop v) x))
  else oerr TypeError.

(** [Section.__set__] with the [Bytes] converter stores [bytes(value)], an
    immutable object; [ljust]/slicing keep it immutable.  data.py:390-391 with
    data.py:89-98. *)
Definition section_set_bytes (length : option nat) (v : bytes) : out buffer :=
  do x := section_set_raw length (oret v) in oret (Buf false x).

(** ** Loader dispatch.  A loader: the type tags it accepts and its behaviour
    on the object state [S] and input [I]; [isinst] is Python's isinstance.
    data.py:517-532. *)
Section Dock.
  Context {S I T : Type}.
  Variable isinst : I -> T -> bool.
  (** [Dock.load].  data.py:517-532.  The state returned by a loader that
      raised NotImplementedError is kept, as in Python. *)
  Fixpoint dock_load (loaders : list (list T * (S -> I -> S * result unit))) (s : S) (i : I)
    : S * result unit :=
    match loaders with
    | [] => (s, Err TypeError)
    | (ts, f) :: rest =>
        if existsb (isinst i) ts then
          match f s i with
          | (s', Ok tt) => (s', Ok tt)
          | (s', Err NotImplementedError) => dock_load rest s' i
          | (s', Err e) => (s', Err e)
          end
        else dock_load rest s i
    end.
  (** [Loader.__set_name__]: [owner.loaders | {types: func}]: a dictionary
      update keeps the position of an existing key.  data.py:563-565. *)
  Variable key_eqb : list T -> list T -> bool.
  Fixpoint loader_register {F} (ls : list (list T * F)) (k : list T) (f : F) : list (list T * F) :=
    match ls with
    | [] => [(k, f)]
    | (k', f') :: r => if key_eqb k' k then (k', f) :: r else (k', f') :: loader_register r k f
    end.
End Dock.
