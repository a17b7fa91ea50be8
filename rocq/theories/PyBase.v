(** Python primitives used by the library: byte strings, slices, integer and
    text conversion, exceptions and warnings as values.  No proofs here
    (lemmas are in L_Base.v).  Nothing in this file models /repo itself; it
    models the parts of the Python language that /repo/tivars uses. *)
From Coq Require Export ZArith Bool Ascii String.
From Coq Require Export List.
Export ListNotations.
Open Scope Z_scope.
Open Scope list_scope.
Global Arguments Z.mul : simpl never.
Global Arguments Z.add : simpl never.
Global Arguments Z.sub : simpl never.
Global Arguments Z.opp : simpl never.
Global Arguments Z.pow : simpl never.
Global Arguments Z.div : simpl never.
Global Arguments Z.modulo : simpl never.
Global Arguments Z.of_nat : simpl never.
Global Arguments Z.to_nat : simpl never.
Global Arguments Z.land : simpl never.

(** A byte is a [Z] in 0..255; [bytes] and [bytearray] are lists of them. *)
Definition bytes := list Z.
Definition is_byte (b : Z) : Prop := 0 <= b < 256.
Definition wf_bytes (l : bytes) : Prop := Forall is_byte l.
Definition is_byteb (b : Z) : bool := (0 <=? b) && (b <? 256).
Definition wf_bytesb (l : bytes) : bool := forallb is_byteb l.

(** A [str] is a list of code points. *)
Definition str := list Z.
Fixpoint s2l (s : string) : str :=
  match s with
  | EmptyString => []
  | String a r => Z.of_nat (nat_of_ascii a) :: s2l r
  end.

(** Exceptions, by Python class. *)
Inductive exn :=
| ValueError | OverflowError | IndexError | TypeError | KeyError
| AttributeError | NotImplementedError | UnicodeEncodeError | UnicodeDecodeError
| StopIteration | ZeroDivisionError | SyntaxError | BytesWarningRaised
| UserWarningRaised | OSError.

Inductive result (A : Type) := Ok (a : A) | Err (e : exn).
Arguments Ok {A} a.
Arguments Err {A} e.

Definition rbind {A B} (r : result A) (f : A -> result B) : result B :=
  match r with Ok a => f a | Err e => Err e end.
Definition rmap {A B} (f : A -> B) (r : result A) : result B :=
  match r with Ok a => Ok (f a) | Err e => Err e end.
Declare Scope py_scope.
Delimit Scope py_scope with py.
Notation "'try' x := r 'in' k" := (rbind r (fun x => k))
  (at level 200, x pattern, r at level 100, k at level 200, right associativity).

Fixpoint rmapM {A B} (f : A -> result B) (l : list A) : result (list B) :=
  match l with
  | [] => Ok []
  | a :: r => try b := f a in try bs := rmapM f r in Ok (b :: bs)
  end.

Definition is_ok {A} (r : result A) : bool := match r with Ok _ => true | Err _ => false end.

(** Warnings, one constructor per [warn] call site that the model reaches. *)
Inductive warning :=
| WTooWide            (* data.py:414 *)
| WTooManyBits        (* data.py:313 *)
| WEnum               (* flags.py:56 *)
| WHeaderMagic        (* var.py header signature *)
| WHeaderExtra        (* var.py header extra/export bytes *)
| WMetaLength         (* var.py meta length not 11 or 13 *)
| WTypeMismatch       (* var.py entry type differs from the class *)
| WTypeUnknown        (* var.py type id not recognised *)
| WTypeFF             (* var.py type id 0xFF, no coercion *)
| WDataLengthTwo      (* var.py the two data lengths disagree *)
| WFlashOnly          (* var.py flash_only type without flash bytes *)
| WNoFlash            (* var.py flash bytes are missing *)
| WFlashExtra         (* var.py unexpected flash bytes *)
| WVersion            (* var.py version not recognised *)
| WVersionWrong       (* tokenized.py version is incorrect *)
| WArchived           (* archived byte not 00/80 *)
| WDataLength         (* data section has unexpected length *)
| WEntriesLength      (* var.py total entry length *)
| WChecksum           (* checksum is incorrect *)
| WModel              (* var.py model not supported *)
| WExtension          (* var.py / flash.py extension unsupported *)
| WMultiple           (* several entries *)
| WSubtype            (* real/complex/list subtype not recognised *)
| WSized              (* SizedEntry length mismatch *)
| WListLength | WMatrixSize
| WInvalidToken       (* tokenized.py invalid token on load *)
| WDecode             (* decoder.py warnings *)
| WAsm                (* tokenized.py ASM programs *)
| WPicLength | WPalette | WImageName
| WGroup | WGraphReal
| WGdb | WSettings
| WFlashMagic | WFlashName | WFlashDevice | WFlashType | WFlashSize | WFlashBlockType
| WListName | WName
| WConflict           (* var.py:1160 meta length differs from the first entry *)
| WMetaLost           (* var.py:496 *)
| WFlashless          (* var.py:539, 553 *).

(** A computation that may warn and may raise: the warnings emitted so far
    and the outcome. *)
Definition out (A : Type) := (list warning * result A)%type.
Definition oret {A} (a : A) : out A := ([], Ok a).
Definition oerr {A} (e : exn) : out A := ([], Err e).
Definition obind {A B} (m : out A) (f : A -> out B) : out B :=
  match m with
  | (w, Ok a) => let '(w', r) := f a in (w ++ w', r)
  | (w, Err e) => (w, Err e)
  end.
Definition owarn (w : warning) : out unit := ([w], Ok tt).
Definition owarn_if (b : bool) (w : warning) : out unit := (if b then [w] else [], Ok tt).
Definition olift {A} (r : result A) : out A := ([], r).
Notation "'do' x := m 'in' k" := (obind m (fun x => k))
  (at level 200, x pattern, m at level 100, k at level 200, right associativity).

(** Lengths as integers. *)
Definition zlen {A} (l : list A) : Z := Z.of_nat (length l).

(** Python slicing with step 1: [l[start:stop]], [None] bounds allowed. *)
Definition norm_idx (i n : Z) : Z := if i <? 0 then Z.max (i + n) 0 else Z.min i n.
Definition slice_start (s : option Z) (n : Z) : Z :=
  match s with None => 0 | Some i => norm_idx i n end.
Definition slice_stop (s : option Z) (n : Z) : Z :=
  match s with None => n | Some i => norm_idx i n end.
Definition py_slice {A} (l : list A) (start stop : option Z) : list A :=
  let n := zlen l in
  let a := slice_start start n in
  let b := slice_stop stop n in
  firstn (Z.to_nat (b - a)) (skipn (Z.to_nat a) l).
(** [l[start:stop] = v] on a bytearray (the length may change). *)
Definition py_slice_set {A} (l : list A) (start stop : option Z) (v : list A) : list A :=
  let n := zlen l in
  let a := slice_start start n in
  let b := Z.max a (slice_stop stop n) in
  firstn (Z.to_nat a) l ++ v ++ skipn (Z.to_nat b) l.
(** [l[i]] with a non-negative or negative index. *)
Definition py_index {A} (l : list A) (i : Z) : result A :=
  let j := if i <? 0 then i + zlen l else i in
  if j <? 0 then Err IndexError
  else match nth_error l (Z.to_nat j) with Some a => Ok a | None => Err IndexError end.

(** [bytes(n)] *)
Definition zeros (n : nat) : bytes := repeat 0 n.
(** [b.ljust(n, b'\0')] *)
Definition ljust (n : nat) (l : bytes) : bytes := l ++ zeros (n - length l).
(** [b.rstrip(b'\0')] (and [s.rstrip('\0')]) *)
Fixpoint rstrip0 (l : list Z) : list Z :=
  match l with
  | [] => []
  | a :: r => match rstrip0 r with
              | [] => if a =? 0 then [] else [a]
              | r' => a :: r'
              end
  end.

(** [int.to_bytes] / [int.from_bytes], unsigned. *)
Fixpoint le_bytes (n : nat) (v : Z) : bytes :=
  match n with O => [] | S m => v mod 256 :: le_bytes m (v / 256) end.
Fixpoint le_int (l : bytes) : Z :=
  match l with [] => 0 | b :: r => b + 256 * le_int r end.
Definition fits (n : nat) (v : Z) : bool := (0 <=? v) && (v <? 256 ^ Z.of_nat n).
Definition to_bytes_le (v : Z) (n : nat) : result bytes :=
  if fits n v then Ok (le_bytes n v) else Err OverflowError.
Definition to_bytes_be (v : Z) (n : nat) : result bytes :=
  if fits n v then Ok (rev (le_bytes n v)) else Err OverflowError.
Definition be_int (l : bytes) : Z := le_int (rev l).
(** [bytes([v])] *)
Definition byte_of (v : Z) : result bytes := if is_byteb v then Ok [v] else Err ValueError.
Fixpoint bytes_of (l : list Z) : result bytes :=
  match l with
  | [] => Ok []
  | v :: r => if is_byteb v then try t := bytes_of r in Ok (v :: t) else Err ValueError
  end.

(** Equality of byte strings. *)
Fixpoint leqb (a b : list Z) : bool :=
  match a, b with
  | [], [] => true
  | x :: a', y :: b' => (x =? y) && leqb a' b'
  | _, _ => false
  end.
Definition memb (x : Z) (l : list Z) : bool := existsb (Z.eqb x) l.
Fixpoint starts_with (p l : list Z) : bool :=
  match p, l with
  | [], _ => true
  | x :: p', y :: l' => (x =? y) && starts_with p' l'
  | _, _ => false
  end.
(** [p in l] for byte strings and strings. *)
Fixpoint infix (p l : list Z) : bool :=
  starts_with p l || match l with [] => false | _ :: r => infix p r end.

Definition zsum (l : list Z) : Z := fold_right Z.add 0 l.

(** [str(n)] for an integer, most significant digit first. *)
Fixpoint digits_fuel (fuel : nat) (n : Z) (acc : list Z) : list Z :=
  match fuel with
  | O => acc
  | S f => if n <? 10 then n :: acc else digits_fuel f (n / 10) (n mod 10 :: acc)
  end.
(** Decimal digits of a non-negative integer; [digits 0 = [0]].  The fuel is
    proved sufficient in L_Base.v. *)
Definition digits (n : Z) : list Z := digits_fuel (S (Z.to_nat (Z.log2 n))) n [].
Definition char_of_digit (d : Z) : Z := d + 48.
Definition str_of_int (n : Z) : str :=
  if n <? 0 then 45 :: map char_of_digit (digits (- n)) else map char_of_digit (digits n).

(** [int(s, base)] for ASCII text without surrounding white space and without
    a base prefix (the callers in /repo squash white space first, and never
    pass a prefix): optional sign, digits, single underscores between digits. *)
Definition digit_val (c : Z) : option Z :=
  if (48 <=? c) && (c <=? 57) then Some (c - 48)
  else if (97 <=? c) && (c <=? 122) then Some (c - 87)
  else if (65 <=? c) && (c <=? 90) then Some (c - 55)
  else None.
Fixpoint parse_digits (base : Z) (s : str) (acc : Z) (prev : bool) : option Z :=
  match s with
  | [] => if prev then Some acc else None
  | c :: r =>
      if c =? 95 then (if prev then parse_digits base r acc false else None)
      else match digit_val c with
           | Some d => if d <? base then parse_digits base r (acc * base + d) true else None
           | None => None
           end
  end.
Definition parse_int (base : Z) (s : str) : result Z :=
  let pos t := match parse_digits base t 0 false with Some v => Ok v | None => Err ValueError end in
  match s with
  | c :: r => if c =? 45 then rmap Z.opp (pos r) else if c =? 43 then pos r else pos s
  | [] => pos s
  end.

(** Upper-case hexadecimal [f"{b:02X}".encode()] of a byte, and its inverse
    [bytes.fromhex] without white space. *)
Definition hex_digit (d : Z) : Z := if d <? 10 then d + 48 else d + 55.
Definition hex_byte (b : Z) : bytes := [hex_digit (b / 16); hex_digit (b mod 16)].

(** A [BytesIO]: contents and position. *)
Record stream := Stream { st_buf : bytes; st_pos : nat }.
Definition st_rest (s : stream) : bytes := skipn (st_pos s) (st_buf s).
(** [s.read(n)] *)
Definition st_read (n : nat) (s : stream) : bytes * stream :=
  let r := firstn n (st_rest s) in
  (r, Stream (st_buf s) (st_pos s + length r)).
(** [s.seek(d, 1)]: a BytesIO clamps the new position at 0 and allows
    positions past the end. *)
Definition st_seek (d : Z) (s : stream) : stream :=
  Stream (st_buf s) (Z.to_nat (Z.max 0 (Z.of_nat (st_pos s) + d))).
