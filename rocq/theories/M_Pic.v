(** Model of /repo/tivars/types/picture.py: pixel converters and pictures. *)
From Verif Require Import PyBase M_Data M_Class M_Var M_List.

(** * Pixel converters *)

(** [data[i]] on a byte string of the stream: IndexError outside. *)
Definition byte_at (d : bytes) (i : nat) : result Z :=
  match nth_error d i with Some b => Ok b | None => Err IndexError end.

(** [f"{b:08b}"] for a byte: its bits, most significant first. *)
Definition bits8 (b : Z) : list Z :=
  map (fun i => Z.b2z (Z.testbit b (Z.of_nat i))) [7; 6; 5; 4; 3; 2; 1; 0]%nat.
(** [L1.get].  picture.py:27-35. *)
Definition l1_get (d : bytes) : result (list Z) :=
  try b := byte_at d 0 in Ok (map (fun bit => 255 * (1 - bit)) (bits8 b)).
(** [L1.set]: a base-2 literal; [int("", 2)] and [bytes([n])] with n > 255 raise
    ValueError.  picture.py:37-46. *)
Definition l1_set (v : list Z) : result bytes :=
  match v with
  | [] => Err ValueError
  | _ => bytes_of [fold_left (fun acc bit => 2 * acc + (if bit =? 0 then 1 else 0)) v 0]
  end.

Definition rgb := (Z * Z * Z)%type.
Definition rgb_eqb (a b : rgb) : bool :=
  let '(r, g, b1) := a in let '(r', g', b2) := b in (r =? r') && (g =? g') && (b1 =? b2).
(** [RGBPalette.palette].  picture.py:57-74. *)
Definition palette : list rgb :=
  [ (255, 255, 255); (0, 0, 255); (255, 0, 0); (0, 0, 0); (255, 0, 255); (0, 158, 0);
    (255, 142, 32); (182, 32, 0); (0, 0, 134); (0, 146, 255); (255, 255, 0);
    (255, 255, 255); (231, 227, 231); (199, 195, 199); (142, 138, 142); (81, 85, 81) ].
(** The key of [nearest].  picture.py:87. *)
Definition dist (c x : rgb) : Z :=
  let '(r, g, b) := c in let '(x0, x1, x2) := x in (x0 - r) ^ 2 + (x1 - g) ^ 2 + (x2 - b) ^ 2.
(** [min(l, key=...)]: the first element of minimal key. *)
Fixpoint min_key (key : rgb -> Z) (best : rgb) (l : list rgb) : rgb :=
  match l with
  | [] => best
  | x :: r => min_key key (if key x <? key best then x else best) r
  end.
(** [RGBPalette.nearest].  picture.py:76-92. *)
Definition nearest (c : rgb) : out rgb :=
  let n := match palette with [] => c | x :: r => min_key (dist c) x r end in
  do _ := owarn_if (negb (rgb_eqb n c)) WPalette in
  oret n.
(** [list.index]: the first position; ValueError when absent. *)
Fixpoint index_of (c : rgb) (l : list rgb) : result Z :=
  match l with
  | [] => Err ValueError
  | x :: r => if rgb_eqb x c then Ok 0 else try i := index_of c r in Ok (i + 1)
  end.
Definition pal (i : Z) : result rgb :=
  match nth_error palette (Z.to_nat i) with Some c => Ok c | None => Err IndexError end.
(** [RGBPalette.get].  picture.py:94-103. *)
Definition palette_get (d : bytes) : result (list rgb) :=
  try b := byte_at d 0 in
  try hi := pal (Z.shiftr b 4) in
  try lo := pal (Z.land b 15) in Ok [hi; lo].
(** [RGBPalette.set].  picture.py:105-114. *)
Definition palette_set (a b : rgb) : out bytes :=
  do x := nearest a in
  do i := olift (index_of x palette) in
  do y := nearest b in
  do j := olift (index_of y palette) in
  olift (bytes_of [Z.shiftl i 4 + j]).

(** [RGB565.get].  picture.py:124-137. *)
Definition rgb565_get (d : bytes) : result rgb :=
  try hi := byte_at d 1 in
  try lo := byte_at d 0 in
  Ok (Z.shiftr hi 3 * 255 / 31,
      Z.lor (Z.shiftl (Z.land hi 7) 3) (Z.shiftr lo 5) * 255 / 63,
      Z.land lo 31 * 255 / 31).
(** [RGB565.set].  picture.py:139-148. *)
Definition rgb565_set (c : rgb) : result bytes :=
  let '(r, g, b) := c in
  try lo := bytes_of [Z.lor (Z.shiftl (Z.land (Z.shiftr g 2) 7) 5) (Z.shiftr b 3)] in
  try hi := bytes_of [Z.lor (Z.land r (Z.lnot 7)) (Z.shiftr g 5)] in
  Ok (lo ++ hi).

(** * Arrays *)

(** [zip( *[iter(row)] * 8, strict=True)]: groups of eight; ValueError when the
    row's length is not a multiple of eight (the fuel is the row's length).
    picture.py:272. *)
Fixpoint groups8 (fuel : nat) (row : list Z) : result (list (list Z)) :=
  match row with
  | [] => Ok []
  | _ =>
      match fuel with
      | O => Err ValueError
      | S fuel =>
          if Nat.ltb (length row) 8 then Err ValueError
          else try r := groups8 fuel (skipn 8 row) in Ok (firstn 8 row :: r)
      end
  end.
(** [zip(row[::2], row[1::2])]: pairs; the last pixel of an odd row is dropped.
    picture.py:325. *)
Fixpoint pairs2 (row : list rgb) : list (rgb * rgb) :=
  match row with a :: b :: r => (a, b) :: pairs2 r | _ => [] end.

(** The bytes [load_array] joins.  The generator is consumed before [data] is
    assigned, so an exception leaves the entry as it was.  A row whose groups
    fail may fail after other pixels were converted, but the conversion has no
    effect.  picture.py:270-272, 323-325, 427-429. *)
Definition mono_bytes (arr : list (list Z)) : result bytes :=
  try rows := rmapM (fun row => try gs := groups8 (length row) row in
                                try bs := rmapM l1_set gs in Ok (concat bs)) arr in
  Ok (concat rows).
Definition pic_bytes (arr : list (list rgb)) : out bytes :=
  do rows := omapM (fun row => do bs := omapM (fun p => palette_set (fst p) (snd p)) (pairs2 row) in
                               oret (concat bs)) arr in
  oret (concat rows).
Definition image_bytes (arr : list (list rgb)) : result bytes :=
  try rows := rmapM (fun row => try bs := rmapM rgb565_set (row ++ [(0, 0, 0)]) in Ok (concat bs)) (rev arr) in
  Ok (concat rows).

(** [array()] on the bytes of [data]: [data_height] rows, each of [data_width]
    columns (step 2 for images, which skip the last column and reverse the rows).
    picture.py:274-277, 327-330, 431-434; sizes 244-248, 299-303, 378-382. *)
Definition mono_array (d : bytes) : result (list (list Z)) :=
  rmapM (fun row => try ps := rmapM (fun col => l1_get (firstn 1 (skipn (12 * row + col) d))) (seq 0 12) in
                    Ok (concat ps)) (seq 0 63).
Definition pic_array (d : bytes) : result (list (list rgb)) :=
  rmapM (fun row => try ps := rmapM (fun col => palette_get (firstn 1 (skipn (133 * row + col) d))) (seq 0 133) in
                    Ok (concat ps)) (seq 0 165).
Definition image_array (d : bytes) : result (list (list rgb)) :=
  try rows := rmapM (fun row => rmapM (fun col => rgb565_get (firstn 2 (skipn (268 * row + 2 * col) d))) (seq 0 133)) (seq 0 83) in
  Ok (rev rows).

(** * Entries *)

(** [get_version] of pictures: the default [versions[0]].  var.py:685-696;
    picture.py:290, 369. *)
Definition pic_version (e : entry) (_ : option bytes) : out Z :=
  match versions (e_cls e) with v :: _ => oret v | [] => oerr IndexError end.
(** [load_array].  picture.py:270-272, 323-325, 427-429. *)
Definition mono_load (e : entry) (arr : list (list Z)) : out entry :=
  do b := olift (mono_bytes arr) in set_data pic_version e b.
Definition pic_load (e : entry) (arr : list (list rgb)) : out entry :=
  do b := pic_bytes arr in set_data pic_version e b.
Definition image_load (e : entry) (arr : list (list rgb)) : out entry :=
  do b := olift (image_bytes arr) in set_data pic_version e b.

(** * Image names *)

Section ImageNames.
  (** The decimal digits outside ASCII, which [\d] and [int(c, 16)] accept. *)
  Variable uni_digit : Z -> option Z.
  Definition image_digit (c : Z) : option Z :=
    if (48 <=? c) && (c <=? 57) then Some (c - 48) else uni_digit c.
  (** [re.fullmatch(r"(Image)?\d", value)]: the digit.  picture.py:349. *)
  Definition image_match (s : str) : option Z :=
    let s := if starts_with (s2l "Image") s then skipn 5 s else s in
    match s with [c] => image_digit c | _ => None end.
  (** [ImageName.get].  picture.py:343-345. *)
  Definition image_name_get (d : bytes) : result str :=
    try b := byte_at d 1 in Ok (s2l "Image" ++ str_of_int (b + 1)).
  (** [ImageName.set]; [bytes([-1])] raises ValueError.  picture.py:347-354. *)
  Definition image_name_set (s : str) : out bytes :=
    do n := match image_match s with
            | Some n => oret n
            | None => do _ := owarn WImageName in oret 1
            end in
    do b := olift (bytes_of [n - 1]) in
    oret (60 :: b).
  (** The section of eight bytes.  picture.py:400-406; data.py:380-420. *)
  Definition set_image_name (e : entry) (s : str) : out entry :=
    do b := section_set_raw (Some 8%nat) (image_name_set s) in oret (with_name e b).
  Definition image_name (e : entry) : result str := section_get (image_name_get (e_name e)).
End ImageNames.
