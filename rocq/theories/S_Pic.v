(** Specifications for pictures, without the functions of M_Pic (only its colour
    type and the palette table). *)
From Verif Require Import PyBase M_Class M_Data M_Var M_Pic S_Var.

(** A rectangular array. *)
Definition grid {A} (h w : nat) (arr : list (list A)) : Prop :=
  length arr = h /\ Forall (fun row => length row = w) arr.

(** The pixel a mono picture shows for the bit [i] (from the left) of a byte:
    white (255) where the bit is clear. *)
Definition mono_pixel (b : Z) (i : nat) : Z := if Z.testbit b (7 - Z.of_nat i) then 0 else 255.

(** Squared distance of two colours, and being a nearest palette colour. *)
Definition sqdist (p q : rgb) : Z :=
  (fst (fst p) - fst (fst q)) ^ 2 + (snd (fst p) - snd (fst q)) ^ 2 + (snd p - snd q) ^ 2.
Definition nearest_to (c n : rgb) : Prop :=
  In n palette /\ forall x, In x palette -> sqdist c n <= sqdist c x.

(** Byte of a palette picture after a round trip: index 11 (the second white)
    becomes index 0. *)
Definition canon_index (i : Z) : Z := if i =? 11 then 0 else i.
Definition canon_byte (b : Z) : Z := 16 * canon_index (b / 16) + canon_index (b mod 16).

(** Channels of a pixel in range. *)
Definition rgb_ok (c : rgb) : Prop := is_byte (fst (fst c)) /\ is_byte (snd (fst c)) /\ is_byte (snd c).
(** [q] is [c] with each channel off by less than a quantisation step: 255/31 for
    red and blue, 255/63 for green. *)
Definition close (c q : rgb) : Prop :=
  31 * Z.abs (fst (fst c) - fst (fst q)) < 255 /\ 63 * Z.abs (snd (fst c) - snd (fst q)) < 255 /\ 31 * Z.abs (snd c - snd q) < 255.

(** The image data with the two padding bytes after each row of 133 pixels
    cleared. *)
Definition clear_padding (rows : list bytes) : bytes := concat (map (fun row => firstn 266 row ++ [0; 0]) rows).

(** A picture entry whose parts a setter can write: flash bytes, a version byte,
    and a mutable buffer of at least [n] bytes. *)
Definition writable (n : nat) (e : entry) : Prop :=
  e_meta e = le16 13 /\ (exists v, e_version e = [v] /\ is_byte v) /\
  b_mut (e_data e) = true /\ (n <= length (b_data (e_data e)))%nat.
