(** Model of /repo/tivars/types/list.py and /repo/tivars/types/matrix.py. *)
From Verif Require Import PyBase M_Data M_Flags M_Models M_Class M_Var M_Real M_Complex.

(** [zip] over [n] references to one iterator: consecutive groups of [n], an incomplete last group
    is dropped; with [n = 0] there is no group.  list.py:135, 139, 179;
    matrix.py:120, 124, 173, 175.  The fuel [length l] suffices (proved). *)
Fixpoint chunks_fuel {A} (fuel n : nat) (l : list A) : list (list A) :=
  match fuel with
  | O => []
  | S f => if (Nat.eqb n 0 || Nat.ltb (length l) n)%bool then []
           else firstn n l :: chunks_fuel f n (skipn n l)
  end.
Definition chunks {A} (n : nat) (l : list A) : list (list A) := chunks_fuel (length l) n l.

(** [map] with effects, left to right. *)
Fixpoint omapM {A B} (f : A -> out B) (l : list A) : out (list B) :=
  match l with
  | [] => oret []
  | a :: r => do b := f a in do bs := omapM f r in oret (b :: bs)
  end.

(** [_E] of the list classes; a matrix always uses RealEntry.  list.py:79, 211,
    228; matrix.py:120. *)
Definition elem_cls (c : cls) : cls :=
  match c with KRealList | KMatrix => KRealEntry | KComplexList => KComplexEntry | _ => KEntry end.
(** [_E.min_data_length]. *)
Definition elem_size (c : cls) : nat := Z.to_nat (min_data_length (elem_cls c)).

(** [get_version] of an element: complex.py:271-282; the real classes inherit
    [versions[0]] from var.py:685-696. *)
Definition elem_version (e : entry) (arg : option bytes) : out Z :=
  if issubclass (e_cls e) KComplexEntry then olift (complex_version e arg)
  else olift (py_index (versions (e_cls e)) 0).

(** The [length] view of a list, with its pre-converter.  list.py:116-128. *)
Definition list_length (e : entry) : Z := integer_get (view_get (View (Some 0) (Some 2)) (e_data e)).
Definition set_list_length (e : entry) (v : Z) : out entry :=
  do _ := owarn_if (999 <? v) WListLength in
  do b := view_set None (View (Some 0) (Some 2)) (olift (integer_set v (Some 2%nat))) (e_data e) in
  oret (with_data e b).
(** [self.data = v] on a list or matrix ([Bytes] converter).  list.py:130,
    matrix.py:107. *)
Definition set_list_data (e : entry) (v : bytes) : out entry :=
  do b := view_set None (View (Some 2) None) (oret v) (e_data e) in oret (with_data e b).
(** [TIList.load_list].  list.py:163-172. *)
Definition load_list (e : entry) (xs : list entry) : out entry :=
  do e := set_list_length e (zlen xs) in
  set_list_data e (concat (map calc_data xs)).

(** The [width] and [height] views of a matrix with their pre-converters, each
    of which reads the other field as it is at that moment.  matrix.py:69-105. *)
Definition width (e : entry) : Z := integer_get (view_get (View (Some 0) (Some 1)) (e_data e)).
Definition height (e : entry) : Z := integer_get (view_get (View (Some 1) (Some 2)) (e_data e)).
Definition set_width (e : entry) (v : Z) : out entry :=
  do _ := owarn_if (99 <? v) WMatrixSize in
  do _ := owarn_if (400 <? v * height e) WMatrixSize in
  do b := view_set None (View (Some 0) (Some 1)) (olift (integer_set v (Some 1%nat))) (e_data e) in
  oret (with_data e b).
Definition set_height (e : entry) (v : Z) : out entry :=
  do _ := owarn_if (99 <? v) WMatrixSize in
  do _ := owarn_if (400 <? width e * v) WMatrixSize in
  do b := view_set None (View (Some 1) (Some 2)) (olift (integer_set v (Some 1%nat))) (e_data e) in
  oret (with_data e b).
(** [size].  matrix.py:111-117. *)
Definition size (e : entry) : Z := width e * height e.
(** [len({len(row) for row in matrix}) > 1]: not all rows have the length of
    the first.  matrix.py:161. *)
Definition uneven {A} (m : list (list A)) : bool :=
  match m with
  | [] => false
  | r :: rest => negb (forallb (fun x => Nat.eqb (length x) (length r)) rest)
  end.
(** [TIMatrix.load_matrix].  matrix.py:153-166. *)
Definition load_matrix (e : entry) (m : list (list entry)) : out entry :=
  if uneven m then oerr IndexError
  else
    do e := set_width e (zlen (match m with r :: _ => r | [] => [] end)) in
    do e := set_height e (zlen m) in
    set_list_data e (concat (map calc_data (concat m))).

Section Lists.
  (** As in M_Var.v: the name encoder and the program text test. *)
  Variable name_set : cls -> str -> out bytes.
  Variable prog_scan : bytes -> option bool.

  (** [_E(for_flash=..., data=...)], [_E()]: the default name of RealEntry and
      ComplexEntry is "A", of TIEntry "UNNAMED".  list.py:136, 140, 180;
      matrix.py:121, 125, 174; real.py:55-60; complex.py:123-128. *)
  Definition elem_new (c : cls) (for_flash : bool) (d : bytes) : out entry :=
    entry_new name_set elem_version prog_scan c for_flash
      (match c with KEntry => s2l "UNNAMED" | _ => s2l "A" end) None None d.

  (** [TIList.get_version], [TIMatrix.get_version].  list.py:138-149;
      matrix.py:123-134. *)
  Definition list_version (e : entry) (arg : option bytes) : out Z :=
    let d := match arg with Some ((_ :: _) as d) => d | _ => data e end in
    do x := elem_new (elem_cls (e_cls e)) true [] in
    do vs := omapM (fun t => elem_version x (Some t)) (chunks (elem_size (e_cls e)) d) in
    let v := fold_left Z.max vs 0 in
    oret (if v >? 27 then 16 else if v =? 27 then 11 else 0).

  (** [TIList.list].  list.py:174-180.  [bool(self.flash_bytes)]. *)
  Definition has_flash (e : entry) : bool := match flash_bytes e with [] => false | _ => true end.
  Definition list_elems (e : entry) : out (list entry) :=
    omapM (elem_new (elem_cls (e_cls e)) (has_flash e)) (chunks (elem_size (e_cls e)) (data e)).

  (** [TIMatrix.matrix].  matrix.py:168-175. *)
  Definition matrix_rows (e : entry) : out (list (list entry)) :=
    omapM (omapM (elem_new KRealEntry (has_flash e)))
      (chunks (Z.to_nat (width e)) (chunks 9 (data e))).

  (** [TIList.load_bytes]: the class after loading decides the element size.
      list.py:154-161. *)
  Definition list_load (c : cls) (input : bytes) : out entry :=
    do e := entry_load prog_scan c input in
    let n := min_data_length (elem_cls (e_cls e)) in
    do _ := owarn_if (negb (n =? 0) && negb (calc_data_length e / n =? list_length e)) WListLength in
    oret e.
  (** [TIMatrix.load_bytes].  matrix.py:139-146. *)
  Definition matrix_load (c : cls) (input : bytes) : out entry :=
    do e := entry_load prog_scan c input in
    do _ := owarn_if (negb (calc_data_length e / 9 =? size e)) WMatrixSize in
    oret e.
End Lists.
