(** Specifications for GDBs and settings: the layout of a GDB, written without the
    functions of M_Gdb. *)
From Verif Require Import PyBase M_Class S_Var.

(** Shape of each plotting mode: number of window parameters, number of style
    groups, equations per group. *)
Definition shape (c : cls) : option (nat * nat * nat) :=
  match c with
  | KMonoFunc | KFunc => Some (1, 10, 1)
  | KMonoParam | KParam => Some (3, 6, 2)
  | KMonoPolar | KPolar => Some (3, 6, 1)
  | KMonoSeq | KSeq => Some (10, 3, 1)
  | _ => None
  end%nat.
(** The classes with colour data. *)
Definition colour (c : cls) : bool := match c with KFunc | KParam | KPolar | KSeq => true | _ => false end.

(** An equation: flag byte and token bytes; stored with its length between. *)
Record eqn := Eqn { x_flag : Z; x_body : bytes }.
Definition eqn_bytes (q : eqn) : bytes := x_flag q :: le16 (zlen (x_body q)) ++ x_body q.
Definition eqn_ok (q : eqn) : Prop := zlen (x_body q) < 65536.

(** The colour part: three magic bytes, one colour per group, five more bytes. *)
Record tail := Tail { t_magic : bytes; t_colors : bytes; t_rest : bytes }.
(** A GDB: everything before the styles, the styles, the equations, the colours. *)
Record gdb := Gdb { g_head : bytes; g_styles : bytes; g_eqns : list eqn; g_tail : option tail }.
Definition tail_bytes (t : option tail) : bytes :=
  match t with None => [] | Some t => t_magic t ++ t_colors t ++ t_rest t end.
Definition gdb_bytes (g : gdb) : bytes :=
  g_head g ++ g_styles g ++ concat (map eqn_bytes (g_eqns g)) ++ tail_bytes (g_tail g).
Definition gdb_ok (c : cls) (g : gdb) : Prop :=
  exists p s r, shape c = Some (p, s, r) /\
    length (g_head g) = (61 + 9 * p)%nat /\ length (g_styles g) = s /\
    length (g_eqns g) = (s * r)%nat /\ Forall eqn_ok (g_eqns g) /\
    match g_tail g with
    | None => True
    | Some t => length (t_magic t) = 3%nat /\ length (t_colors t) = s /\ length (t_rest t) = 5%nat
    end.

(** Replacing one element. *)
Definition replace_at {A} (i : nat) (v : A) (l : list A) : list A :=
  map (fun p => if Nat.eqb (fst p) i then v else snd p) (combine (seq 0 (length l)) l).

(** The style and colour of equation [i] when [r] equations share each. *)
Definition group_of (c : cls) (i : nat) : nat := match shape c with Some (_, _, r) => Nat.div i r | None => 0%nat end.
Definition leads (c : cls) (i : nat) : bool := match shape c with Some (_, _, r) => Nat.eqb (Nat.modulo i r) 0 | None => false end.
Definition color_at (g : gdb) (k : nat) : Z := match g_tail g with Some t => nth k (t_colors t) 0 | None => 0 end.

(** A GDB after equation [i] becomes [q]; style [st] and colour [co] are stored
    only when the equation is the first of its group. *)
Definition assign (c : cls) (i : nat) (q : eqn) (st co : Z) (g : gdb) : gdb :=
  let at_group v l := if leads c i then replace_at (group_of c i) v l else l in
  Gdb (g_head g) (at_group st (g_styles g)) (replace_at i q (g_eqns g))
      (option_map (fun t => Tail [56; 52; 67] (at_group co (t_colors t)) (t_rest t)) (g_tail g)).
(** A GDB without its colours. *)
Definition strip (g : gdb) : gdb := Gdb (g_head g) (g_styles g) (g_eqns g) None.
(** The graphing mode stored in byte 3 of each mode's GDBs. *)
Definition mode_value (c : cls) : Z :=
  match c with
  | KMonoFunc | KFunc => 16 | KMonoParam | KParam => 64
  | KMonoPolar | KPolar => 32 | KMonoSeq | KSeq => 128 | _ => 0
  end.
(** The class of the same mode without colour. *)
Definition mono_of (c : cls) : cls :=
  match c with KFunc => KMonoFunc | KParam => KMonoParam | KPolar => KMonoPolar | KSeq => KMonoSeq | _ => c end.

(** Payload sizes for which all fields exist: fixed for settings, at least the
    size of an empty GDB of the mode otherwise. *)
Definition size_ok (c : cls) (n : Z) : Prop :=
  match c with
  | KWindow => n = 210 | KRecallWindow => n = 209 | KTable => n = 20
  | KMonoGDB => 61 <= n | KGDB => 66 <= n
  | KMonoFunc => 110 <= n | KFunc => 128 <= n
  | KMonoParam => 130 <= n | KParam => 144 <= n
  | KMonoPolar => 112 <= n | KPolar => 126 <= n
  | KMonoSeq => 163 <= n | KSeq => 174 <= n
  | _ => False
  end.
