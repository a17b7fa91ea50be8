(** What class an entry of a file has, in terms of its type byte [t] and its data
    [d] alone.  [asm] says whether program bytes are an assembly program. *)
From Verif Require Import PyBase M_Class.

(** The byte at position [i], zero beyond the end. *)
Definition at_ (i : nat) (d : bytes) : Z := nth i d 0.
Definition word0 (d : bytes) : Z := at_ 0 d + 256 * at_ 1 d.
(** The types known to the library. *)
Definition known_types : list Z :=
  [0; 1; 2; 3; 4; 5; 6; 7; 8; 11; 12; 13; 14; 15; 16; 17; 21; 23; 24; 26; 27; 28; 29; 30; 31; 32; 33; 35].
(** The first element of a list: five bits of its first byte. *)
Definition real_element (d : bytes) : Prop := In (at_ 2 d mod 32) [0; 14; 24; 28].
Definition complex_element (d : bytes) : Prop := In (at_ 2 d mod 32) [12; 27; 29; 30; 31].
(** Sizes of pictures, as their length words give them. *)
Definition picture_sizes : list Z := [756; 21945; 22245].
(** The fixed part of a graph database, without colours, is 61 bytes long; its
    fourth byte is the graph mode. *)
Definition mono_gdb (t : Z) (d : bytes) : Prop := t = 8 /\ zlen d <= 61.
Definition colour_gdb (t : Z) (d : bytes) : Prop := t = 8 /\ 61 < zlen d.
Definition graph_modes : list Z := [16; 64; 32; 128].

Definition class_asked (asm : bytes -> Prop) (t : Z) (d : bytes) (c : cls) : Prop :=
  match c with
  | KEntry => ~ In t known_types
  | KReal => t = 0 | KUndefReal => t = 14 | KRealFraction => t = 24 | KRealRadical => t = 28
  | KRealPi => t = 32 | KRealPiFraction => t = 33
  | KComplex => t = 12 | KComplexFraction => t = 27 | KComplexRadical => t = 29
  | KComplexPi => t = 30 | KComplexPiFraction => t = 31
  | KRealList => (t = 1 \/ t = 13) /\ real_element d \/ t = 1 /\ ~ complex_element d
  | KComplexList => (t = 1 \/ t = 13) /\ complex_element d \/ t = 13 /\ ~ real_element d
  | KMatrix => t = 2 | KEquation => t = 3 | KNewEquation => t = 11 | KString => t = 4
  | KProgram => t = 5 /\ ~ asm (skipn 2 d) | KAsmProgram => t = 5 /\ asm (skipn 2 d)
  | KProtectedProgram => t = 6 /\ ~ asm (skipn 2 d) | KProtectedAsmProgram => t = 6 /\ asm (skipn 2 d)
  | KMonoPicture => (t = 7 \/ t = 26) /\ word0 d = 756
  | KTIPicture => (t = 7 \/ t = 26) /\ word0 d = 21945 \/ t = 7 /\ ~ In (word0 d) picture_sizes
  | KImage => (t = 7 \/ t = 26) /\ word0 d = 22245 \/ t = 26 /\ ~ In (word0 d) picture_sizes
  | KMonoFunc => mono_gdb t d /\ at_ 3 d = 16 | KFunc => colour_gdb t d /\ at_ 3 d = 16
  | KMonoParam => mono_gdb t d /\ at_ 3 d = 64 | KParam => colour_gdb t d /\ at_ 3 d = 64
  | KMonoPolar => mono_gdb t d /\ at_ 3 d = 32 | KPolar => colour_gdb t d /\ at_ 3 d = 32
  | KMonoSeq => mono_gdb t d /\ at_ 3 d = 128 | KSeq => colour_gdb t d /\ at_ 3 d = 128
  | KMonoGDB => mono_gdb t d /\ ~ In (at_ 3 d) graph_modes
  | KGDB => colour_gdb t d /\ ~ In (at_ 3 d) graph_modes
  | KWindow => t = 15 | KRecallWindow => t = 16 | KTable => t = 17
  | KGroup => t = 23 | KAppVar => t = 21
  | KSized | KRealEntry | KGraphReal | KComplexEntry | KList | KTokenized | KPicture
  | KGraphedEquation | KSettings => False
  end.
